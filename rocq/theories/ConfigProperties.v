(** The property about the table of models (C94). *)
From Coq Require Import String ZArith List Bool Lia.
From Verif Require Import Base Text TileModel ForecastModel DwdModel DwdSpec DwdProperties ConfigModel ConfigSpec ConfigProofs.
Import ListNotations.
Open Scope Z_scope.

(** C94.  The table has each model's own entry and the name that the program uses in its paths. *)
Theorem C94_names : forall t, cf_model (dwd_config_of t) = t /\ type_name t = model_name (model_of t).
Proof. intro t. exact (conj (c94_same_proof t) (c94_names_proof t)). Qed.
Print Assumptions C94_names.
(** C94.  All steps that the program renders are in the table except for the last one (finding). *)
Theorem C94_steps : forall t, (forall s, In s (forecast_steps (model_of t)) -> In (st_nr s) (cf_steps (dwd_config_of t)) \/ st_nr s = snd (step_range (model_of t))) /\
  ~ In (snd (step_range (model_of t))) (cf_steps (dwd_config_of t)).
Proof. intro t. exact (conj (c94_steps_proof t) (c94_last_proof t)). Qed.
Print Assumptions C94_steps.
(** C94.  The table has exactly the steps from 0 up to, but without, the last one that the program renders, and an hour every three hours
    for icon-d2, every six hours for the others. *)
Theorem C94_all : forall t n, In n (cf_steps (dwd_config_of t)) <-> 0 <= n < snd (step_range (model_of t)).
Proof. exact c94_all_proof. Qed.
Print Assumptions C94_all.
Theorem C94_hours : forall t h, In h (cf_hours (dwd_config_of t)) <-> 0 <= h < 24 /\ h mod (match t with TypeD2 => 3 | _ => 6 end) = 0.
Proof. exact c94_hours_proof. Qed.
Print Assumptions C94_hours.
(** C94.  All runs of icon-d2 that the program can find are in the table. *)
Theorem C94_runs : forall head today today' run, find_latest_run head IconD2 today today' = Ok run ->
  exists h, In h (cf_hours (dwd_config_of TypeD2)) /\ run_name run = dec_pad 2 h.
Proof. exact c94_runs_proof. Qed.
Print Assumptions C94_runs.

Example C94_sample : find_latest_run sample_heads IconD2 today today = Ok (run_of IconD2 today "06") /\ In {| st_nr := 48; st_url := "" |} (forecast_steps (model_of TypeD2)).
Proof. split; [exact (proj1 C50_sample)|]. vm_compute. tauto. Qed.
(** Finding: a run of icon-eu that the table does not list may be found. *)
Example C94_icon_eu : find_latest_run (fun _ url => if String.prefix "https://opendata.dwd.de/weather/nwp/icon-eu/grib/03/" url then Some 200 else Some 404) IconEu today today =
  Ok (run_of IconEu today "03") /\ forall h, In h (cf_hours (dwd_config_of TypeEu)) -> dec_pad 2 h <> "03"%string.
Proof. split; [vm_compute; reflexivity|]. intros h J. cbn in J. destruct J as [<-|[<-|[<-|[<-|[]]]]]; discriminate. Qed.
