(** The property about the files a rendering depends on (C74).  Two programs are the same if they have the same executions: the same
    effects in the same orders and the same ends. *)
From Coq Require Import String ZArith List Bool Lia.
From Verif Require Import Base F32 Par TileModel ForecastModel ForecastSpec FetchModel FetchSpec DwdModel DwdSpec DwdProperties SwissModel SwissSpec CliModel NeedSpec NeedProofs.
Import ListNotations.
Open Scope Z_scope.

(** C74.  German service: what a rendering does depends only on whether the last files of the runs of today are there, and on the
    files of the latest run that the layers named need for the steps selected. *)
Theorem C74_dwd : forall chk powi fetch fetch' m faulty head head' today today' model variables steps,
  same_heads head head' model today -> same_files fetch fetch' head model today today' variables steps ->
  forall tr r, dwd_render_latest chk powi fetch m faulty head today today' model variables steps tr r <-> dwd_render_latest chk powi fetch' m faulty head' today today' model variables steps tr r.
Proof. exact c74_dwd_proof. Qed.
Print Assumptions C74_dwd.
(** C74.  Swiss service: it depends only on the lists of the constants, of the latest files and of the files of the variables of the layers
    named, on the constants, and on the files for the steps selected. *)
Theorem C74_swiss : forall chk powi rfc3339 sv sv' m faulty steps variables, same_service rfc3339 sv sv' variables steps ->
  forall tr r, swiss_render_latest chk powi rfc3339 sv m faulty steps variables tr r <-> swiss_render_latest chk powi rfc3339 sv' m faulty steps variables tr r.
Proof. exact c74_swiss_proof. Qed.
Print Assumptions C74_swiss.
(** C74.  So a call of the program depends only on these answers of the service of its model: no answer of the other service, and no other
    file of its own, makes a difference to the files, the lines printed or the exit code. *)
Theorem C74_program : forall w w' a, alike w w' a -> forall tr printed code, main w a tr printed code <-> main w' a tr printed code.
Proof. exact c74_program_proof. Qed.
Print Assumptions C74_program.

(** Only one file is needed for the temperatures of one step: all others may be lost. *)
Definition only (url : string) (fetch : fetcher) : fetcher := fun u => if String.eqb u url then fetch u else fun o => o = Err EIo.
Definition temp_5 : string := "https://opendata.dwd.de/weather/nwp/icon-d2/grib/06/t_2m/icon-d2_germany_regular-lat-lon_single-level_2025112006_005_2d_t_2m.grib2.bz2".
Lemma temp_named t : named ["temp_2m"%string] t <-> t = Temp2m.
Proof. split; [intros [E|[E|[]]]; [discriminate E|destruct t; first [discriminate E|reflexivity]]|intros ->; right; left; reflexivity]. Qed.
Example C74_dwd_sample : forall fetch, same_files fetch (only temp_5 fetch) sample_heads IconD2 (day_of 2025 11 20) (day_of 2025 11 20) ["temp_2m"%string] [5; 99].
Proof.
  intros fetch run f u R N U. assert (E : find_latest_run sample_heads IconD2 (day_of 2025 11 20) (day_of 2025 11 20) = Ok (run_of IconD2 (day_of 2025 11 20) "06")) by (vm_compute; reflexivity).
  rewrite E in R. injection R as <-. destruct N as [v n N _ _|n N _|v n N _ _|n N [B W]|level N _|n level N _ _|v n level N _ _ _];
    try (exfalso; apply temp_named in N; discriminate N); try (exfalso; destruct N as [N|N]; apply temp_named in N; discriminate N).
  destruct W as [W|[W|[W|[]]]]; [discriminate W| |exfalso; subst n; cbn in B; lia]. subst n.
  assert (T : dwd_url (run_of IconD2 (day_of 2025 11 20) "06") (SingleFile T2m 5) = Ok temp_5) by (vm_compute; reflexivity). rewrite T in U. injection U as <-.
  unfold only. intro o. rewrite String.eqb_refl. tauto.
Qed.
(** The files of the other variables need not be found, only those of the temperatures (and the constants). *)
Definition only_temp (sv : service) : service :=
  {| sv_search := fun rq => match rq_var rq with Some "T_2M"%string => sv_search sv rq | _ => fun o => o = Panic end; sv_assets := sv_assets sv; sv_fetch := sv_fetch sv |}.
Example C74_swiss_sample : forall rfc3339 sv, same_service rfc3339 sv (only_temp sv) ["temp_2m"%string] [5].
Proof.
  intros rfc3339 sv. split; [intro o; tauto|]. split; [intro o; cbn; tauto|]. split; [intros assets a _ _ o; cbn; tauto|]. split; [intros assets a _ _ _ o; cbn; tauto|].
  intros time _. split; [|intros v n files f _ _ _ o; cbn; tauto]. intros t v N V. apply temp_named in N. subst t. destruct V as [<-|[]]. intro o. cbn. tauto.
Qed.
Definition lost_world (w : world) : world :=
  {| wo_chk := wo_chk w; wo_powi := wo_powi w; wo_libm := wo_libm w; wo_faulty := wo_faulty w; wo_fetch := fun _ o => o = Panic; wo_heads := fun _ _ => None;
     wo_today := wo_today w; wo_today' := wo_today' w; wo_service := only_temp (wo_service w); wo_rfc3339 := wo_rfc3339 w; wo_text := wo_text w |}.
Example C74_program_sample : forall w, alike w (lost_world w) {| ar_model := "icon-ch1"; ar_variables := ["temp_2m"%string]; ar_steps := [5] |}.
Proof.
  intro w. unfold alike. cbn [lost_world wo_chk wo_powi wo_libm wo_faulty wo_today wo_today' wo_rfc3339 wo_text wo_service ar_model ar_variables ar_steps]. repeat (split; [reflexivity|]).
  split; [intros m [[E _]|[E _]]; discriminate E|]. intros _. apply C74_swiss_sample.
Qed.
(** Finding: the last file of a variable that is not asked for does make a difference.  Without that of the weather, the run before is rendered. *)
Definition no_weather (n : nat) (url : string) : option Z :=
  if String.eqb url "https://opendata.dwd.de/weather/nwp/icon-d2/grib/06/ww/icon-d2_germany_regular-lat-lon_single-level_2025112006_048_2d_ww.grib2.bz2" then Some 404 else sample_heads n url.
Example C74_probe : find_latest_run sample_heads IconD2 (day_of 2025 11 20) (day_of 2025 11 20) = Ok (run_of IconD2 (day_of 2025 11 20) "06") /\
  find_latest_run no_weather IconD2 (day_of 2025 11 20) (day_of 2025 11 20) = Ok (run_of IconD2 (day_of 2025 11 20) "03").
Proof. split; vm_compute; reflexivity. Qed.
