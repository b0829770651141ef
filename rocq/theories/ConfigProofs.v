(** Proofs about the table of models (C94). *)
From Coq Require Import String ZArith List Bool Lia.
From Verif Require Import Base Text TileModel TileProofs ForecastModel DwdModel DwdSpec DwdProofs ConfigModel ConfigSpec.
Import ListNotations.
Open Scope Z_scope.

Lemma c94_names_proof : forall t, type_name t = model_name (model_of t).
Proof. destruct t; reflexivity. Qed.
Lemma c94_same_proof : forall t, cf_model (dwd_config_of t) = t.
Proof. destruct t; reflexivity. Qed.
Lemma c94_steps_proof : forall t s, In s (forecast_steps (model_of t)) -> In (st_nr s) (cf_steps (dwd_config_of t)) \/ st_nr s = snd (step_range (model_of t)).
Proof.
  intros t s J. apply in_map_iff in J. destruct J as (n & <- & J). apply in_range in J. cbn [st_nr].
  destruct t; cbn [dwd_config_of cf_steps model_of step_range fst snd] in *; rewrite in_range; lia.
Qed.
Lemma c94_last_proof : forall t, ~ In (snd (step_range (model_of t))) (cf_steps (dwd_config_of t)).
Proof. intros t J. destruct t; cbn [dwd_config_of cf_steps model_of step_range snd] in J; rewrite in_range in J; lia. Qed.
Lemma c94_runs_proof : forall head today today' run, find_latest_run head IconD2 today today' = Ok run ->
  exists h, In h (cf_hours (dwd_config_of TypeD2)) /\ run_name run = dec_pad 2 h.
Proof.
  intros head today today' run F. destruct (c50_latest_proof head IconD2 today today' (or_introl eq_refl)) as (run' & F' & C). rewrite F in F'. injection F' as <-.
  assert (N : In (run_name run) run_names).
  { destruct C as [(name & later & -> & B & _)|[-> _]]; cbn [run_of run_name]; [|cbn; tauto].
    destruct B as (earlier & E). assert (J : In name (earlier ++ name :: later)) by apply in_elt. rewrite <- E in J. exact J. }
  cbn [dwd_config_of cf_hours].
  destruct N as [N|[N|[N|[N|[N|[N|[N|[N|[]]]]]]]]]; rewrite <- N; [exists 0|exists 3|exists 6|exists 9|exists 12|exists 15|exists 18|exists 21]; (split; [cbn; tauto|reflexivity]).
Qed.
Lemma c94_all_proof : forall t n, In n (cf_steps (dwd_config_of t)) <-> 0 <= n < snd (step_range (model_of t)).
Proof. intros t n. destruct t; cbn [dwd_config_of cf_steps model_of step_range snd]; rewrite in_range; lia. Qed.
Lemma c94_hours_proof : forall t h, In h (cf_hours (dwd_config_of t)) <-> 0 <= h < 24 /\ h mod (match t with TypeD2 => 3 | _ => 6 end) = 0.
Proof.
  intros t h. assert (K : forall k, 0 < k -> h mod k = 0 -> h = k * (h / k)) by (intros k Hk E; rewrite (Z.div_mod h k) at 1 by lia; lia).
  destruct t; cbn [dwd_config_of cf_hours In]; (split; [intros J; repeat (destruct J as [<-|J]; [split; [lia|reflexivity]|]); destruct J|]);
    intros [B E]; [pose proof (K 3 ltac:(lia) E)|pose proof (K 6 ltac:(lia) E)|pose proof (K 6 ltac:(lia) E)]; lia.
Qed.
