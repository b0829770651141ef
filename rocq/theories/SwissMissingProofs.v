(** Proofs about steps that some variable does not have (C62). *)
From Coq Require Import Ascii String ZArith List Bool Lia.
From Verif Require Import Base F32 Grib2Model GeoModel Par ForecastModel ForecastProofs FetchModel ChartModel DwdModel SwissModel.
Import ListNotations.
Open Scope Z_scope.

Lemma no_step steps n : ~ In n (map st_nr steps) -> step_by_nr steps n = Err EInvalid.
Proof.
  intro N. pose proof (c48_lookup_proof steps n) as L. destruct (step_by_nr steps n) as [s|e|] eqn:E.
  - destruct L as (Es & l1 & l2 & -> & _). destruct N. rewrite map_app, in_app_iff. right. left. exact Es.
  - unfold step_by_nr in E. destruct (find _ steps); congruence.
  - destruct L.
Qed.
Lemma step_case steps n : (exists s, step_by_nr steps n = Ok s) \/ step_by_nr steps n = Err EInvalid.
Proof.
  unfold step_by_nr. destruct (find _ steps); eauto.
Qed.
Lemma bind_of {A B} (v : outcome A) (f : A -> result B) o :
  r_bind (r_of v) f o <-> match v with Ok a => f a o | Err e => o = Err e | Panic => o = Panic end.
Proof.
  unfold r_bind, r_of. split.
  - intros (x & -> & H). exact H.
  - intro H. exists v. split; [reflexivity|exact H].
Qed.

Lemma c62_swiss_missing_proof chk powi fetch u hhl s t2m us vs gs clct prec ceiling clc :
  let lacks steps n := ~ In n (map st_nr steps) in
  (lacks t2m (st_nr s) -> forall o, swiss_read_temp chk powi fetch t2m u s o <-> o = Panic) /\
  (lacks us (st_nr s) \/ lacks vs (st_nr s) \/ lacks gs (st_nr s) ->
     forall o, swiss_read_wind chk powi fetch us vs gs u s o <-> o = Err EInvalid) /\
  (0 < st_nr s -> lacks clct (st_nr s) \/ lacks prec (st_nr s - 1) \/ lacks prec (st_nr s) ->
     forall o, swiss_read_cloud_precip chk powi fetch clct prec u s o <-> o = Panic) /\
  (lacks clct (st_nr s) \/ lacks ceiling (st_nr s) ->
     forall o, swiss_read_weather chk powi fetch clct ceiling u s o <-> o = Panic) /\
  (lacks clc (st_nr s) -> forall o, swiss_read_vertical_cloud chk powi fetch clc u hhl s o <-> o = Panic) /\
  (lacks us (st_nr s) \/ lacks vs (st_nr s) ->
     forall o, swiss_read_vertical_wind chk powi fetch us vs u hhl s o <-> o = Panic).
Proof.
  cbv zeta.
  split; [|split; [|split; [|split; [|split]]]].
  - intros L o. unfold swiss_read_temp. rewrite bind_of, (no_step _ _ L). reflexivity.
  - intros L o. unfold swiss_read_wind. rewrite bind_of.
    destruct (step_case us (st_nr s)) as [[a Ea]|Ea]; rewrite Ea; [|reflexivity]. rewrite bind_of.
    destruct (step_case vs (st_nr s)) as [[b Eb]|Eb]; rewrite Eb; [|reflexivity]. rewrite bind_of.
    destruct L as [L|[L|L]]; apply no_step in L; try congruence. rewrite L. reflexivity.
  - intros P L o. unfold swiss_read_cloud_precip. rewrite bind_of.
    destruct (step_case clct (st_nr s)) as [[a Ea]|Ea]; rewrite Ea; [|reflexivity]. cbn [unwrap]. rewrite bind_of.
    assert (U : usub chk 64 (st_nr s) 1 = Ok (st_nr s - 1)).
    { unfold usub. replace (1 <=? st_nr s) with true by (symmetry; apply Z.leb_le; lia). reflexivity. }
    rewrite U, bind_of.
    destruct (step_case prec (st_nr s - 1)) as [[b Eb]|Eb]; rewrite Eb; [|reflexivity]. cbn [unwrap]. rewrite bind_of.
    destruct L as [L|[L|L]]; apply no_step in L; try congruence. rewrite L. reflexivity.
  - intros L o. unfold swiss_read_weather. rewrite bind_of.
    destruct (step_case clct (st_nr s)) as [[a Ea]|Ea]; rewrite Ea; [|reflexivity]. cbn [unwrap]. rewrite bind_of.
    destruct L as [L|L]; apply no_step in L; try congruence. rewrite L. reflexivity.
  - intros L o. unfold swiss_read_vertical_cloud. rewrite bind_of, (no_step _ _ L). reflexivity.
  - intros L o. unfold swiss_read_vertical_wind. rewrite bind_of.
    destruct (step_case us (st_nr s)) as [[a Ea]|Ea]; rewrite Ea; [|reflexivity]. cbn [unwrap]. rewrite bind_of.
    destruct L as [L|L]; apply no_step in L; try congruence. rewrite L. reflexivity.
Qed.
