(** C59, C60 and C62 once more, with accurate sines and logarithms in place of the condition on the tiles. *)
From Coq Require Import Ascii String ZArith Reals List Bool Lia.
From Verif Require Import Base F32 F32Facts Grib2Model Grib2Spec Grib2Samples Grib2FloatProofs GeoModel GeoSpec TileModel TileSpec MercatorProofs LibmProofs Par Text
  ChartModel ForecastModel ForecastSpec FetchModel FetchSpec DwdModel DwdSpec DwdProofs DwdProperties MapSpec MapProofs SwissModel SwissSpec SwissProofs SwissProperties SwissSafeProofs FieldSpec PublishSpec PublishProofs PublishProperties OnMapProofs.
Import ListNotations.
Open Scope Z_scope.

(** C59.  If the service has all the files of the run, with grids of the same shape on the map, no selection of layers and steps
    and no schedule makes the rendering fail. *)
Theorem C59_on_map : forall chk powi fetch m head today today' model vars steps run w h e,
  dwd_model model -> valid_date today -> valid_date (prev_day today') -> find_latest_run head model today today' = Ok run ->
  good_run chk powi fetch run w h e -> 0 <= w -> 0 <= h -> libm_accurate m -> on_map e ->
  (exists tr r, dwd_render_latest chk powi fetch m false head today today' model vars steps tr r) /\
  forall tr r, dwd_render_latest chk powi fetch m false head today today' model vars steps tr r -> r = Ok tt.
Proof. exact c59_on_map_proof. Qed.
Print Assumptions C59_on_map.
(** C60.  If the Swiss service has all the files, no selection of layers and steps and no schedule makes the rendering fail. *)
Theorem C60_on_map : forall chk powi rfc3339 sv m steps vars files count,
  good_service chk powi rfc3339 sv files count -> (1 <= count)%nat -> libm_accurate m ->
  (exists tr r, swiss_render_latest chk powi rfc3339 sv m false steps vars tr r) /\
  forall tr r, swiss_render_latest chk powi rfc3339 sv m false steps vars tr r -> r = Ok tt.
Proof. exact c60_on_map_proof. Qed.
Print Assumptions C60_on_map.
(** C62.  If files of the run cannot be had or read, the rendering ends with such an error or without one; it does not panic. *)
Theorem C62_dwd_on_map : forall lost chk powi fetch m head today today' model vars steps run w h e,
  dwd_model model -> valid_date today -> valid_date (prev_day today') -> find_latest_run head model today today' = Ok run ->
  run_files chk powi fetch lost run w h e -> 0 <= w -> 0 <= h -> libm_accurate m -> on_map e ->
  (exists tr r, dwd_render_latest chk powi fetch m false head today today' model vars steps tr r) /\
  forall tr r, dwd_render_latest chk powi fetch m false head today today' model vars steps tr r -> r = Ok tt \/ exists er, r = Err er /\ lost er.
Proof. exact c62_dwd_on_map_proof. Qed.
Print Assumptions C62_dwd_on_map.
(** C62.  The same for the Swiss service. *)
Theorem C62_swiss_on_map : forall lost chk powi rfc3339 sv m steps vars files count,
  service_files chk powi lost rfc3339 sv files count -> (1 <= count)%nat -> libm_accurate m ->
  (exists tr r, swiss_render_latest chk powi rfc3339 sv m false steps vars tr r) /\
  forall tr r, swiss_render_latest chk powi rfc3339 sv m false steps vars tr r -> r = Ok tt \/ exists er, r = Err er /\ lost er.
Proof. exact c62_swiss_on_map_proof. Qed.
Print Assumptions C62_swiss_on_map.

(** With the exact functions, rounded, and the services of C59, C60 and C62. *)
Lemma low_on_map : on_map low_extent.
Proof.
  assert (R : read_as powi_rt low_message (f32_of_Z (-1)) (fun x => x) (low_grid (f32_of_Z (-1)) (fun x => x))) by (vm_compute; reflexivity).
  assert (U : understood true low_message) by (split; [exact low_wf|]; split; [reflexivity|]; do 2 eexists; reflexivity).
  exact (mapped_on_map true powi_rt low_message _ U R low_mapped).
Qed.
Example C59_on_map_sample : exists tr, dwd_render_latest true powi_rt DwdProperties.served ideal false sample_heads today today IconD2 [] [5; 6] tr (Ok tt).
Proof.
  destruct C50_sample as (F & M & _ & _ & V & V').
  destruct (C59_on_map true powi_rt DwdProperties.served ideal sample_heads today today IconD2 [] [5; 6] the_run 3 2 low_extent
    M V V' F low_good_run ltac:(lia) ltac:(lia) ideal_accurate low_on_map) as [(tr & r & R) A].
  exists tr. rewrite <- (A tr r R). exact R.
Qed.
Example C60_on_map_sample : exists tr, swiss_render_latest true powi_rt zulu swiss_sample ideal false [] [] tr (Ok tt).
Proof.
  destruct (C60_on_map true powi_rt zulu swiss_sample ideal [] [] 3 2 swiss_sample_good ltac:(lia) ideal_accurate) as [(tr & r & R) A].
  exists tr. rewrite <- (A tr r R). exact R.
Qed.
Example C62_on_map_sample : (exists tr r, dwd_render_latest true powi_rt flaky ideal false sample_heads today today IconD2 [] [] tr r /\ (r = Ok tt \/ r = Err EIo)) /\
  exists tr r, swiss_render_latest true powi_rt zulu flaky_sample ideal false [] [] tr r /\ (r = Ok tt \/ r = Err EIo).
Proof.
  destruct C50_sample as (F & M & _ & _ & V & V'). destruct C62_dwd_sample as [G _]. destruct C62_swiss_sample as [G' _]. split.
  - destruct (C62_dwd_on_map _ true powi_rt flaky ideal sample_heads today today IconD2 [] [] the_run 3 2 low_extent M V V' F G ltac:(lia) ltac:(lia) ideal_accurate low_on_map) as [(tr & r & R) A].
    exists tr, r. split; [exact R|]. destruct (A tr r R) as [E|(er & E & ->)]; auto.
  - destruct (C62_swiss_on_map _ true powi_rt zulu flaky_sample ideal [] [] 3 2 G' ltac:(lia) ideal_accurate) as [(tr & r & R) A].
    exists tr, r. split; [exact R|]. destruct (A tr r R) as [E|(er & E & ->)]; auto.
Qed.
