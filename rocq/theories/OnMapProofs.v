From Coq Require Import Ascii String ZArith Reals List Bool Lia Lra.
From Coq Require Import SpecFloat.
From Verif Require Import Base F32 F32Facts Grib2FloatProofs GeoModel GeoSpec TileModel TileSpec MercatorProofs LibmProofs Par Text
  ChartModel ForecastModel ForecastSpec FetchModel FetchSpec DwdModel DwdSpec DwdProofs MapSpec MapProofs SwissModel SwissSpec SwissProofs SwissSafeProofs.
Import ListNotations.
Open Scope Z_scope.

Lemma fin_eqb x : fin x -> feq x x = true.
Proof. intros [_ F]. destruct x as [s|s| |s mm ex]; try discriminate; [reflexivity|]. unfold feq, SFeqb, SFcompare. destruct s; rewrite Z.compare_refl, ?Pos.compare_cont_refl; reflexivity. Qed.
Lemma on_map_eqb e : on_map e -> extent_eqb e e = true.
Proof.
  intros ([[A B] [C D]] & _). unfold extent_eqb, lat_lon_eqb. rewrite ?fin_eqb by assumption. reflexivity.
Qed.
Lemma c59_on_map_proof : forall chk powi fetch m head today today' model vars steps run w h e,
  dwd_model model -> valid_date today -> valid_date (prev_day today') -> find_latest_run head model today today' = Ok run ->
  good_run chk powi fetch run w h e -> 0 <= w -> 0 <= h -> libm_accurate m -> on_map e ->
  (exists tr r, dwd_render_latest chk powi fetch m false head today today' model vars steps tr r) /\
  forall tr r, dwd_render_latest chk powi fetch m false head today today' model vars steps tr r -> r = Ok tt.
Proof. intros. eapply c59_succeeds_proof; eauto using on_map_eqb, c64_addressable_proof. Qed.
Lemma c62_dwd_on_map_proof : forall lost chk powi fetch m head today today' model vars steps run w h e,
  dwd_model model -> valid_date today -> valid_date (prev_day today') -> find_latest_run head model today today' = Ok run ->
  run_files chk powi fetch lost run w h e -> 0 <= w -> 0 <= h -> libm_accurate m -> on_map e ->
  (exists tr r, dwd_render_latest chk powi fetch m false head today today' model vars steps tr r) /\
  forall tr r, dwd_render_latest chk powi fetch m false head today today' model vars steps tr r -> r = Ok tt \/ exists er, r = Err er /\ lost er.
Proof. intros. eapply c62_dwd_proof; eauto using on_map_eqb, c64_addressable_proof. Qed.
Lemma c60_on_map_proof : forall chk powi rfc3339 sv m steps vars files count,
  good_service chk powi rfc3339 sv files count -> (1 <= count)%nat -> libm_accurate m ->
  (exists tr r, swiss_render_latest chk powi rfc3339 sv m false steps vars tr r) /\
  forall tr r, swiss_render_latest chk powi rfc3339 sv m false steps vars tr r -> r = Ok tt.
Proof. intros chk powi rfc sv m steps vars files count G C A. apply (c60_succeeds_proof chk powi rfc sv m steps vars files count G C). intros e t E. exact (c64_addressable_proof chk m _ e A (swiss_on_map e E)). Qed.
Lemma c62_swiss_on_map_proof : forall lost chk powi rfc3339 sv m steps vars files count,
  service_files chk powi lost rfc3339 sv files count -> (1 <= count)%nat -> libm_accurate m ->
  (exists tr r, swiss_render_latest chk powi rfc3339 sv m false steps vars tr r) /\
  forall tr r, swiss_render_latest chk powi rfc3339 sv m false steps vars tr r -> r = Ok tt \/ exists er, r = Err er /\ lost er.
Proof. intros lost chk powi rfc sv m steps vars files count G C A. apply (c62_swiss_proof lost chk powi rfc sv m steps vars files count G C). intros e t E. exact (c64_addressable_proof chk m _ e A (swiss_on_map e E)). Qed.
