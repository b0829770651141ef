(** Proofs about the pyramid of tiles (C100). *)
From Coq Require Import Floats.SpecFloat.
From Coq Require Import ZArith Reals List Bool Lia Lra.
From Flocq Require Import Core.Core.
From Verif Require Import Base F32 F32Facts GeoModel GeoSpec GeoProofs GeoValueProofs ImagingModel ImagingSpec ImagingProofs Par TileModel TileSpec TileProofs MercatorProofs
  ChartModel ChartSpec ForecastModel ForecastSpec ForecastProofs FetchSpec MapSpec MapProofs PyramidSpec.
Import ListNotations.
Open Scope Z_scope.

Lemma half_floor t : Zfloor (2 * t) / 2 = Zfloor t.
Proof.
  pose proof (Zfloor_lb t) as L. pose proof (Zfloor_ub t) as U. set (k := Zfloor t) in *.
  assert (A : 2 * k <= Zfloor (2 * t)) by (apply Zfloor_lub; rewrite mult_IZR; lra).
  assert (B : Zfloor (2 * t) < 2 * k + 2). { apply lt_IZR. eapply Rle_lt_trans; [apply Zfloor_lb|]. rewrite plus_IZR, mult_IZR. lra. }
  symmetry. apply (Z.div_unique_pos _ 2 _ (Zfloor (2 * t) - 2 * k)); lia.
Qed.
Lemma half_floor_max t : Z.max 0 (Zfloor (2 * t)) / 2 = Z.max 0 (Zfloor t).
Proof.
  rewrite <- (half_floor t). destruct (Z.le_gt_cases 0 (Zfloor (2 * t))) as [H|H].
  - pose proof (Z.div_pos _ 2 H ltac:(lia)). rewrite !Z.max_r by lia. reflexivity.
  - assert (Zfloor (2 * t) / 2 < 0) by (apply Z.div_lt_upper_bound; lia). rewrite !Z.max_l by lia. reflexivity.
Qed.
(** Multiplication by a power of two is exact. *)
Lemma gen_scaled a zoom : fin a -> 0 <= zoom -> generic_format radix2 fexp32 (xr a * IZR (2 ^ zoom)).
Proof.
  intros [V Fi] Hz. destruct a as [s|s| |s mm e]; try discriminate.
  - cbn. rewrite Rmult_0_l. apply generic_format_0.
  - rewrite xr_F2R. pose proof V as V'. unfold f32_valid in V'. cbn in V'. unfold bounded in V'. apply andb_true_iff in V'. destruct V' as [V1 V2].
    unfold canonical_mantissa in V1. apply Zeq_bool_eq in V1. unfold SpecFloat.fexp, emin in V1. rewrite Digits.Zpos_digits2_pos in V1.
    replace (F2R (Float radix2 (cond_Zopp s (Z.pos mm)) e) * IZR (2 ^ zoom))%R with (F2R (Float radix2 (cond_Zopp s (Z.pos mm)) (e + zoom))).
    + apply gen_F2R; [|lia]. assert (Z.pos mm < 2 ^ 24).
      { apply Z.lt_le_trans with (2 ^ Digits.Zdigits radix2 (Z.pos mm)); [|apply Z.pow_le_mono_r; lia]. apply (Digits.Zdigits_correct radix2 (Z.pos mm)). }
      destruct s; cbn [cond_Zopp]; lia.
    + unfold F2R. cbn [Fnum Fexp]. rewrite bpow_plus, <- (IZR_Zpower radix2 zoom) by lia. change (Zpower radix2 zoom) with (2 ^ zoom).
      change (radix_val radix2 ^ zoom) with (2 ^ zoom). ring.
Qed.
Lemma scaled_floor a zoom : fin a -> (Rabs (xr a) <= 8)%R -> 0 <= zoom <= 24 ->
  f_to_u32 (ffloor (fmul a (f32_of_Z (2 ^ zoom)))) = Z.max 0 (Zfloor (xr a * IZR (2 ^ zoom))).
Proof.
  intros F B Hz. destruct (fin_pow2 zoom Hz) as [Fn En]. pose proof (pow2_le zoom 24 Hz) as Bn. pose proof (pow2_pos zoom ltac:(lia)) as Pn.
  assert (Bn' : (IZR (2 ^ zoom) <= 16777216)%R) by (apply IZR_le; lia).
  assert (Bm : (Rabs (xr a * IZR (2 ^ zoom)) <= 134217728)%R).
  { rewrite Rabs_mult, (Rabs_pos_eq (IZR (2 ^ zoom))) by lra. replace 134217728%R with (8 * 16777216)%R by lra. apply Rmult_le_compat; try lra. apply Rabs_pos. }
  pose proof (fin_mul _ _ F Fn) as R. rewrite En in R. destruct (exact_fin _ _ R (gen_scaled a zoom F ltac:(lia))) as [Fm Em].
  { eapply Rle_lt_trans; [exact Bm|]. eapply Rlt_trans; [|exact big_gt]. apply IZR_lt. lia. }
  destruct (f_integral_num sf_floor Zfloor _ floor_part (fin_num _ Fm)) as (Nf & D & _).
  specialize (D (proj2 Fm)). unfold f_to_u32, ffloor. rewrite f_to_int_xr; [|apply Nf|apply Nf|lia|lia]. rewrite D, Ztrunc_IZR, Em.
  assert (Zfloor (xr a * IZR (2 ^ zoom)) <= 134217728). { apply le_IZR. eapply Rle_trans; [apply Zfloor_lb|]. apply Rabs_le_inv in Bm. lra. }
  lia.
Qed.
(** The tile of a place at one zoom level is the parent of the one at the next. *)
Lemma parent_position chk m p zoom : libm_accurate m -> 0 <= zoom <= 22 -> fin_coord p -> (Rabs (xr (lat p)) <= 851 / 10)%R -> (-180 <= xr (lon p) <= 180)%R ->
  exists t t', from_position chk m p zoom = Ok t /\ from_position chk m p (zoom + 1) = Ok t' /\ t_x t = t_x t' / 2 /\ t_y t = t_y t' / 2.
Proof.
  intros A Hz [Fla Flo] Bla Blo.
  destruct (column_of_spec zoom (lon p) ltac:(lia) Flo Blo) as [Ba Ea]. destruct (column_of_spec (zoom + 1) (lon p) ltac:(lia) Flo Blo) as [_ Ea'].
  destruct (row_frac_near m (lat p) (/ 24) (41 / 1000000) A Fla Bla) as [Fh Eh]; [lra|intros r Br _; apply sect_bounds; lra|lra|lra|].
  assert (Bh : (Rabs (xr (row_frac m (lat p))) <= 8)%R).
  { destruct (sect_bounds (radians (xr (lat p)))) as ((S1 & S2) & _ & _); [pose proof (radians_small _ Bla); lra|].
    pose proof (ln_bound (sect (radians (xr (lat p)))) ltac:(lra)) as Hl. pose proof pi_bounds.
    assert (Q : (Rabs (ln (sect (radians (xr (lat p)))) / PI) <= 4 / 3)%R).
    { unfold Rdiv. rewrite Rabs_mult, (Rabs_pos_eq (/ PI)) by (left; apply Rinv_0_lt_compat; lra).
      apply Rmult_le_compat; [apply Rabs_pos|left; apply Rinv_0_lt_compat; lra|exact Hl|apply Rinv_le_contravar; lra]. }
    apply Rabs_le_inv in Q. apply Rabs_le_inv in Eh. apply Rabs_le. lra. }
  assert (P2 : IZR (2 ^ (zoom + 1)) = (2 * IZR (2 ^ zoom))%R) by (rewrite Z.pow_add_r, mult_IZR by lia; change (2 ^ 1) with 2; ring).
  unfold from_position. rewrite !pow2_small by lia. cbn [obind]. do 2 eexists. split; [reflexivity|]. split; [reflexivity|]. cbn [t_x t_y].
  fold (column_of zoom (lon p)). fold (column_of (zoom + 1) (lon p)). fold (row_arg32 m (lat p)). fold (row_frac m (lat p)). split.
  - rewrite Ea, Ea', P2. rewrite <- half_floor. f_equal. f_equal. ring.
  - rewrite !scaled_floor by (try assumption; lia). rewrite P2, <- half_floor_max. f_equal. f_equal. f_equal. ring.
Qed.
Lemma parent_covers chk m e zoom : libm_accurate m -> 0 <= zoom <= 22 -> on_map e ->
  (forall x y, covers chk m e (zoom + 1) x y -> covers chk m e zoom (x / 2) (y / 2)) /\
  (forall x y, covers chk m e zoom x y -> exists x' y', x' / 2 = x /\ y' / 2 = y /\ covers chk m e (zoom + 1) x' y').
Proof.
  intros A Hz ([[Fa Fb] [Fc Fd]] & B1 & [B2 B3] & B4 & [B5 B6]).
  set (pa := {| lat := lat (min_coord e); lon := lon (max_coord e) |}). set (pb := {| lat := lat (max_coord e); lon := lon (min_coord e) |}).
  destruct (parent_position chk m pa zoom A Hz (conj Fa Fd) ltac:(apply Rabs_le; cbn [lat pa]; lra) ltac:(cbn [lon pa]; lra)) as (a & a' & Ea & Ea' & Xa & Ya).
  destruct (parent_position chk m pb zoom A Hz (conj Fc Fb) ltac:(apply Rabs_le; cbn [lat pb]; lra) ltac:(cbn [lon pb]; lra)) as (b & b' & Eb & Eb' & Xb & Yb).
  assert (Up : forall u v w, between u v w -> between (u / 2) (v / 2) (w / 2)).
  { intros u v w. unfold between. intro H. pose proof (Z.div_le_mono (Z.min u v) w 2 ltac:(lia) ltac:(lia)). pose proof (Z.div_le_mono w (Z.max u v) 2 ltac:(lia) ltac:(lia)).
    destruct (Z.le_ge_cases u v) as [L|L]; pose proof (Z.div_le_mono _ _ 2 ltac:(lia) L); [rewrite Z.min_l, Z.max_r in * by lia|rewrite Z.min_r, Z.max_l in * by lia]; lia. }
  assert (Down : forall u v w, between (u / 2) (v / 2) w -> exists w', w' / 2 = w /\ between u v w').
  { intros u v w H. unfold between in *. exists (Z.max (Z.min u v) (2 * w)). pose proof (Z.div_mod u 2 ltac:(lia)). pose proof (Z.mod_pos_bound u 2 ltac:(lia)).
    pose proof (Z.div_mod v 2 ltac:(lia)). pose proof (Z.mod_pos_bound v 2 ltac:(lia)). split; [|lia].
    symmetry. apply (Z.div_unique_pos _ 2 _ (Z.max (Z.min u v) (2 * w) - 2 * w)); lia. }
  split.
  - intros x y (a0 & b0 & E1 & E2 & X & Y). fold pa in E1. fold pb in E2. rewrite Ea' in E1. injection E1 as <-. rewrite Eb' in E2. injection E2 as <-.
    exists a, b. split; [exact Ea|]. split; [exact Eb|]. rewrite Xa, Xb, Ya, Yb. split; apply Up; assumption.
  - intros x y (a0 & b0 & E1 & E2 & X & Y). fold pa in E1. fold pb in E2. rewrite Ea in E1. injection E1 as <-. rewrite Eb in E2. injection E2 as <-.
    rewrite Xa, Xb in X. rewrite Ya, Yb in Y. destruct (Down _ _ _ X) as (x' & Ex & X'). destruct (Down _ _ _ Y) as (y' & Ey & Y').
    exists x', y'. split; [exact Ex|]. split; [exact Ey|]. exists a', b'. auto.
Qed.
(** A tile that is there is one of the extent. *)
Lemma there_iff chk m k : In k (kinds chk m) -> forall run steps filter read tr s l e, selected run steps filter read s l ->
  k_render k false run steps filter read tr (Ok tt) -> map_extent k l e -> forall zoom x y, 0 <= zoom -> 0 <= x -> 0 <= y ->
  (tile_there k run (st_nr s) tr zoom x y <-> zoom <= last_zoom (run_model run) /\ covers chk m e zoom x y).
Proof.
  intros K run steps filter read tr s l e Sl R (make & T) zoom x y Hz Hx Hy. pose proof Sl as (VR & NN & ND & ST & Is & W & Rd). split.
  - intros (d & F). rewrite Forall_forall in NN. destruct (kind_body chk m k K) as (body & GB). rewrite (proj1 GB) in R.
    destruct (steps_files chk m k body GB false run filter read VR steps NN eq_refl ND K ST tr R (file_path run (st_nr s) (TileFile (k_type k) zoom x y)) None)
      as [(s' & l' & f & c & Is' & W' & Rd' & Q & P & _)|[No _]].
    + assert (Kt : k_type k = CloudPrecip \/ k_type k = Wind10m \/ k_type k = Temp2m).
      { cbn in K. decompose [or] K; try subst k; cbn; auto; try (cbn in T; discriminate); contradiction. }
      assert (Pp : proper (TileFile (k_type k) zoom x y)) by (split; [exact Kt|lia]).
      destruct (c47_paths_proof run run (st_nr s) (st_nr s') _ f VR VR (NN s Is) (NN s' Is') Pp (produces_proper chk m k body GB run (fun _ _ => True) l' f c P K) Q) as (_ & En & <-).
      assert (s' = s). { clear - ND Is Is' En. induction steps as [|z zs IH]; [destruct Is|]. cbn in ND. inversion ND as [|? ? N1 N2]; subst.
        destruct Is as [->|Is], Is' as [->|Is']; auto; exfalso; apply N1; [rewrite En|rewrite <- En]; apply in_map; assumption. }
      subst s'. pose proof (ST s l l' Rd Rd') as ->. destruct P as (_ & d' & (e' & make' & T' & Hz' & C & _) & _). rewrite T in T'. injection T' as <- <-. split; [lia|exact C].
    + rewrite No in F. discriminate.
  - intros [Hl C]. destruct (published chk m k run (st_nr s) tr l e make zoom x y (selected_rendered chk m k K _ _ _ _ _ _ _ Sl R) T ltac:(lia) C) as (d & _ & F). exists d. apply F.
Qed.
Lemma c100_pyramid_proof : forall chk m, libm_accurate m -> forall k, In k (kinds chk m) -> forall run steps filter read tr s l e,
  selected run steps filter read s l -> k_render k false run steps filter read tr (Ok tt) -> map_extent k l e -> on_map e ->
  forall zoom x y, 0 <= zoom -> 0 <= x -> 0 <= y ->
  (tile_there k run (st_nr s) tr (zoom + 1) x y -> tile_there k run (st_nr s) tr zoom (x / 2) (y / 2)) /\
  (tile_there k run (st_nr s) tr zoom x y -> zoom < last_zoom (run_model run) ->
     exists x' y', 0 <= x' /\ 0 <= y' /\ x' / 2 = x /\ y' / 2 = y /\ tile_there k run (st_nr s) tr (zoom + 1) x' y').
Proof.
  intros chk m A k K run steps filter read tr s l e Sl R T M zoom x y Hz Hx Hy. pose proof (last_zoom_le (run_model run)) as Z8.
  pose proof (there_iff chk m k K run steps filter read tr s l e Sl R T) as I. split.
  - intro H. apply I in H as [Hl C]; [|lia..]. apply I; [lia|apply Z.div_pos; lia|apply Z.div_pos; lia|]. split; [lia|]. apply (parent_covers chk m e zoom A ltac:(lia) M), C.
  - intros H Lt. apply I in H as [Hl C]; [|lia..]. destruct (proj2 (parent_covers chk m e zoom A ltac:(lia) M) x y C) as (x' & y' & Ex & Ey & C').
    assert (0 <= x') by (pose proof (Z.div_mod x' 2 ltac:(lia)); pose proof (Z.mod_pos_bound x' 2 ltac:(lia)); lia).
    assert (0 <= y') by (pose proof (Z.div_mod y' 2 ltac:(lia)); pose proof (Z.mod_pos_bound y' 2 ltac:(lia)); lia).
    exists x', y'. do 4 (split; [assumption|]). apply I; [lia..|]. split; [lia|exact C'].
Qed.
Lemma c100_steps_proof : forall chk m k, In k (kinds chk m) -> forall run steps filter read tr s s' l l' e,
  selected run steps filter read s l -> selected run steps filter read s' l' -> k_render k false run steps filter read tr (Ok tt) -> map_extent k l e -> map_extent k l' e ->
  forall zoom x y, 0 <= zoom -> 0 <= x -> 0 <= y -> (tile_there k run (st_nr s) tr zoom x y <-> tile_there k run (st_nr s') tr zoom x y).
Proof.
  intros chk m k K run steps filter read tr s s' l l' e S1 S2 R T T' zoom x y Hz Hx Hy.
  rewrite (there_iff chk m k K run steps filter read tr s l e S1 R T zoom x y Hz Hx Hy), (there_iff chk m k K run steps filter read tr s' l' e S2 R T' zoom x y Hz Hx Hy). reflexivity.
Qed.
(** At each zoom level the tiles form a rectangle. *)
Lemma c100_rectangle_proof : forall chk m k, In k (kinds chk m) -> forall run steps filter read tr s l e,
  selected run steps filter read s l -> k_render k false run steps filter read tr (Ok tt) -> map_extent k l e ->
  forall zoom x1 y1 x2 y2, 0 <= zoom -> 0 <= x1 -> 0 <= y1 -> 0 <= x2 -> 0 <= y2 ->
  tile_there k run (st_nr s) tr zoom x1 y1 -> tile_there k run (st_nr s) tr zoom x2 y2 ->
  forall x y, Z.min x1 x2 <= x <= Z.max x1 x2 -> Z.min y1 y2 <= y <= Z.max y1 y2 -> tile_there k run (st_nr s) tr zoom x y.
Proof.
  intros chk m k K run steps filter read tr s l e Sl R T zoom x1 y1 x2 y2 Hz H1 H2 H3 H4 T1 T2 x y Hx Hy.
  pose proof (there_iff chk m k K run steps filter read tr s l e Sl R T zoom) as I.
  apply I in T1 as [Hl (a & b & Ea & Eb & X1 & Y1)]; [|lia..]. apply I in T2 as [_ (a' & b' & Ea' & Eb' & X2 & Y2)]; [|lia..].
  rewrite Ea in Ea'. injection Ea' as <-. rewrite Eb in Eb'. injection Eb' as <-.
  apply I; [lia..|]. split; [exact Hl|]. exists a, b. split; [exact Ea|]. split; [exact Eb|]. unfold between in *. lia.
Qed.
(** Each zoom level up to the last one of the model has a tile, and no level beyond. *)
Lemma c100_levels_proof : forall chk m, libm_accurate m -> forall k, In k (kinds chk m) -> forall run steps filter read tr s l e,
  selected run steps filter read s l -> k_render k false run steps filter read tr (Ok tt) -> map_extent k l e -> on_map e ->
  forall zoom, 0 <= zoom -> (zoom <= last_zoom (run_model run) <-> exists x y, 0 <= x /\ 0 <= y /\ tile_there k run (st_nr s) tr zoom x y).
Proof.
  intros chk m A k K run steps filter read tr s l e Sl R T M zoom Hz.
  pose proof (there_iff chk m k K run steps filter read tr s l e Sl R T zoom) as I. split.
  - intro Hl. assert (last_zoom (run_model run) <= 22) by (destruct (run_model run); cbn; lia).
    destruct M as ([[Fa Fb] [Fc Fd]] & B1 & [B2 B3] & B4 & [B5 B6]).
    destruct (parent_position chk m {| lat := lat (min_coord e); lon := lon (max_coord e) |} zoom A ltac:(lia) (conj Fa Fd) ltac:(apply Rabs_le; cbn [lat]; lra) ltac:(cbn [lon]; lra)) as (a & _ & Ea & _).
    destruct (parent_position chk m {| lat := lat (max_coord e); lon := lon (min_coord e) |} zoom A ltac:(lia) (conj Fc Fb) ltac:(apply Rabs_le; cbn [lat]; lra) ltac:(cbn [lon]; lra)) as (b & _ & Eb & _).
    assert (P : 0 <= t_x a /\ 0 <= t_y a).
    { clear - Ea. unfold from_position in Ea. destruct (pow2_u32 chk zoom); cbn [obind] in Ea; try discriminate. injection Ea as <-. cbn [t_x t_y]. unfold f_to_u32. split; apply f_to_int_range; lia. }
    exists (t_x a), (t_y a). do 2 (split; [lia|]). apply I; [lia..|]. split; [exact Hl|]. exists a, b. unfold between. repeat split; try assumption; lia.
  - intros (x & y & Hx & Hy & H). apply I in H as [Hl _]; auto.
Qed.
(** The columns of the tiles are those of the map. *)
Lemma c100_columns_proof : forall chk m k, In k (kinds chk m) -> forall run steps filter read tr s l e,
  selected run steps filter read s l -> k_render k false run steps filter read tr (Ok tt) -> map_extent k l e -> on_map e ->
  forall zoom x y, 0 <= zoom -> 0 <= x -> 0 <= y -> tile_there k run (st_nr s) tr zoom x y ->
  x <= 2 ^ zoom /\ ((xr (lon (max_coord e)) <= 180 - / 32768)%R -> x < 2 ^ zoom).
Proof.
  intros chk m k K run steps filter read tr s l e Sl R T M zoom x y Hz Hx Hy H.
  apply (there_iff chk m k K run steps filter read tr s l e Sl R T zoom x y Hz Hx Hy) in H as [Hl (a & b & Ea & Eb & X & _)].
  assert (last_zoom (run_model run) <= 24) by (destruct (run_model run); cbn; lia).
  destruct M as ([[Fa Fb] [Fc Fd]] & B1 & [B2 B3] & B4 & [B5 B6]).
  destruct (c34_columns_proof chk m zoom {| lat := lat (max_coord e); lon := lon (min_coord e) |} {| lat := lat (min_coord e); lon := lon (max_coord e) |}
    ltac:(lia) Fb Fd ltac:(cbn [lon]; lra) ltac:(cbn [lon]; lra) ltac:(cbn [lon]; lra)) as (b' & a' & Eb' & Ea' & P & Q & S).
  rewrite Ea in Ea'. injection Ea' as <-. rewrite Eb in Eb'. injection Eb' as <-. unfold between in X. cbn [lon] in S. split; [lia|]. intro C. specialize (S C). lia.
Qed.
