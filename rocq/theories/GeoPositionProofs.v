(** Proofs about the positions of fractional cell coordinates (C15). *)
From Coq Require Import ZArith Reals Psatz Bool List Lia Lra.
From Coq Require Import Floats.SpecFloat.
From Flocq Require Import Core.Core.
From Verif Require Import Base F32 F32Facts Grib2Model GeoModel GeoSpec GeoProofs GeoValueProofs GeoLookupProofs.
Import ListNotations.
Open Scope Z_scope.

Lemma position_defined w h e x y : geo_grid w h e -> fin x -> fin y ->
  (lat_lon_by_xy (grid_new w h e) x y <> None <-> (0 <= xr x < IZR w)%R /\ (0 <= xr y < IZR h)%R).
Proof.
  intros [A B] Fx Fy. unfold lat_lon_by_xy. cbn [grid_new g_w g_h g_extent g_lat_inc g_lon_inc].
  pose proof (geo_n _ _ _ A) as Nw. pose proof (geo_n _ _ _ B) as Nh.
  destruct (fin_Z w ltac:(lia)) as [Fw Ew]. destruct (fin_Z h ltac:(lia)) as [Fh Eh].
  destruct (fin_Z 0 ltac:(lia)) as [F0 E0]. change fzero with (f32_of_Z 0).
  destruct (flt x (f32_of_Z 0)) eqn:Q1; cbn [orb].
  { apply flt_fin in Q1; [|assumption|assumption]. split; [congruence|lra]. }
  apply flt_false in Q1; [|assumption|assumption].
  destruct (fge x (f32_of_Z w)) eqn:Q2; cbn [orb].
  { apply fge_fin in Q2; [|assumption|assumption]. split; [congruence|lra]. }
  apply fge_false in Q2; [|assumption|assumption].
  destruct (flt y (f32_of_Z 0)) eqn:Q3; cbn [orb].
  { apply flt_fin in Q3; [|assumption|assumption]. split; [congruence|lra]. }
  apply flt_false in Q3; [|assumption|assumption].
  destruct (fge y (f32_of_Z h)) eqn:Q4; cbn [orb].
  { apply fge_fin in Q4; [|assumption|assumption]. split; [congruence|lra]. }
  apply fge_false in Q4; [|assumption|assumption].
  split; [intros _; lra|congruence].
Qed.

Lemma axis_position mn mx n x : axis_geo mn mx n -> fin x -> (0 <= xr x < IZR n)%R ->
  let p := normalize_deg (fadd mn (fmul x (fdiv (fsub mx mn) (f32_of_Z n)))) in
  fin p /\ exists k, (Rabs (xr p + 360 * IZR k - (xr mn + xr x / IZR n * (xr mx - xr mn))) <= / 4096)%R.
Proof.
  intros G Fx X. pose proof (geo_n mn mx n G) as Hn. destruct (geo_inc mn mx n G) as (Fi & Li & Ni).
  destruct G as (F1 & F2 & H1 & H2 & H3 & H4). set (inc := fdiv (fsub mx mn) (f32_of_Z n)) in *.
  assert (N1 : (1 <= IZR n <= 184320)%R) by (split; apply IZR_le; lia).
  assert (S : (bpow radix2 (-150) <= / 4294967296)%R).
  { apply Rle_trans with (bpow radix2 (-32)); [apply bpow_le; lia|]. cbn. lra. }
  set (D := (xr mx - xr mn)%R) in *. assert (Dp : (0 <= D <= 360)%R) by (split; [lra|unfold D; lra]).
  set (f := (xr x / IZR n)%R).
  assert (Fr : (0 <= f <= 1)%R).
  { unfold f. split.
    - apply Rmult_le_pos; [lra|]. apply Rlt_le, Rinv_0_lt_compat. lra.
    - apply Rmult_le_reg_r with (IZR n); [lra|]. unfold Rdiv. rewrite Rmult_assoc, Rinv_l by lra. lra. }
  assert (T : (xr x * xr inc = f * (IZR n * xr inc))%R) by (unfold f; field; lra).
  apply Rabs_le_inv in Ni. set (m := (IZR n * xr inc)%R) in *.
  set (t := (xr x * xr inc)%R) in *.
  assert (B : (Rabs (t - f * D) <= / 8192)%R).
  { rewrite T. replace (f * m - f * D)%R with (f * (m - D))%R by ring. apply Rabs_le. nra. }
  apply Rabs_le_inv in B.
  assert (fD : (0 <= f * D <= 360)%R) by nra.
  assert (T0 : (0 <= t <= 361)%R) by (split; [unfold t; nra|lra]).
  pose proof (fin_mul _ _ Fx Fi) as R1. fold t in R1.
  pose proof (rnd_err t) as E1. rewrite ulp_half_val, (Rabs_pos_eq t) in E1 by lra.
  assert (E1' : (Rabs (rnd t - t) <= / 32768)%R) by lra. apply Rabs_le_inv in E1'.
  destruct (rounds_fin _ _ R1) as [Fm Em]; [lt_big|].
  pose proof (fin_add _ _ F1 Fm) as R2. rewrite Em in R2.
  set (s := (xr mn + rnd t)%R) in *.
  assert (Sa : (Rabs s <= 600)%R) by (assert (xr mn <= 180)%R by (unfold D in Dp; lra); apply Rabs_le; unfold s; lra).
  pose proof (rnd_err s) as E2. rewrite ulp_half_val in E2.
  assert (E2' : (Rabs (rnd s - s) <= / 16384)%R) by lra. apply Rabs_le_inv in E2'.
  apply Rabs_le_inv in Sa.
  destruct (rounds_fin _ _ R2) as [Fs Es]; [lt_big|].
  destruct (normalize_spec _ Fs) as (Fp & _ & k & Ek). cbv zeta. split; [exact Fp|].
  exists k. rewrite Ek, Es. apply Rabs_le. unfold s in *. fold f. lra.
Qed.

Lemma position_place w h e x y p : geo_grid w h e -> fin x -> fin y ->
  lat_lon_by_xy (grid_new w h e) x y = Some p ->
  fin_coord p /\
  (exists k, Rabs (xr (lon p) + 360 * IZR k - (xr (lon (min_coord e)) + xr x / IZR w * (xr (lon (max_coord e)) - xr (lon (min_coord e))))) <= / 4096)%R /\
  (exists k, Rabs (xr (lat p) + 360 * IZR k - (xr (lat (min_coord e)) + xr y / IZR h * (xr (lat (max_coord e)) - xr (lat (min_coord e))))) <= / 4096)%R.
Proof.
  intros G Fx Fy H.
  destruct (proj1 (position_defined w h e x y G Fx Fy)) as [Bx By]; [congruence|].
  destruct G as [A B]. destruct (axis_position _ _ _ x A Fx Bx) as [P1 P2]. destruct (axis_position _ _ _ y B Fy By) as [Q1 Q2].
  unfold lat_lon_by_xy in H. destruct (_ || _); [discriminate|]. injection H as <-.
  cbn [lat_lon_new lat lon grid_new g_extent g_lat_inc g_lon_inc]. split; [split|split]; assumption.
Qed.
