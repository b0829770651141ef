(** Proofs about value grids, their interpolation and the arithmetic of grid values
    (C16, C17, C21). *)
From Coq Require Import ZArith Reals Psatz Bool List Lia Lra.
From Coq Require Import Floats.SpecFloat.
From Flocq Require Import Core.Core.
From Verif Require Import Base F32 F32Facts Grib2Model GeoModel GeoSpec GeoProofs.
Import ListNotations.
Open Scope Z_scope.

(** ** More float facts: values that are not NaN *)
Lemma fin_num x : fin x -> num x.
Proof. intro H. split; [apply H|apply fin_nan, H]. Qed.
Lemma rounds_num z r : rounds_to z r -> num z.
Proof. intros (V & N & _). split; assumption. Qed.
Lemma Zround_big : Zround big = 2 ^ 128.
Proof. unfold big. change (bpow radix2 128) with (IZR (2 ^ 128)). apply Zround_IZR. Qed.
Lemma fround_num x : num x -> num (fround x) /\ xr (fround x) = IZR (Zround (xr x)).
Proof.
  intros [V N]. destruct (fis_finite x) eqn:F.
  - destruct (fround_xr x V F) as (V' & F' & E). split; [apply fin_num; split; assumption|exact E].
  - destruct x as [s|s| |s m e]; try discriminate. change (fround (S754_infinity s)) with (S754_infinity s). split; [split; assumption|].
    cbn [xr]. destruct s.
    + rewrite Zround_opp, opp_IZR, Zround_big. reflexivity.
    + rewrite Zround_big. reflexivity.
Qed.
Lemma to_int_round lo hi x : num x -> - 2 ^ 128 <= lo <= 0 -> 0 <= hi <= 2 ^ 128 ->
  f_to_int lo hi (fround x) = Z.max lo (Z.min hi (Zround (xr x))).
Proof.
  intros H Hlo Hhi. destruct (fround_num x H) as [[V N] E].
  rewrite f_to_int_xr by assumption. rewrite E, Ztrunc_IZR. reflexivity.
Qed.
Lemma flt_num x y : num x -> num y -> (flt x y = true <-> (xr x < xr y)%R).
Proof. intros [] []. apply flt_xr; assumption. Qed.
Lemma flt_num_false x y : num x -> num y -> (flt x y = false <-> (xr y <= xr x)%R).
Proof.
  intros Hx Hy. pose proof (flt_num x y Hx Hy) as H. destruct (flt x y).
  - split; [discriminate|]. intro. apply proj1 in H. specialize (H eq_refl). lra.
  - split; [|reflexivity]. intros _. apply Rnot_lt_le. intro K. apply H in K. discriminate.
Qed.
Lemma fle_num x y : num x -> num y -> (fle x y = true <-> (xr x <= xr y)%R).
Proof. intros [] []. apply fle_xr; assumption. Qed.
Lemma fclamp_num x lo hi : num x -> num lo -> num hi -> (xr lo <= xr hi)%R ->
  num (fclamp x lo hi) /\ xr (fclamp x lo hi) = Rmax (xr lo) (Rmin (xr hi) (xr x)).
Proof.
  intros Hx Hl Hh L. unfold fclamp, fgt. cbv zeta. change SFltb with flt.
  destruct (flt x lo) eqn:E1.
  - apply flt_num in E1; try assumption.
    assert (flt hi lo = false) as -> by (apply flt_num_false; assumption).
    split; [assumption|]. rewrite Rmin_right, Rmax_left; lra.
  - apply flt_num_false in E1; try assumption. destruct (flt hi x) eqn:E2.
    + apply flt_num in E2; try assumption. split; [assumption|]. rewrite Rmin_left, Rmax_right; lra.
    + apply flt_num_false in E2; try assumption. split; [assumption|]. rewrite Rmin_right, Rmax_right; lra.
Qed.
Lemma fmin_num x y : num x -> num y -> num (fmin x y) /\ xr (fmin x y) = Rmin (xr x) (xr y).
Proof.
  intros Hx Hy. assert (E : fmin x y = if flt y x then y else x).
  { destruct Hx as [_ Nx], Hy as [_ Ny]. unfold fmin. destruct x, y; try discriminate; reflexivity. }
  rewrite E. destruct (flt y x) eqn:L.
  - apply flt_num in L; try assumption. split; [assumption|]. rewrite Rmin_right; lra.
  - apply flt_num_false in L; try assumption. split; [assumption|]. rewrite Rmin_left; lra.
Qed.
Lemma fmax_num x y : num x -> num y -> num (fmax x y) /\ xr (fmax x y) = Rmax (xr x) (xr y).
Proof.
  intros Hx Hy. assert (E : fmax x y = if flt x y then y else x).
  { destruct Hx as [_ Nx], Hy as [_ Ny]. unfold fmax. destruct x, y; try discriminate; reflexivity. }
  rewrite E. destruct (flt x y) eqn:L.
  - apply flt_num in L; try assumption. split; [assumption|]. rewrite Rmax_right; lra.
  - apply flt_num_false in L; try assumption. split; [assumption|]. rewrite Rmax_left; lra.
Qed.
Lemma ulp_half_val : ulp_half = (/ 16777216)%R.
Proof. unfold ulp_half. cbn. lra. Qed.

(** ** C21 *)
Lemma Zround_clamp lo hi r : lo <= hi -> Zround (Rmax (IZR lo) (Rmin (IZR hi) r)) = Z.max lo (Z.min hi (Zround r)).
Proof.
  intro H. assert (IZR lo <= IZR hi)%R by (apply IZR_le; exact H).
  destruct (Rle_or_lt r (IZR lo)) as [A|A].
  - rewrite Rmin_right, Rmax_left by lra. apply Zround_le in A. rewrite Zround_IZR in *. lia.
  - destruct (Rle_or_lt (IZR hi) r) as [B|B].
    + rewrite Rmin_left, Rmax_right by lra. apply Zround_le in B. rewrite Zround_IZR in *. lia.
    + rewrite Rmin_right, Rmax_right by lra. apply Rlt_le, Zround_le in A, B. rewrite Zround_IZR in *. lia.
Qed.
Lemma sat_clamp lo hi r : - 2 ^ 127 <= lo <= hi -> hi <= 2 ^ 127 -> 
  Rmax (IZR lo) (Rmin (IZR hi) (sat r)) = Rmax (IZR lo) (Rmin (IZR hi) r).
Proof.
  intros H H1. pose proof big_gt as Bg. assert (- IZR (2 ^ 127) <= IZR lo)%R by (rewrite <- opp_IZR; apply IZR_le; lia).
  assert (IZR hi <= IZR (2 ^ 127))%R by (apply IZR_le; lia).
  assert (IZR lo <= IZR hi)%R by (apply IZR_le; lia).
  unfold sat. destruct (Rle_or_lt big r) as [A|A].
  - rewrite (Rmin_left big r), (Rmax_right _ big) by lra. rewrite !(Rmin_left (IZR hi)) by lra. reflexivity.
  - rewrite (Rmin_right big r) by lra. destruct (Rle_or_lt r (- big)) as [B|B].
    + rewrite (Rmax_left (- big)) by lra. rewrite !(Rmin_right (IZR hi)) by lra. rewrite !Rmax_left by lra. reflexivity.
    + rewrite (Rmax_right (- big)) by lra. reflexivity.
Qed.
Lemma u8_scale_num v f : num (fmul (f32_of_Z v) f) ->
  u8_scale v f = Z.max 0 (Z.min 255 (Zround (xr (fmul (f32_of_Z v) f)))).
Proof.
  intro P. unfold u8_scale. set (p := fmul (f32_of_Z v) f) in *. assert (N : fis_nan p = false) by apply P. rewrite N.
  destruct (fin_Z 255 ltac:(lia)) as [F1 E1]. destruct (fin_Z 0 ltac:(lia)) as [F0 E0].
  change (fzero) with (f32_of_Z 0).
  destruct (fclamp_num p (f32_of_Z 0) (f32_of_Z 255) P (fin_num _ F0) (fin_num _ F1) ltac:(lra)) as [C1 C2].
  unfold f_to_u8. rewrite to_int_round by (try assumption; lia). rewrite C2, E0, E1.
  rewrite (Zround_clamp 0 255) by lia. lia.
Qed.
Lemma u8_scale_spec v f : 0 <= v <= 255 -> fin f ->
  u8_scale v f = Z.max 0 (Z.min 255 (Zround (rnd (IZR v * xr f)))).
Proof.
  intros Hv Ff. destruct (fin_Z v ltac:(lia)) as [Fv Ev].
  pose proof (fin_mul _ _ Fv Ff) as R. rewrite Ev in R.
  rewrite u8_scale_num by (eapply rounds_num; exact R).
  destruct R as (_ & _ & ->). rewrite <- !(Zround_clamp 0 255) by lia. f_equal. apply sat_clamp; lia.
Qed.
Lemma u8_scale_error v f : 0 <= v <= 255 -> fin f ->
  0 <= u8_scale v f <= 255 /\
  (Rabs (IZR (u8_scale v f) - clamp255 (IZR v * xr f)) <= / 2 + / 32768)%R.
Proof.
  intros Hv Ff. rewrite u8_scale_spec by assumption. split; [lia|].
  set (t := (IZR v * xr f)%R). rewrite <- (Zround_clamp 0 255) by lia.
  pose proof (Zround_nearest (Rmax 0 (Rmin 255 (rnd t)))) as N. fold (clamp255 (rnd t)) in *.
  assert (K : (Rabs (clamp255 (rnd t) - clamp255 t) <= / 32768)%R).
  { pose proof (rnd_err t) as E. rewrite ulp_half_val in E.
    assert (S : (bpow radix2 (-150) <= / 16777216)%R).
    { apply Rle_trans with (bpow radix2 (-24)); [apply bpow_le; lia|]. cbn. lra. }
    destruct (Rle_or_lt 256 t) as [A|A].
    - assert (256 <= rnd t)%R by (rewrite <- (rnd_gen 256) by (apply (gen_Z 256); lia); apply rnd_mono; exact A).
      unfold clamp255. rewrite !(Rmin_left 255) by lra. rewrite Rminus_diag_eq by reflexivity. rewrite Rabs_R0. lra.
    - destruct (Rle_or_lt t 0) as [B|B].
      + assert (rnd t <= 0)%R by (rewrite <- rnd_0; apply rnd_mono; exact B).
        unfold clamp255. rewrite !(Rmin_right 255) by lra. rewrite !Rmax_left by lra. rewrite Rminus_diag_eq by reflexivity. rewrite Rabs_R0. lra.
      + rewrite (Rabs_pos_eq t) in E by lra. apply Rabs_le_inv in E.
        unfold clamp255. apply Rabs_le. unfold Rmax, Rmin.
        repeat destruct Rle_dec; lra. }
  unfold clamp255 in *. 
  replace (IZR (Zround (Rmax 0 (Rmin 255 (rnd t)))) - Rmax 0 (Rmin 255 t))%R
    with ((IZR (Zround (Rmax 0 (Rmin 255 (rnd t)))) - Rmax 0 (Rmin 255 (rnd t))) + (Rmax 0 (Rmin 255 (rnd t)) - Rmax 0 (Rmin 255 t)))%R by ring.
  eapply Rle_trans; [apply Rabs_triang|]. lra.
Qed.
Lemma u8_scale_bounds v f : 0 <= u8_scale v f <= 255.
Proof. unfold u8_scale, f_to_u8. apply f_to_int_range. lia. Qed.
Lemma u8_add_spec a b : u8_add a b = Z.min 255 (a + b).
Proof. unfold u8_add. destruct (Z.ltb_spec 255 (a + b)); lia. Qed.

(** ** Interpolation weights *)
Section Weights.
  Variable x : f32.
  Hypothesis Fx : fin x.

  Hypothesis Hnz : Zfloor (xr x) <> Zceil (xr x).
  Let t := (xr x - IZR (Zfloor (xr x)))%R.
  Lemma frac_bounds : (0 < t < 1)%R /\ IZR (Zceil (xr x)) = (IZR (Zfloor (xr x)) + 1)%R.
  Proof.
    unfold t. pose proof (Zfloor_lb (xr x)). pose proof (Zfloor_ub (xr x)).
    assert (IZR (Zfloor (xr x)) <> xr x).
    { intro E. apply Hnz. rewrite <- E at 2. rewrite Zceil_IZR. reflexivity. }
    rewrite Zceil_floor_neq by assumption. rewrite plus_IZR. lra.
  Qed.
  Lemma weights : fin (fsub (fceil x) x) /\ fin (fsub x (ffloor x)) /\
    (0 <= xr (fsub (fceil x) x) <= 1)%R /\ (0 <= xr (fsub x (ffloor x)) <= 1)%R /\
    (Rabs (xr (fsub (fceil x) x) - (1 - t)) <= / 8388608)%R /\
    (Rabs (xr (fsub x (ffloor x)) - t) <= / 8388608)%R.
  Proof.
    destruct frac_bounds as [B C]. destruct Fx as [V F].
    destruct (ffloor_xr x V F) as (V1 & F1 & E1). destruct (fceil_xr x V F) as (V2 & F2 & E2).
    pose proof (fin_sub (fceil x) x (conj V2 F2) Fx) as R2. pose proof (fin_sub x (ffloor x) Fx (conj V1 F1)) as R1.
    rewrite E1 in R1. rewrite E2, C in R2. fold t in R1.
    replace (IZR (Zfloor (xr x)) + 1 - xr x)%R with (1 - t)%R in R2 by (unfold t; ring).
    assert (G0 : generic_format radix2 fexp32 0) by (apply (gen_Z 0); lia).
    assert (G1 : generic_format radix2 fexp32 1) by (apply (gen_Z 1); lia).
    assert (B1 : (0 <= rnd t <= 1)%R) by (apply rnd_between; try assumption; lra).
    assert (B2 : (0 <= rnd (1 - t) <= 1)%R) by (apply rnd_between; try assumption; lra).
    destruct (rounds_fin _ _ R1) as [W1 X1]; [lt_big|]. destruct (rounds_fin _ _ R2) as [W2 X2]; [lt_big|].
    rewrite X1, X2. split; [exact W2|]. split; [exact W1|]. split; [exact B2|]. split; [exact B1|].
    assert (S : (bpow radix2 (-150) <= / 16777216)%R).
    { apply Rle_trans with (bpow radix2 (-24)); [apply bpow_le; lia|]. cbn. lra. }
    pose proof (rnd_err t) as P1. pose proof (rnd_err (1 - t)) as P2. rewrite ulp_half_val in P1, P2.
    rewrite (Rabs_pos_eq t) in P1 by lra. rewrite (Rabs_pos_eq (1 - t)) in P2 by lra. split; lra.
  Qed.
End Weights.

Lemma convex lo hi a b t : (lo <= a <= hi)%R -> (lo <= b <= hi)%R -> (0 <= t <= 1)%R ->
  (lo <= a * (1 - t) + b * t <= hi)%R.
Proof.
  intros A B T.
  assert (0 <= (a - lo) * (1 - t))%R by (apply Rmult_le_pos; lra). assert (0 <= (b - lo) * t)%R by (apply Rmult_le_pos; lra).
  assert (0 <= (hi - a) * (1 - t))%R by (apply Rmult_le_pos; lra). assert (0 <= (hi - b) * t)%R by (apply Rmult_le_pos; lra). lra.
Qed.

(** One stage of f32 interpolation. *)
Lemma f32_stage_err x a b M : fin x -> (0 <= xr x)%R -> Zfloor (xr x) <> Zceil (xr x) ->
  fin a -> fin b -> (M <= bpow radix2 120)%R -> (Rabs (xr a) <= M)%R -> (Rabs (xr b) <= M)%R ->
  let r := fadd (fmul a (fsub (fceil x) x)) (fmul b (fsub x (ffloor x))) in
  let t := (xr x - IZR (Zfloor (xr x)))%R in
  fin r /\ (Rabs (xr r - (xr a * (1 - t) + xr b * t)) <= M * bpow radix2 (-20) + bpow radix2 (-140))%R.
Proof.
  intros Fx H0 Hn Fa Fb LM Aa Ab r t0.
  destruct (weights x Fx Hn) as (W1 & W2 & B1 & B2 & E1 & E2). cbv zeta in E1, E2.
  destruct (frac_bounds x Hn) as [Bt _].
  set (t := (xr x - IZR (Zfloor (xr x)))%R) in *.
  set (w1 := fsub (fceil x) x) in *. set (w2 := fsub x (ffloor x)) in *.
  change t0 with t. clear t0.
  assert (M0 : (0 <= M)%R) by (pose proof (Rabs_pos (xr a)); lra).
  set (e0 := bpow radix2 (-150)).
  assert (He0 : (0 <= e0)%R) by apply bpow_ge_0.
  assert (e0s : (e0 <= / 1048576)%R).
  { apply Rle_trans with (bpow radix2 (-20)); [apply bpow_le; lia|]. cbn. lra. }
  assert (P : forall c w s, (Rabs (xr c) <= M)%R -> (0 <= xr w <= 1)%R -> (Rabs (xr w - s) <= / 8388608)%R ->
    (Rabs (rnd (xr c * xr w) - xr c * s) <= M * / 16777216 + M * / 8388608 + e0)%R).
  { intros c w s Hc Hw Hs. 
    replace (rnd (xr c * xr w) - xr c * s)%R with ((rnd (xr c * xr w) - xr c * xr w) + xr c * (xr w - s))%R by ring.
    eapply Rle_trans; [apply Rabs_triang|]. pose proof (rnd_err (xr c * xr w)) as Q. rewrite ulp_half_val in Q. fold e0 in Q.
    rewrite !Rabs_mult in *. rewrite (Rabs_pos_eq (xr w)) in Q by lra.
    pose proof (Rabs_pos (xr c)). pose proof (Rabs_pos (xr w - s)).
    assert (Rabs (xr c) * xr w <= M)%R by nra. assert (Rabs (xr c) * Rabs (xr w - s) <= M * / 8388608)%R by nra. lra. }
  pose proof (P a w1 (1 - t)%R Aa B1 E1) as P1. pose proof (P b w2 t Ab B2 E2) as P2.
  set (p1 := rnd (xr a * xr w1)) in *. set (p2 := rnd (xr b * xr w2)) in *.
  assert (Bg : (bpow radix2 120 * 128 <= big)%R).
  { unfold big. change 128%R with (bpow radix2 7). rewrite <- bpow_plus. apply bpow_le. lia. }
  assert (B120 : (1 <= bpow radix2 120)%R) by (change 1%R with (bpow radix2 0); apply bpow_le; lia).
  assert (T1 : (Rabs (xr a * (1 - t)) <= M)%R).
  { rewrite Rabs_mult, (Rabs_pos_eq (1 - t)) by lra. pose proof (Rabs_pos (xr a)). nra. }
  assert (T2 : (Rabs (xr b * t) <= M)%R).
  { rewrite Rabs_mult, (Rabs_pos_eq t) by lra. pose proof (Rabs_pos (xr b)). nra. }
  apply Rabs_le_inv in P1, P2, T1, T2.
  assert (S1 : (Rabs p1 < big)%R) by (apply Rabs_lt; nra).
  assert (S2 : (Rabs p2 < big)%R) by (apply Rabs_lt; nra).
  destruct (rounds_fin _ _ (fin_mul a w1 Fa W1) S1) as [F1 X1]. destruct (rounds_fin _ _ (fin_mul b w2 Fb W2) S2) as [F2 X2].
  pose proof (fin_add _ _ F1 F2) as R. rewrite X1, X2 in R. fold p1 p2 in R.
  pose proof (rnd_err (p1 + p2)) as Q. rewrite ulp_half_val in Q. fold e0 in Q.
  assert (Sb : (Rabs (p1 + p2) <= 3 * M + 2 * e0)%R) by (apply Rabs_le; lra).
  assert (Q' : (Rabs (rnd (p1 + p2) - (p1 + p2)) <= M * / 4194304 + 2 * e0)%R) by lra.
  apply Rabs_le_inv in Q'. apply Rabs_le_inv in Sb.
  destruct (rounds_fin _ _ R) as [Fr Xr].
  { apply Rabs_lt. nra. }
  fold r in Fr, Xr. split; [exact Fr|]. rewrite Xr.
  assert (E20 : (bpow radix2 (-20) = / 1048576)%R) by (cbn; lra). rewrite E20.
  assert (e140 : (4 * e0 <= bpow radix2 (-140))%R).
  { unfold e0. change 4%R with (bpow radix2 2). rewrite <- bpow_plus. apply bpow_le. lia. }
  apply Rabs_le. lra.
Qed.

(** One stage of u8 interpolation. *)
Lemma u8_stage_err x a b : fin x -> (0 <= xr x)%R -> Zfloor (xr x) <> Zceil (xr x) ->
  0 <= a <= 255 -> 0 <= b <= 255 ->
  let r := u8_add (u8_scale a (fsub (fceil x) x)) (u8_scale b (fsub x (ffloor x))) in
  let t := (xr x - IZR (Zfloor (xr x)))%R in
  0 <= r <= 255 /\ (Rabs (IZR r - (IZR a * (1 - t) + IZR b * t)) <= 1 + / 8192)%R.
Proof.
  intros Fx H0 Hn Ba Bb r t0.
  destruct (weights x Fx Hn) as (W1 & W2 & B1 & B2 & E1 & E2). cbv zeta in E1, E2.
  destruct (frac_bounds x Hn) as [Bt _].
  set (t := (xr x - IZR (Zfloor (xr x)))%R) in *.
  set (w1 := fsub (fceil x) x) in *. set (w2 := fsub x (ffloor x)) in *.
  change t0 with t. clear t0.
  assert (Ra : (0 <= IZR a <= 255)%R) by (split; apply IZR_le; lia).
  assert (Rb : (0 <= IZR b <= 255)%R) by (split; apply IZR_le; lia).
  pose proof (convex 0 255 (IZR a) (IZR b) t Ra Rb ltac:(lra)) as C.
  assert (P : forall c w s, (0 <= IZR c <= 255)%R -> 0 <= c <= 255 -> fin w -> (0 <= xr w <= 1)%R ->
    (Rabs (xr w - s) <= / 8388608)%R ->
    (Rabs (IZR (u8_scale c w) - IZR c * s) <= / 2 + / 16384)%R).
  { intros c w s Hc Hc' Fw Hw Hs. destruct (u8_scale_error c w Hc' Fw) as [_ E].
    assert (K : clamp255 (IZR c * xr w) = (IZR c * xr w)%R).
    { unfold clamp255. rewrite Rmin_right, Rmax_right; nra. }
    rewrite K in E. apply Rabs_le_inv in E, Hs. apply Rabs_le.
    assert (- / 32768 <= IZR c * (xr w - s) <= / 32768)%R by nra. lra. }
  pose proof (P a w1 (1 - t)%R ltac:(lra) ltac:(lia) W1 B1 E1) as P1.
  pose proof (P b w2 t ltac:(lra) ltac:(lia) W2 B2 E2) as P2. apply Rabs_le_inv in P1, P2.
  unfold r. rewrite u8_add_spec. pose proof (u8_scale_bounds a w1) as K1. pose proof (u8_scale_bounds b w2) as K2.
  set (s1 := u8_scale a w1) in *. set (s2 := u8_scale b w2) in *. split; [lia|].
  apply Rabs_le. destruct (Z.min_spec 255 (s1 + s2)) as [[L ->]|[L ->]].
  - apply IZR_lt in L. rewrite plus_IZR in L. lra.
  - rewrite plus_IZR. lra.
Qed.

(** ** Grids *)
Lemma grid_ok_extent w h e : grid_ok w h e -> fin_extent e.
Proof. intros [(A & B & _) (C & D & _)]. repeat split; try apply A; try apply B; try apply C; apply D. Qed.
Lemma xy_spec w h e p : grid_ok w h e -> fin_coord p ->
  (is_inside e p = false /\ xy_by_lat_lon (grid_new w h e) p = None) \/
  (is_inside e p = true /\
   xy_by_lat_lon (grid_new w h e) p =
     Some (axis_coord (lon (min_coord e)) (lon (max_coord e)) w (lon p),
           axis_coord (lat (min_coord e)) (lat (max_coord e)) h (lat p))).
Proof.
  intros _ _. unfold xy_by_lat_lon. cbn [g_extent grid_new]. destruct (is_inside e p); [right|left]; auto.
Qed.
Lemma xy_range w h e p x y : grid_ok w h e -> fin_coord p -> xy_by_lat_lon (grid_new w h e) p = Some (x, y) ->
  fin x /\ fin y /\ (0 <= xr x <= IZR w * (1 + bpow radix2 (-22)))%R /\ (0 <= xr y <= IZR h * (1 + bpow radix2 (-22)))%R.
Proof.
  intros G P H. destruct (xy_spec w h e p G P) as [[_ E]|[I E]]; rewrite E in H; [discriminate|].
  injection H as <- <-. apply is_inside_spec in I; [|apply (grid_ok_extent w h); exact G|exact P].
  destruct G as [(A1 & A2 & A3 & A4) (B1 & B2 & B3 & B4)], P as [P1 P2], I as [I1 I2].
  destruct (axis_coord_spec _ _ w A1 A2 A3 (proj1 A4) (proj2 A4) (lon p) P2 I2) as (F1 & _ & R1).
  destruct (axis_coord_spec _ _ h B1 B2 B3 (proj1 B4) (proj2 B4) (lat p) P1 I1) as (F2 & _ & R2).
  auto.
Qed.
Lemma cell_of x n : fin x -> 1 <= n <= 2 ^ 24 -> (0 <= xr x <= IZR n * (1 + bpow radix2 (-22)))%R ->
  f_to_usize (ffloor x) = Zfloor (xr x) /\ f_to_usize (fceil x) = Zceil (xr x) /\
  f_to_usize (fround x) = Zround (xr x) /\ 0 <= Zfloor (xr x) /\ 0 <= Zceil (xr x) /\ 0 <= Zround (xr x) /\
  flt (fceil x) fzero = false /\ (fge (ffloor x) (f32_of_Z n) = true <-> n <= Zfloor (xr x)).
Proof.
  intros [V F] Hn B. assert (H22 : (bpow radix2 (-22) <= 1)%R) by (change 1%R with (bpow radix2 0); apply bpow_le; lia).
  assert (N1 : (1 <= IZR n <= 16777216)%R) by (split; apply IZR_le; lia).
  assert (U : (xr x <= IZR (2 ^ 25))%R) by (change (2 ^ 25) with 33554432; nra).
  assert (Z0 : 0 <= Zfloor (xr x)) by (apply Zfloor_lub; lra).
  assert (Z1 : 0 <= Zceil (xr x)) by (apply le_IZR; pose proof (Zceil_ub (xr x)); lra).
  assert (Z2 : 0 <= Zround (xr x)) by (rewrite <- (Zround_IZR 0); apply Zround_le; lra).
  assert (U0 : Zfloor (xr x) <= 2 ^ 25) by (rewrite <- (Zfloor_IZR (2 ^ 25)); apply Zfloor_le; exact U).
  assert (U1 : Zceil (xr x) <= 2 ^ 25) by (rewrite <- (Zceil_IZR (2 ^ 25)); apply Zceil_le; exact U).
  assert (U2 : Zround (xr x) <= 2 ^ 25) by (rewrite <- (Zround_IZR (2 ^ 25)); apply Zround_le; exact U).
  destruct (ffloor_xr x V F) as (V1 & F1 & E1). destruct (fceil_xr x V F) as (V2 & F2 & E2).
  destruct (fround_xr x V F) as (V3 & F3 & E3). unfold f_to_usize.
  rewrite !f_to_int_xr; try assumption; try lia; try (apply fin_nan; split; assumption).
  rewrite E1, E2, E3, !Ztrunc_IZR. repeat split; try assumption; try lia.
  - apply (flt_false (fceil x) (f32_of_Z 0)); [split; assumption|apply fin_Z; lia|].
    rewrite E2. destruct (fin_Z 0 ltac:(lia)) as [_ ->]. apply IZR_le. exact Z1.
  - intro H. destruct (fin_Z n ltac:(lia)) as [Fn En]. apply fge_fin in H; [|split; assumption|exact Fn].
    rewrite En, E1 in H. apply le_IZR in H. exact H.
  - intro H. destruct (fin_Z n ltac:(lia)) as [Fn En]. apply fge_fin; [split; assumption|exact Fn|].
    rewrite En, E1. apply IZR_le. exact H.
Qed.

(** ** C16 *)
Lemma value_by_xy_spec (V : value_type) (g : value_grid (carrier V)) x y : 0 <= x -> 0 <= y ->
  (Z.to_nat (g_w (vg_grid g) * g_h (vg_grid g)) <= length (vg_values g))%nat ->
  exists o, value_by_xy V g x y = Ok o /\
  (forall v, o = Some v <-> x < g_w (vg_grid g) /\ y < g_h (vg_grid g) /\
    nth_error (vg_values g) (Z.to_nat (y * g_w (vg_grid g) + x)) = Some v /\ v_eqb V v (vg_missing g) = false).
Proof.
  intros Hx Hy L. unfold value_by_xy, index_by_xy.
  destruct (Z.leb_spec (g_w (vg_grid g)) x); cbn [orb].
  { exists None. split; [reflexivity|]. intro v. split; [discriminate|]. lia. }
  destruct (Z.leb_spec (g_h (vg_grid g)) y).
  { exists None. split; [reflexivity|]. intro v. split; [discriminate|]. lia. }
  rewrite (Z.add_comm x). unfold index_vec.
  destruct (nth_error (vg_values g) (Z.to_nat (y * g_w (vg_grid g) + x))) as [u|] eqn:E.
  - cbn [omap]. eexists. split; [reflexivity|]. intro v. destruct (v_eqb V u (vg_missing g)) eqn:Eq; cbn [negb].
    + split; [discriminate|]. intros (_ & _ & K & Q). injection K as ->. congruence.
    + split.
      * intro K. injection K as ->. auto.
      * intros (_ & _ & K & _). congruence.
  - exfalso. apply nth_error_None in E. pose proof (Nat.le_trans _ _ _ L E) as Q. apply Z2Nat.inj_le in Q; nia.
Qed.

(** ** C17 *)
Lemma interpolate_cases (V : value_type) vs missing w h e p x y : grid_ok w h e -> fin_coord p ->
  xy_by_lat_lon (grid_new w h e) p = Some (x, y) ->
  let g := value_grid_new vs missing w h e in
  let X := xr x in let Y := xr y in
  (w <= Zfloor X \/ h <= Zfloor Y -> interpolate V g p = Ok None) /\
  (Zfloor X < w -> Zfloor Y < h -> Zfloor X = Zceil X \/ Zfloor Y = Zceil Y ->
    interpolate V g p = value_by_xy V g (Zfloor X) (Zfloor Y)) /\
  (Zfloor X < w -> Zfloor Y < h -> Zfloor X <> Zceil X -> Zfloor Y <> Zceil Y ->
    forall tl tr bl br,
      value_by_xy V g (Zfloor X) (Zfloor Y) = Ok tl -> value_by_xy V g (Zceil X) (Zfloor Y) = Ok tr ->
      value_by_xy V g (Zfloor X) (Zceil Y) = Ok bl -> value_by_xy V g (Zceil X) (Zceil Y) = Ok br ->
    interpolate V g p = Ok (
      interpolate_value V
        (interpolate_value V tl (fsub (fceil x) x) tr (fsub x (ffloor x))) (fsub (fceil y) y)
        (interpolate_value V bl (fsub (fceil x) x) br (fsub x (ffloor x))) (fsub y (ffloor y)))).
Proof.
  intros G P H g X Y. destruct (xy_range w h e p x y G P H) as (Fx & Fy & Rx & Ry).
  assert (Hw : 1 <= w <= 2 ^ 24) by apply G. assert (Hh : 1 <= h <= 2 ^ 24) by apply G.
  destruct (cell_of x w Fx Hw Rx) as (A1 & A2 & _ & A3 & A4 & _ & A5 & A6).
  destruct (cell_of y h Fy Hh Ry) as (B1 & B2 & _ & B3 & B4 & _ & B5 & B6).
  unfold interpolate. cbn [vg_grid g value_grid_new grid_new g_w g_h]. fold (grid_new w h e). rewrite H.
  rewrite A5, B5. cbn [orb]. rewrite A1, A2, B1, B2. fold X in A6 |- *. fold Y in B6 |- *.
  split; [|split].
  - intro O. destruct (fge (ffloor x) (f32_of_Z w)) eqn:E1; [reflexivity|].
    destruct (fge (ffloor y) (f32_of_Z h)) eqn:E2; [reflexivity|]. exfalso. destruct O as [O|O].
    + apply A6 in O. discriminate.
    + apply B6 in O. discriminate.
  - intros L1 L2 O. destruct (fge (ffloor x) (f32_of_Z w)) eqn:E1; [apply proj1 in A6; specialize (A6 eq_refl); lia|].
    destruct (fge (ffloor y) (f32_of_Z h)) eqn:E2; [apply proj1 in B6; specialize (B6 eq_refl); lia|].
    cbn [orb]. destruct (Z.eqb_spec (Zfloor X) (Zceil X)), (Z.eqb_spec (Zfloor Y) (Zceil Y)); try reflexivity. lia.
  - intros L1 L2 N1 N2 tl tr bl br T1 T2 T3 T4.
    destruct (fge (ffloor x) (f32_of_Z w)) eqn:E1; [apply proj1 in A6; specialize (A6 eq_refl); lia|].
    destruct (fge (ffloor y) (f32_of_Z h)) eqn:E2; [apply proj1 in B6; specialize (B6 eq_refl); lia|].
    cbn [orb]. destruct (Z.eqb_spec (Zfloor X) (Zceil X)); [contradiction|]. destruct (Z.eqb_spec (Zfloor Y) (Zceil Y)); [contradiction|].
    cbn [orb]. subst g. unfold value_grid_new in *. 
    rewrite T1, T2, T3, T4. reflexivity.
Qed.

(** The two stages together: distance from the exact bilinear value. *)
Lemma f32_bilinear x y tl tr bl br M : fin x -> fin y -> (0 <= xr x)%R -> (0 <= xr y)%R ->
  Zfloor (xr x) <> Zceil (xr x) -> Zfloor (xr y) <> Zceil (xr y) ->
  fin tl -> fin tr -> fin bl -> fin br -> (1 <= M)%R -> (M <= bpow radix2 100)%R ->
  (Rabs (xr tl) <= M)%R -> (Rabs (xr tr) <= M)%R -> (Rabs (xr bl) <= M)%R -> (Rabs (xr br) <= M)%R ->
  let row a b := fadd (fmul a (fsub (fceil x) x)) (fmul b (fsub x (ffloor x))) in
  let r := fadd (fmul (row tl tr) (fsub (fceil y) y)) (fmul (row bl br) (fsub y (ffloor y))) in
  fin r /\ (Rabs (xr r - bilinear (xr x - IZR (Zfloor (xr x))) (xr y - IZR (Zfloor (xr y))) (xr tl) (xr tr) (xr bl) (xr br))
    <= M * bpow radix2 (-18))%R.
Proof.
  intros Fx Fy Hx Hy Nx Ny F1 F2 F3 F4 M1 M2 B1 B2 B3 B4 row r.
  assert (P100 : (M * 2 <= bpow radix2 120)%R).
  { apply Rle_trans with (bpow radix2 100 * 2)%R; [lra|]. change 2%R with (bpow radix2 1). rewrite <- bpow_plus. apply bpow_le. lia. }
  destruct (f32_stage_err x tl tr M Fx Hx Nx F1 F2 ltac:(lra) B1 B2) as [G1 E1].
  destruct (f32_stage_err x bl br M Fx Hx Nx F3 F4 ltac:(lra) B3 B4) as [G2 E2].
  fold (row tl tr) in G1, E1. fold (row bl br) in G2, E2.
  destruct (frac_bounds x Nx) as [Bt _]. destruct (frac_bounds y Ny) as [Bu _].
  set (t := (xr x - IZR (Zfloor (xr x)))%R) in *. set (u := (xr y - IZR (Zfloor (xr y)))%R) in *.
  apply Rabs_le_inv in B1, B2, B3, B4.
  pose proof (convex (- M) M (xr tl) (xr tr) t B1 B2 ltac:(lra)) as C1. pose proof (convex (- M) M (xr bl) (xr br) t B3 B4 ltac:(lra)) as C2.
  assert (e140 : (bpow radix2 (-140) <= / 8388608)%R).
  { apply Rle_trans with (bpow radix2 (-23)); [apply bpow_le; lia|]. cbn. lra. }
  assert (H20 : (bpow radix2 (-20) = / 1048576)%R) by (cbn; lra). assert (H18 : (bpow radix2 (-18) = / 262144)%R) by (cbn; lra).
  rewrite H20 in E1, E2. apply Rabs_le_inv in E1, E2.
  set (a := xr (row tl tr)) in *. set (b := xr (row bl br)) in *.
  assert (A1 : (Rabs a <= M * (1 + / 524288))%R) by (apply Rabs_le; lra).
  assert (A2 : (Rabs b <= M * (1 + / 524288))%R) by (apply Rabs_le; lra).
  destruct (f32_stage_err y (row tl tr) (row bl br) (M * (1 + / 524288)) Fy Hy Ny G1 G2 ltac:(lra) A1 A2) as [G E].
  fold r in G, E. fold u a b in E. split; [exact G|]. rewrite H20 in E. rewrite H18. unfold bilinear.
  set (p := (xr tl * (1 - t) + xr tr * t)%R) in *. set (q := (xr bl * (1 - t) + xr br * t)%R) in *.
  pose proof (convex (- (M * / 524288)) (M * / 524288) (a - p) (b - q) u ltac:(lra) ltac:(lra) ltac:(lra)) as K.
  apply Rabs_le_inv in E. apply Rabs_le. lra.
Qed.
Lemma u8_bilinear x y tl tr bl br : fin x -> fin y -> (0 <= xr x)%R -> (0 <= xr y)%R ->
  Zfloor (xr x) <> Zceil (xr x) -> Zfloor (xr y) <> Zceil (xr y) ->
  0 <= tl <= 255 -> 0 <= tr <= 255 -> 0 <= bl <= 255 -> 0 <= br <= 255 ->
  let row a b := u8_add (u8_scale a (fsub (fceil x) x)) (u8_scale b (fsub x (ffloor x))) in
  let r := u8_add (u8_scale (row tl tr) (fsub (fceil y) y)) (u8_scale (row bl br) (fsub y (ffloor y))) in
  0 <= r <= 255 /\ (Rabs (IZR r - bilinear (xr x - IZR (Zfloor (xr x))) (xr y - IZR (Zfloor (xr y))) (IZR tl) (IZR tr) (IZR bl) (IZR br))
    <= 2 + / 4096)%R.
Proof.
  intros Fx Fy Hx Hy Nx Ny B1 B2 B3 B4 row r.
  destruct (u8_stage_err x tl tr Fx Hx Nx B1 B2) as [G1 E1]. destruct (u8_stage_err x bl br Fx Hx Nx B3 B4) as [G2 E2].
  fold (row tl tr) in G1, E1. fold (row bl br) in G2, E2.
  destruct (u8_stage_err y (row tl tr) (row bl br) Fy Hy Ny G1 G2) as [G E]. fold r in G, E.
  destruct (frac_bounds x Nx) as [Bt _]. destruct (frac_bounds y Ny) as [Bu _].
  set (t := (xr x - IZR (Zfloor (xr x)))%R) in *. set (u := (xr y - IZR (Zfloor (xr y)))%R) in *.
  split; [exact G|]. unfold bilinear.
  set (p := (IZR tl * (1 - t) + IZR tr * t)%R) in *. set (q := (IZR bl * (1 - t) + IZR br * t)%R) in *.
  apply Rabs_le_inv in E1, E2, E.
  pose proof (convex (- (1 + / 8192)) (1 + / 8192) (IZR (row tl tr) - p) (IZR (row bl br) - q) u ltac:(lra) ltac:(lra) ltac:(lra)) as K.
  apply Rabs_le. lra.
Qed.

Lemma not_integral r : (forall k, r <> IZR k) -> Zfloor r <> Zceil r.
Proof.
  intros H E. apply (H (Zfloor r)). pose proof (Zfloor_lb r). pose proof (Zceil_ub r). rewrite <- E in *. lra.
Qed.
Lemma Zceil_floor r : Zfloor r <= Zceil r.
Proof. apply le_IZR. pose proof (Zfloor_lb r). pose proof (Zceil_ub r). lra. Qed.
Lemma around r i : (forall k, r <> IZR k) -> (IZR i - 1 < r < IZR i + 1)%R -> i = Zfloor r \/ i = Zceil r.
Proof.
  intros N H. destruct (Rlt_or_le r (IZR i)) as [L|L].
  - right. symmetry. apply Zceil_imp. rewrite minus_IZR. lra.
  - left. symmetry. apply Zfloor_imp. rewrite plus_IZR. lra.
Qed.
Lemma open_cell r i : (IZR i < r < IZR i + 1)%R -> Zfloor r = i /\ Zceil r = i + 1.
Proof.
  intro H. split; [apply Zfloor_imp; rewrite plus_IZR; lra|]. apply Zceil_imp. rewrite plus_IZR, minus_IZR, plus_IZR. lra.
Qed.
Lemma value_in_grid (V : value_type) (g : value_grid (carrier V)) i j v : value_by_xy V g i j = Ok (Some v) ->
  i < g_w (vg_grid g) /\ j < g_h (vg_grid g).
Proof.
  unfold value_by_xy, index_by_xy. destruct (Z.leb_spec (g_w (vg_grid g)) i); [discriminate|].
  destruct (Z.leb_spec (g_h (vg_grid g)) j); [discriminate|]. auto.
Qed.
