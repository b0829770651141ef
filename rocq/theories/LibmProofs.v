(** A mathematics library that rounds every result correctly meets what the theorems assume about it (C34, C63, C39). *)
From Coq Require Import ZArith Reals Psatz List Bool Lia Lra.
From Coq Require Import Floats.SpecFloat.
From Flocq Require Import Core.Core.
From Coquelicot Require Import Coquelicot.
From Verif Require Import Base F32 F32Facts GeoModel GeoSpec GeoProofs GeoValueProofs ImagingProofs TileModel TileSpec TileProofs MercatorProofs.
Open Scope R_scope.

(** The float nearest to a real number. *)
Definition nearest (r : R) : f32 :=
  binary_normalize 24 128 (ZnearestE (scaled_mantissa radix2 fexp32 r)) (cexp radix2 fexp32 r) false.
Definition ideal : libm :=
  {| m_tan := fun x => nearest (tan (xr x)); m_cos := fun x => nearest (cos (xr x)); m_ln := fun x => nearest (ln (xr x));
     m_sinh := fun x => nearest (sinh (xr x)); m_atan := fun x => nearest (atan (xr x)) |}.

Lemma nearest_spec r : Rabs r <= 100000000 -> fin (nearest r) /\ xr (nearest r) = rnd r.
Proof.
  intro H. unfold nearest. pose proof (normalize_rounds (ZnearestE (scaled_mantissa radix2 fexp32 r)) (cexp radix2 fexp32 r) false) as N.
  change (F2R _) with (rnd r) in N. pose proof (op_near _ _ (Rabs (rnd r)) N ltac:(lra)) as O.
  pose proof (rnd_near r _ H) as E. unfold tiny in E.
  apply exact_fin; [exact N|apply gen_rnd|]. eapply Rle_lt_trans; [|exact big_gt].
  apply Rle_trans with 1000000000; [|apply IZR_le; lia]. apply Rabs_le_inv in E, H. apply Rabs_le. lra.
Qed.
Lemma nearest_accurate (dom : R -> Prop) g : (forall x, fin x -> dom (xr x) -> Rabs (g (xr x)) <= 100000000) -> accurate dom (fun x => nearest (g (xr x))) g.
Proof.
  intros H x F D. destruct (nearest_spec (g (xr x)) (H x F D)) as [Fn En]. split; [exact Fn|]. rewrite En.
  pose proof (rnd_err (g (xr x))) as E. rewrite ulp_half_val in E. pose proof (Rabs_pos (g (xr x))) as P.
  assert (bpow radix2 (-150) <= / IZR (2 ^ 100)).
  { change (bpow radix2 (-150)) with (/ IZR (2 ^ 150)). apply Rinv_le_contravar; [apply IZR_lt; reflexivity|apply IZR_le; lia]. }
  assert (IZR (2 ^ 22) = 4194304) as -> by reflexivity. lra.
Qed.
Lemma cos_low2 x : Rabs x <= 3 / 2 -> / 20 <= cos x.
Proof.
  intro H. assert (E : cos x = cos (Rabs x)) by (unfold Rabs; destruct (Rcase_abs x); [rewrite cos_neg|]; reflexivity).
  rewrite E. pose proof pi_bounds. pose proof (Rabs_pos x). set (a := Rabs x) in *. clearbody a.
  rewrite cos_sin. replace (PI / 2 + a) with (PI - (PI / 2 - a)) by lra. rewrite sin_PI_x.
  apply Rle_trans with (sin (7 / 100)).
  - eapply Rle_trans; [|apply sin_low; lra]. lra.
  - destruct (Rle_lt_dec (PI / 2 - a) (PI / 2)) as [L|L]; [|lra]. apply sin_incr_1; lra.
Qed.
Lemma exp4 : exp 4 <= 63.
Proof.
  assert (H : exp (/ 16) <= 16 / 15).
  { pose proof (exp_ineq1_le (- / 16)) as Q. rewrite exp_Ropp in Q. pose proof (exp_pos (/ 16)) as P.
    apply Rmult_le_reg_r with (/ exp (/ 16)); [apply Rinv_0_lt_compat; lra|]. rewrite Rinv_r by lra. lra. }
  assert (D : forall x b, exp x <= b -> exp (x + x) <= b * b). { intros x b B. rewrite exp_plus. pose proof (exp_pos x). apply Rmult_le_compat; lra. }
  apply D, D, D, D, D, D in H. replace 4 with (/ 16 + / 16 + (/ 16 + / 16) + (/ 16 + / 16 + (/ 16 + / 16)) +
    (/ 16 + / 16 + (/ 16 + / 16) + (/ 16 + / 16 + (/ 16 + / 16))) + (/ 16 + / 16 + (/ 16 + / 16) + (/ 16 + / 16 + (/ 16 + / 16)) +
    (/ 16 + / 16 + (/ 16 + / 16) + (/ 16 + / 16 + (/ 16 + / 16)))) + (/ 16 + / 16 + (/ 16 + / 16) + (/ 16 + / 16 + (/ 16 + / 16)) +
    (/ 16 + / 16 + (/ 16 + / 16) + (/ 16 + / 16 + (/ 16 + / 16))) + (/ 16 + / 16 + (/ 16 + / 16) + (/ 16 + / 16 + (/ 16 + / 16)) +
    (/ 16 + / 16 + (/ 16 + / 16) + (/ 16 + / 16 + (/ 16 + / 16)))))) by lra.
  eapply Rle_trans; [exact H|]. lra.
Qed.
Lemma sinh_mono a b : a <= b -> sinh a <= sinh b.
Proof.
  intros [L| ->]; [|lra]. unfold sinh. pose proof (exp_increasing a b L). pose proof (exp_increasing (- b) (- a) ltac:(lra)). lra.
Qed.
Lemma sinh_4 : sinh 4 <= 32 /\ - 32 <= sinh (-4).
Proof.
  pose proof exp4. pose proof (exp_pos (-4)) as P. unfold sinh. replace (- (-4)) with 4 by lra. replace (-(4)) with (-4) by lra. lra.
Qed.
Lemma atan_32 : atan 32 <= 156 / 100.
Proof.
  pose proof (atan_inv 32 ltac:(lra)) as I. pose proof pi_bounds as PB.
  destruct (mvt atan (fun x => / (1 + x ^ 2)) 0 (/ 32) atan_derive) as (c & Bc & E). rewrite atan_0 in E.
  rewrite Rmin_left, Rmax_right in Bc by lra.
  assert (/ 2 <= / (1 + c ^ 2)). { apply Rinv_le_contravar; [|]; assert (0 <= c ^ 2 <= 1) by (simpl; split; nra); lra. }
  nra.
Qed.
Lemma float_ln x : fin x -> 0 < xr x -> Rabs (ln (xr x)) <= 200.
Proof.
  intros [V F] P. assert (L2 : 0 <= ln 2 <= 1).
  { split; [rewrite <- ln_1; apply ln_le; lra|]. pose proof (exp_ineq1_le (ln 2)) as Q. rewrite exp_ln in Q by lra. lra. }
  assert (B : forall e, ln (bpow radix2 e) = IZR e * ln 2).
  { intro e. rewrite bpow_exp. rewrite ln_exp. reflexivity. }
  pose proof (xr_bound x V F) as U. rewrite Rabs_pos_eq in U by lra. unfold big in U.
  assert (L : bpow radix2 (-149) <= xr x).
  { pose proof (xr_gen x V F) as G. pose proof (generic_format_ge_bpow radix2 fexp32 (-149)) as Q. apply Q; [|exact P|exact G].
    intro e. unfold fexp32. unfold SpecFloat.fexp, emin. lia. }
  apply ln_le in L; [|apply bpow_gt_0]. apply ln_increasing in U; [|exact P]. rewrite B in L, U. apply Rabs_le. lra.
Qed.
Lemma ideal_accurate : libm_accurate ideal.
Proof.
  split; [|split; [|split; [|split]]]; apply nearest_accurate; intros x F D.
  - pose proof (cos_low2 _ D) as C. unfold tan, Rdiv. rewrite Rabs_mult.
    assert (I : 0 < / cos (xr x) <= 20). { split; [apply Rinv_0_lt_compat; lra|]. replace 20 with (/ / 20) by lra. apply Rinv_le_contravar; lra. }
    rewrite (Rabs_pos_eq (/ cos (xr x))) by lra. assert (Rabs (sin (xr x)) <= 1) by (apply Rabs_le; apply SIN_bound).
    apply Rle_trans with (1 * 20); [apply Rmult_le_compat; [apply Rabs_pos|lra|lra|lra]|lra].
  - pose proof (COS_bound (xr x)). apply Rabs_le. lra.
  - pose proof (float_ln x F D). lra.
  - apply Rabs_le_inv in D. pose proof sinh_4 as S. pose proof (sinh_mono (xr x) 4 ltac:(lra)). pose proof (sinh_mono (-4) (xr x) ltac:(lra)). apply Rabs_le. lra.
  - pose proof (atan_bound (xr x)). pose proof pi_bounds. apply Rabs_le. lra.
Qed.
Lemma nearest_monotone a b g : 0 <= b <= 1000 -> generic_format radix2 fexp32 b \/ (forall x, - a <= x <= a -> - b < rnd (g x) < b) ->
  (forall x y, - a <= x -> x <= y -> y <= a -> - b <= g x /\ g x <= g y /\ g y <= b) -> monotone_on a b (fun x => nearest (g (xr x))).
Proof.
  intros B Q H u v Fu Fv L1 L2 L3. destruct (H (xr u) (xr v) L1 L2 L3) as (G1 & G2 & G3).
  destruct (nearest_spec (g (xr u)) ltac:(apply Rabs_le; lra)) as [F1 E1]. destruct (nearest_spec (g (xr v)) ltac:(apply Rabs_le; lra)) as [F2 E2].
  rewrite E1, E2. split; [exact F1|]. split; [exact F2|]. destruct Q as [Q|Q].
  - split; [rewrite <- (rnd_gen (- b)) by (apply generic_format_opp; exact Q); apply rnd_mono; lra|].
    split; [apply rnd_mono; lra|]. rewrite <- (rnd_gen b) by exact Q. apply rnd_mono. lra.
  - pose proof (Q (xr u) ltac:(lra)). pose proof (Q (xr v) ltac:(lra)). split; [lra|]. split; [apply rnd_mono; lra|lra].
Qed.
Lemma ideal_ok : libm_ok ideal.
Proof.
  split.
  - apply (nearest_monotone 4 32 sinh); [lra|left; apply (gen_Z 32); lia|]. intros x y X L Y. pose proof sinh_4 as S.
    pose proof (sinh_mono (-4) x ltac:(lra)). pose proof (sinh_mono y 4 ltac:(lra)). pose proof (sinh_mono x y L). lra.
  - apply (nearest_monotone 32 (157 / 100) atan); [lra| |].
    + right. intros x X. pose proof atan_32 as A. assert (B : - (156 / 100) <= atan x <= 156 / 100).
      { assert (M : forall u v, u <= v -> atan u <= atan v) by (intros u v [W| ->]; [left; apply atan_increasing; exact W|lra]).
        pose proof (M x 32 ltac:(lra)). pose proof (M (- (32)) x ltac:(lra)) as Q. rewrite atan_opp in Q. lra. }
      pose proof (rnd_near (atan x) 2 ltac:(apply Rabs_le; lra)) as N. unfold tiny in N. apply Rabs_le_inv in N. lra.
    + intros x y X L Y. pose proof atan_32 as A.
      assert (M : forall u v, u <= v -> atan u <= atan v) by (intros u v [W| ->]; [left; apply atan_increasing; exact W|lra]).
      pose proof (M y 32 ltac:(lra)). pose proof (M (- (32)) x ltac:(lra)) as Q. rewrite atan_opp in Q. pose proof (M x y L). lra.
Qed.
