(** Proofs about the rows of map tiles (C63). *)
From Coq Require Import ZArith Reals Psatz List Bool Lia Lra.
From Coq Require Import Floats.SpecFloat.
From Flocq Require Import Core.Core.
From Coquelicot Require Import Coquelicot.
From Verif Require Import Base F32 F32Facts Grib2Model GeoModel GeoSpec GeoProofs GeoValueProofs ImagingModel ImagingSpec ImagingProofs
  TileModel TileSpec TileProofs.
Open Scope R_scope.

(** ** Numerical facts *)
Lemma pi_bounds : 314159263 / 100000000 < PI < 314159270 / 100000000.
Proof.
  pose proof (PI_2_3_7_ineq 3) as [A B]. pose proof (PI_2_3_7_ineq 4) as [A' _].
  cbv [sum_f_R0 tg_alt PI_2_3_7_tg Ratan_seq] in A, B, A'. simpl in A, B, A'. lra.
Qed.
Lemma sin_low t : 0 <= t <= 1 -> t - t * t * t / 6 <= sin t.
Proof.
  intro H. pose proof pi_bounds. destruct (sin_bound t 0 ltac:(lra) ltac:(lra)) as [L _].
  cbv [sin_approx sum_f_R0 sin_term] in L. simpl in L. lra.
Qed.
Lemma cos_low x : Rabs x <= 1487 / 1000 -> / 12 <= cos x.
Proof.
  intro H. assert (E : cos x = cos (Rabs x)) by (unfold Rabs; destruct (Rcase_abs x); [rewrite cos_neg|]; reflexivity).
  rewrite E. pose proof pi_bounds. pose proof (Rabs_pos x). set (a := Rabs x) in *. clearbody a.
  rewrite cos_sin. replace (PI / 2 + a) with (PI - (PI / 2 - a)) by lra. rewrite sin_PI_x.
  apply Rle_trans with (sin (8379 / 100000)).
  - eapply Rle_trans; [|apply sin_low; lra]. lra.
  - destruct (Rle_lt_dec (PI / 2 - a) (PI / 2)) as [L|L]; [|lra]. apply sin_incr_1; lra.
Qed.
Lemma cos_up x : cos x <= 1. Proof. apply COS_bound. Qed.

(** ** The Mercator function *)
Definition sect (x : R) : R := tan x + / cos x.
Lemma sect_eq x : cos x <> 0 -> sect x = (1 + sin x) / cos x.
Proof. intro H. unfold sect, tan. field. exact H. Qed.
Lemma sect_inv x : 0 < cos x -> sect x * ((1 - sin x) / cos x) = 1.
Proof.
  intro H. rewrite sect_eq by lra. replace ((1 + sin x) / cos x * ((1 - sin x) / cos x)) with ((1 - Rsqr (sin x)) / Rsqr (cos x)) by (unfold Rsqr; field; lra).
  rewrite <- cos2. field. unfold Rsqr. nra.
Qed.
Lemma sect_bounds x : Rabs x <= 1487 / 1000 -> / 24 <= sect x <= 24 /\ Rabs (tan x) <= 12 /\ 1 <= / cos x <= 12.
Proof.
  intro H. pose proof (cos_low x H) as C. pose proof (cos_up x) as U. pose proof (SIN_bound x) as S.
  assert (I : 1 <= / cos x <= 12).
  { split; [rewrite <- Rinv_1 at 1; apply Rinv_le_contravar; lra|]. replace 12 with (/ / 12) by lra. apply Rinv_le_contravar; lra. }
  assert (T : Rabs (tan x) <= 12).
  { unfold tan, Rdiv. rewrite Rabs_mult, (Rabs_pos_eq (/ cos x)) by lra. apply Rle_trans with (1 * / cos x); [|lra].
    apply Rmult_le_compat_r; [lra|]. apply Rabs_le. lra. }
  split; [|auto]. apply Rabs_le_inv in T. split; [|unfold sect; lra].
  pose proof (sect_inv x ltac:(lra)) as E. set (q := (1 - sin x) / cos x) in *.
  assert (Q : 0 <= q <= 24).
  { unfold q, Rdiv. split; [apply Rmult_le_pos; lra|]. replace 24 with (2 * 12) by lra. apply Rmult_le_compat; lra. }
  destruct (Rle_lt_dec (/ 24) (sect x)) as [L|L]; [exact L|]. exfalso. destruct (Rle_lt_dec (sect x) 0) as [N|N]; nra.
Qed.
Lemma sect_north x : 0 <= x -> Rabs x <= 1487 / 1000 -> 1 <= sect x.
Proof.
  intros P H. destruct (sect_bounds x H) as (_ & _ & I). unfold sect. enough (0 <= tan x) by lra. unfold tan. apply Rmult_le_pos; [|lra].
  pose proof pi_bounds. rewrite Rabs_pos_eq in H by exact P. apply sin_ge_0; lra.
Qed.
Lemma sect_deriv x : 0 < cos x -> 0 < sect x -> is_derive (fun t => ln (sect t)) x (/ cos x).
Proof.
  intros C S. pose proof S as S'. unfold sect, tan in S' |- *. unfold Rdiv in *.
  auto_derive; [repeat split; try lra|]. pose proof (sin2_cos2 x) as P. unfold Rsqr in P.
  assert (E : sin x * sin x = 1 - cos x * cos x) by lra.
  assert (D : sin x + 1 <> 0). { intro Z. assert (sin x = -1) by lra. rewrite H in S'. field_simplify in S'; [|lra]. lra. }
  field_simplify_eq; [|repeat split; lra]. ring_simplify. try nra.
Qed.
Lemma sect_lipschitz a b : Rabs a <= 1487 / 1000 -> Rabs b <= 1487 / 1000 -> Rabs (ln (sect b) - ln (sect a)) <= 12 * Rabs (b - a).
Proof.
  intros A B. apply Rabs_le_inv in A. apply Rabs_le_inv in B.
  destruct (MVT_gen (fun t => ln (sect t)) a b (fun t => / cos t)) as (c & Bc & E).
  - intros x Hx. assert (Q : Rabs x <= 1487 / 1000). { apply Rabs_le. unfold Rmin, Rmax in Hx. destruct (Rle_dec a b); lra. }
    destruct (sect_bounds x Q) as (S & _ & _). pose proof (cos_low x Q). apply sect_deriv; lra.
  - intros x Hx. assert (Q : Rabs x <= 1487 / 1000). { apply Rabs_le. unfold Rmin, Rmax in Hx. destruct (Rle_dec a b); lra. }
    destruct (sect_bounds x Q) as (S & _ & _). pose proof (cos_low x Q).
    apply continuity_pt_filterlim. apply (ex_derive_continuous (fun t => ln (sect t))). eexists. apply sect_deriv; lra.
  - assert (Q : Rabs c <= 1487 / 1000). { apply Rabs_le. unfold Rmin, Rmax in Bc. destruct (Rle_dec a b); lra. }
    destruct (sect_bounds c Q) as (_ & _ & I). rewrite E, Rabs_mult, (Rabs_pos_eq (/ cos c)) by lra.
    apply Rmult_le_compat_r; [apply Rabs_pos|lra].
Qed.
Lemma ln_close S s d : 0 < s -> d < s -> Rabs (S - s) <= d -> Rabs (ln S - ln s) <= d / (s - d).
Proof.
  intros P D H. apply Rabs_le_inv in H. assert (0 < S) by lra.
  assert (L : forall x, 0 < x -> ln x <= x - 1).
  { intros x X. pose proof (exp_ineq1_le (ln x)) as Q. rewrite exp_ln in Q by exact X. lra. }
  assert (I : 0 < / (s - d)) by (apply Rinv_0_lt_compat; lra).
  apply Rabs_le. split.
  - pose proof (L (s / S) ltac:(apply Rdiv_lt_0_compat; lra)) as Q. rewrite ln_div in Q by lra.
    assert (s / S - 1 <= d / (s - d)); [|lra]. replace (s / S - 1) with ((s - S) / S) by (field; lra).
    destruct (Rle_lt_dec s S) as [G|G].
    + apply Rle_trans with 0; [|apply Rmult_le_pos; lra]. apply Ropp_le_cancel. rewrite Ropp_0. unfold Rdiv. rewrite Ropp_mult_distr_l. apply Rmult_le_pos; [lra|]. left. apply Rinv_0_lt_compat. lra.
    + unfold Rdiv. apply Rmult_le_compat; try lra; [left; apply Rinv_0_lt_compat; lra|apply Rinv_le_contravar; lra].
  - pose proof (L (S / s) ltac:(apply Rdiv_lt_0_compat; lra)) as Q. rewrite ln_div in Q by lra.
    assert (S / s - 1 <= d / (s - d)); [|lra]. replace (S / s - 1) with ((S - s) / s) by (field; lra).
    destruct (Rle_lt_dec S s) as [G|G].
    + apply Rle_trans with 0; [|apply Rmult_le_pos; lra]. apply Ropp_le_cancel. rewrite Ropp_0. unfold Rdiv. rewrite Ropp_mult_distr_l. apply Rmult_le_pos; [lra|]. left. apply Rinv_0_lt_compat. lra.
    + unfold Rdiv. apply Rmult_le_compat; try lra; [left; apply Rinv_0_lt_compat; lra|apply Rinv_le_contravar; lra].
Qed.
Lemma ln_bound s : / 25 <= s <= 25 -> Rabs (ln s) <= 4.
Proof.
  intro H. assert (E : 25 <= exp 4).
  { pose proof (exp_ineq1_le (1 / 2)) as Q. replace 4 with (1/2 + 1/2 + (1/2 + 1/2) + (1/2 + 1/2 + (1/2 + 1/2))) by lra. rewrite !exp_plus.
    set (e := exp (1 / 2)) in *. assert (1.5 <= e) by lra. assert (2.25 <= e * e) by nra. assert (5.06 <= e * e * (e * e)) by nra. nra. }
  apply Rabs_le. split.
  - rewrite <- (ln_exp (Ropp 4)). apply ln_le; [apply exp_pos|]. rewrite exp_Ropp. apply Rle_trans with (/ 25); [|lra]. apply Rinv_le_contravar; lra.
  - rewrite <- (ln_exp 4). apply ln_le; lra.
Qed.

(** ** One operation *)
Definition tiny : R := / 1000000000000.
Lemma rnd_near r M : Rabs r <= M -> Rabs (rnd r - r) <= M / 16777216 + tiny.
Proof.
  intro H. pose proof (rnd_err r) as E. rewrite ulp_half_val in E. pose proof bpow_m150 as Z. unfold tiny.
  assert (/ 1073741824 / 1073741824 <= / 1000000000000) by lra. lra.
Qed.
Lemma op_near z r M : rounds_to z r -> Rabs r <= M -> M <= 100000000 -> fin z /\ Rabs (xr z - r) <= M / 16777216 + tiny.
Proof.
  intros R H B. pose proof (rnd_near r M H) as N. assert (Q : (Rabs (rnd r) < big)%R).
  { eapply Rle_lt_trans; [|exact big_gt]. apply Rle_trans with 1000000000.
    - apply Rabs_le_inv in N. apply Rabs_le_inv in H. unfold tiny in N. apply Rabs_le. lra.
    - apply IZR_le. lia. }
  destruct (rounds_fin z r R Q) as [F E]. split; [exact F|]. rewrite E. exact N.
Qed.
Lemma pi32_val : fin PI32 /\ xr PI32 = 13176795 / 4194304.
Proof. split; [split; reflexivity|]. unfold PI32. rewrite xr_F2R, F2R_neg_exp by lia. reflexivity. Qed.
Lemma rad_const : fin (fdiv PI32 (f32_of_Z 180)) /\ xr (fdiv PI32 (f32_of_Z 180)) = 9370165 / 536870912.
Proof.
  replace (fdiv PI32 (f32_of_Z 180)) with (S754_finite false 9370165 (-29)) by (vm_compute; reflexivity).
  split; [split; reflexivity|]. rewrite xr_F2R, F2R_neg_exp by lia. reflexivity.
Qed.
Lemma to_radians_near x : fin x -> Rabs (xr x) <= 180 ->
  fin (to_radians x) /\ Rabs (xr (to_radians x) - radians (xr x)) <= Rabs (xr x) / 250000000 + tiny.
Proof.
  intros F B. destruct rad_const as [Fc Ec]. pose proof (fin_mul _ _ F Fc) as R. fold (to_radians x) in R. rewrite Ec in R.
  pose proof (Rabs_pos (xr x)) as P.
  destruct (op_near _ _ (Rabs (xr x) * (9370165 / 536870912)) R) as [Fr Er].
  - rewrite Rabs_mult, (Rabs_pos_eq (9370165 / 536870912)) by lra. lra.
  - lra.
  - split; [exact Fr|]. pose proof pi_bounds as PB. unfold radians.
    replace (xr (to_radians x) - xr x * PI / 180) with ((xr (to_radians x) - xr x * (9370165 / 536870912)) + xr x * (9370165 / 536870912 - PI / 180)) by field.
    eapply Rle_trans; [apply Rabs_triang|]. rewrite (Rabs_mult (xr x)).
    assert (Rabs (9370165 / 536870912 - PI / 180) <= / 500000000) by (apply Rabs_le; lra).
    assert (Rabs (xr x) * Rabs (9370165 / 536870912 - PI / 180) <= Rabs (xr x) * / 500000000) by (apply Rmult_le_compat_l; lra). lra.
Qed.

(** ** The row of a latitude *)
Definition row_arg32 (m : libm) (la : f32) : f32 := fadd (m_tan m (to_radians la)) (fdiv (f32_of_Z 1) (m_cos m (to_radians la))).
Definition row_frac (m : libm) (la : f32) : f32 := fdiv (fsub (f32_of_Z 1) (fdiv (m_ln m (row_arg32 m la)) PI32)) (f32_of_Z 2).
Lemma radians_small la : Rabs la <= 851 / 10 -> Rabs (radians la) <= 14853 / 10000.
Proof.
  intro H. pose proof pi_bounds. unfold radians, Rdiv. rewrite !Rabs_mult, (Rabs_pos_eq PI), (Rabs_pos_eq (/ 180)) by lra. pose proof (Rabs_pos la). nra.
Qed.
Lemma row_arg_near m la : libm_accurate m -> fin la -> Rabs (xr la) <= 851 / 10 ->
  exists r, Rabs r <= 14854 / 10000 /\ (0 <= xr la -> 0 <= r) /\ Rabs (r - radians (xr la)) <= / 2000000 /\
    fin (row_arg32 m la) /\ Rabs (xr (row_arg32 m la) - sect r) <= / 100000.
Proof.
  intros (At & Ac & _) F B. destruct (to_radians_near la F ltac:(lra)) as [Fr Er]. pose proof (radians_small _ B) as Br.
  set (x := to_radians la) in *. exists (xr x).
  assert (E1 : Rabs (xr x - radians (xr la)) <= / 2000000) by (eapply Rle_trans; [exact Er|]; unfold tiny; lra).
  assert (Bx : Rabs (xr x) <= 14854 / 10000).
  { replace (xr x) with ((xr x - radians (xr la)) + radians (xr la)) by ring. eapply Rle_trans; [apply Rabs_triang|]. lra. }
  split; [exact Bx|]. split.
  { intro P. destruct rad_const as [Fc Ec]. pose proof (fin_mul _ _ F Fc) as R. fold (to_radians la) in R. fold x in R.
    destruct R as (_ & _ & R). rewrite R, Ec. assert (0 <= rnd (xr la * (9370165 / 536870912))) by (rewrite <- rnd_0; apply rnd_mono; nra).
    unfold sat. pose proof big_pos. apply Rle_trans with (Rmin big (rnd (xr la * (9370165 / 536870912)))); [apply Rmin_glb; lra|apply Rmax_r]. }
  split; [exact E1|].
  destruct (sect_bounds (xr x) ltac:(lra)) as (_ & T & I). pose proof (cos_low (xr x) ltac:(lra)) as C. pose proof (cos_up (xr x)) as U.
  destruct (At x Fr ltac:(lra)) as [Ft Et]. destruct (Ac x Fr ltac:(lra)) as [Fc Ec].
  set (t := m_tan m x) in *. set (c := m_cos m x) in *.
  assert (K1 : IZR (2 ^ 22) = 4194304) by reflexivity. assert (K2 : 0 <= / IZR (2 ^ 100) <= / 1000000000000).
  { split; [left; apply Rinv_0_lt_compat; apply IZR_lt; reflexivity|]. apply Rinv_le_contravar; [lra|]. apply IZR_le. lia. }
  rewrite K1 in Et, Ec. set (k := / IZR (2 ^ 100)) in *. clearbody k.
  rewrite (Rabs_pos_eq (cos (xr x))) in Ec by lra.
  assert (Et' : Rabs (xr t - tan (xr x)) <= 3 / 1000000) by lra.
  assert (Cp : 8 / 100 <= xr c) by (apply Rabs_le_inv in Ec; lra).
  assert (I2 : Rabs (1 / xr c - / cos (xr x)) <= 3 / 1000000).
  { replace (1 / xr c - / cos (xr x)) with ((cos (xr x) - xr c) * (/ xr c * / cos (xr x))) by (field; lra).
    assert (Ic : 0 <= / xr c <= 12.5). { split; [left; apply Rinv_0_lt_compat; lra|]. replace 12.5 with (/ (8 / 100)) by lra. apply Rinv_le_contravar; lra. }
    rewrite !Rabs_mult, (Rabs_pos_eq (/ xr c)), (Rabs_pos_eq (/ cos (xr x))) by lra.
    rewrite Rabs_minus_sym.
    apply Rle_trans with ((cos (xr x) / 4194304 + k) * (12.5 * / cos (xr x))).
    - apply Rmult_le_compat; [apply Rabs_pos|apply Rmult_le_pos; lra|exact Ec|apply Rmult_le_compat_r; lra].
    - replace ((cos (xr x) / 4194304 + k) * (12.5 * / cos (xr x))) with (12.5 / 4194304 + k * 12.5 * / cos (xr x)) by (field; lra).
      assert (k * 12.5 * / cos (xr x) <= / 1000000000000 * 12.5 * 12) by (apply Rmult_le_compat; lra). lra. }
  destruct (fin_Z 1 ltac:(lia)) as [F1 E1'].
  pose proof (fin_div _ _ F1 Fc ltac:(lra)) as Rv. rewrite E1' in Rv.
  destruct (op_near _ _ 13 Rv) as [Fv Ev]; [|lra|].
  { apply Rabs_le_inv in I2. apply Rabs_le. lra. }
  set (v := fdiv (f32_of_Z 1) c) in *.
  pose proof (fin_add _ _ Ft Fv) as Rs. fold (row_arg32 m la) in Rs. unfold row_arg32. fold x t c v.
  destruct (op_near _ _ 26 Rs) as [Fs Es]; [|lra|].
  { apply Rabs_le_inv in I2. apply Rabs_le_inv in Et'. apply Rabs_le_inv in Ev. apply Rabs_le_inv in T. unfold tiny in Ev. apply Rabs_le. lra. }
  split; [exact Fs|]. unfold sect.
  apply Rabs_le_inv in I2. apply Rabs_le_inv in Et'. apply Rabs_le_inv in Ev. apply Rabs_le_inv in Es. unfold tiny in *. apply Rabs_le. lra.
Qed.
(** The fraction of the map's height, with [g] a lower bound of the argument of the logarithm. *)
Lemma row_frac_near m la g e : libm_accurate m -> fin la -> Rabs (xr la) <= 851 / 10 -> / 24 <= g ->
  (forall r, Rabs r <= 14854 / 10000 -> (0 <= xr la -> 0 <= r) -> g <= sect r) ->
  / 100000 / (g - / 100000) + 8 / 1000000 <= 62 / 10 * e -> e <= / 8192 ->
  fin (row_frac m la) /\ Rabs (xr (row_frac m la) - (1 - ln (sect (radians (xr la))) / PI) / 2) <= e + 4 / 10000000.
Proof.
  intros A F B Hg Hr He Hb. pose proof A as (_ & _ & Al & _). destruct (row_arg_near m la A F B) as (r & Br & Pr & Nr & Fs & Es).
  pose proof (Hr r Br Pr) as Sr. destruct (sect_bounds r ltac:(lra)) as ((Sl & Su) & _ & _). set (s := row_arg32 m la) in *.
  assert (Ss : / 25 <= xr s <= 25) by (apply Rabs_le_inv in Es; lra).
  pose proof (ln_bound (xr s) Ss) as Ls.
  destruct (Al s Fs ltac:(lra)) as [Fl El].
  assert (K1 : IZR (2 ^ 22) = 4194304) by reflexivity. assert (K2 : 0 <= / IZR (2 ^ 100) <= / 1000000000000).
  { split; [left; apply Rinv_0_lt_compat; apply IZR_lt; reflexivity|]. apply Rinv_le_contravar; [lra|]. apply IZR_le. lia. }
  rewrite K1 in El. set (k := / IZR (2 ^ 100)) in *. clearbody k. set (l := m_ln m s) in *.
  pose proof (ln_close (xr s) (sect r) (/ 100000) ltac:(lra) ltac:(lra) Es) as C1.
  assert (C2 : Rabs (ln (xr s) - ln (sect r)) <= / 100000 / (g - / 100000)).
  { eapply Rle_trans; [exact C1|]. unfold Rdiv. apply Rmult_le_compat_l; [lra|]. apply Rinv_le_contravar; lra. }
  pose proof (sect_lipschitz (radians (xr la)) r ltac:(pose proof (radians_small _ B); lra) ltac:(lra)) as C3.
  assert (C4 : Rabs (xr l - ln (sect (radians (xr la)))) <= 62 / 10 * e - / 10000000).
  { apply Rabs_le_inv in C2. apply Rabs_le_inv in El. assert (12 * Rabs (r - radians (xr la)) <= 6 / 1000000) by lra.
    apply Rabs_le_inv in Ls. assert (Rabs (ln (xr s)) <= 4) by (apply Rabs_le; lra).
    assert (Rabs (ln (sect r) - ln (sect (radians (xr la)))) <= 6 / 1000000) by lra. apply Rabs_le_inv in H1. apply Rabs_le. lra. }
  assert (E0 : 0 <= e). { pose proof (Rabs_pos (xr l - ln (sect (radians (xr la))))). lra. }
  set (G := ln (sect (radians (xr la)))) in *.
  assert (BG : Rabs G <= 4).
  { apply ln_bound. destruct (sect_bounds (radians (xr la))) as ((S1 & S2) & _ & _); [pose proof (radians_small _ B); lra|]. lra. }
  assert (Bl : Rabs (xr l) <= 41 / 10) by (apply Rabs_le_inv in C4; apply Rabs_le_inv in BG; apply Rabs_le; lra).
  destruct pi32_val as [Fp Ep]. destruct (fin_Z 1 ltac:(lia)) as [F1 E1]. destruct (fin_Z 2 ltac:(lia)) as [F2 E2].
  pose proof pi_bounds as PB.
  pose proof (fin_div _ _ Fl Fp ltac:(rewrite Ep; lra)) as Rq. rewrite Ep in Rq.
  apply Rabs_le_inv in Bl.
  destruct (op_near _ _ (14 / 10) Rq) as [Fq Eq]; [apply Rabs_le; lra|lra|]. set (q := fdiv l PI32) in *.
  pose proof (fin_sub _ _ F1 Fq) as Rw. rewrite E1 in Rw. apply Rabs_le_inv in Eq. unfold tiny in Eq.
  destruct (op_near _ _ (25 / 10) Rw) as [Fw Ew]; [apply Rabs_le; lra|lra|]. set (w := fsub (f32_of_Z 1) q) in *.
  pose proof (fin_div _ _ Fw F2 ltac:(lra)) as Rh. rewrite E2 in Rh. apply Rabs_le_inv in Ew. unfold tiny in Ew.
  destruct (op_near _ _ (14 / 10) Rh) as [Fh Eh]; [apply Rabs_le; lra|lra|]. apply Rabs_le_inv in Eh. unfold tiny in Eh.
  unfold row_frac. fold s l q w. split; [exact Fh|].
  assert (Q : Rabs (xr l / (13176795 / 4194304) - G / PI) <= (62 / 10 * e - / 10000000) / PI + 2 / 10000000).
  { replace (xr l / (13176795 / 4194304) - G / PI) with ((xr l - G) / PI + xr l * (/ (13176795 / 4194304) - / PI)) by (field; lra).
    eapply Rle_trans; [apply Rabs_triang|]. apply Rplus_le_compat.
    - unfold Rdiv. rewrite Rabs_mult, (Rabs_pos_eq (/ PI)) by (left; apply Rinv_0_lt_compat; lra).
      apply Rmult_le_compat_r; [left; apply Rinv_0_lt_compat; lra|]. lra.
    - rewrite Rabs_mult. replace (/ (13176795 / 4194304) - / PI) with ((PI - 13176795 / 4194304) * (/ (13176795 / 4194304) * / PI)) by (field; lra).
      assert (0 < / PI < / 3) by (split; [apply Rinv_0_lt_compat; lra|apply Rinv_lt_contravar; lra]).
      rewrite !Rabs_mult, (Rabs_pos_eq (/ PI)), (Rabs_pos_eq (/ (13176795 / 4194304))) by lra.
      assert (Rabs (PI - 13176795 / 4194304) <= / 5000000) by (apply Rabs_le; lra).
      assert (0 <= / (13176795 / 4194304) * / PI <= / 8) by (split; nra).
      assert (0 <= Rabs (PI - 13176795 / 4194304) * (/ (13176795 / 4194304) * / PI) <= / 5000000 * / 8).
      { pose proof (Rabs_pos (PI - 13176795 / 4194304)). split; [apply Rmult_le_pos; lra|apply Rmult_le_compat; lra]. }
      assert (Rabs (xr l) <= 41 / 10) by (apply Rabs_le; lra). pose proof (Rabs_pos (xr l)). nra. }
  assert (Q2 : (62 / 10 * e - / 10000000) / PI <= 2 * e).
  { unfold Rdiv. assert (0 < / PI) by (apply Rinv_0_lt_compat; lra). assert (PI * / PI = 1) by (apply Rinv_r; lra). nra. }
  apply Rabs_le_inv in Q. apply Rabs_le. lra.
Qed.
Lemma floor_to_u32 y : fin y -> (xr y <= IZR (2 ^ 32 - 1)) -> f_to_u32 (ffloor y) = Z.max 0 (Zfloor (xr y)).
Proof.
  intros F B. destruct (f_integral_num sf_floor Zfloor _ floor_part (fin_num _ F)) as (Nf & D & _).
  specialize (D (proj2 F)). unfold f_to_u32, ffloor. rewrite f_to_int_xr; [|apply Nf|apply Nf|lia|lia]. rewrite D, Ztrunc_IZR.
  assert (Zfloor (xr y) <= 2 ^ 32 - 1)%Z by (apply le_IZR; eapply Rle_trans; [apply Zfloor_lb|exact B]). lia.
Qed.
Lemma from_position_row chk m p zoom e : (0 <= zoom <= 24)%Z -> fin (row_frac m (lat p)) ->
  Rabs (xr (row_frac m (lat p)) - (1 - ln (sect (radians (xr (lat p)))) / PI) / 2) <= e -> e <= / 8192 ->
  Rabs (ln (sect (radians (xr (lat p))))) <= 4 ->
  exists t, from_position chk m p zoom = Ok t /\
    IZR (t_y t) - (e + / 10000000) * IZR (2 ^ zoom) - tiny <= Rmax 0 (row_at zoom (xr (lat p))) /\
    row_at zoom (xr (lat p)) < IZR (t_y t) + 1 + (e + / 10000000) * IZR (2 ^ zoom) + tiny.
Proof.
  intros Hz F E He Hl. unfold from_position. rewrite pow2_small by lia. cbn [obind]. eexists. split; [reflexivity|]. cbn [t_y].
  fold (row_arg32 m (lat p)). fold (row_frac m (lat p)).
  destruct (fin_pow2 zoom Hz) as [Fn En]. pose proof (pow2_le zoom 24 Hz) as Bn. pose proof (pow2_pos zoom ltac:(lia)) as Pn.
  assert (Bn' : IZR (2 ^ zoom) <= 16777216) by (apply IZR_le; lia).
  set (h := row_frac m (lat p)) in *. pose proof (fin_mul _ _ F Fn) as R. rewrite En in R.
  set (H := (1 - ln (sect (radians (xr (lat p)))) / PI) / 2) in *.
  assert (Bh : Rabs (xr h) <= 14 / 10).
  { pose proof pi_bounds. assert (Rabs H <= 12 / 10).
    { unfold H. assert (Rabs (ln (sect (radians (xr (lat p)))) / PI) <= 4 / 3).
      { unfold Rdiv. rewrite Rabs_mult, (Rabs_pos_eq (/ PI)) by (left; apply Rinv_0_lt_compat; lra).
        apply Rmult_le_compat; [apply Rabs_pos|left; apply Rinv_0_lt_compat; lra|exact Hl|apply Rinv_le_contravar; lra]. }
      apply Rabs_le_inv in H1. apply Rabs_le. lra. }
    apply Rabs_le_inv in H1. apply Rabs_le_inv in E. apply Rabs_le. lra. }
  destruct (op_near _ _ (14 / 10 * IZR (2 ^ zoom)) R) as [Fy Ey].
  { rewrite Rabs_mult, (Rabs_pos_eq (IZR (2 ^ zoom))) by lra. apply Rmult_le_compat_r; lra. } { lra. }
  set (y := fmul h (f32_of_Z (2 ^ zoom))) in *.
  assert (W : row_at zoom (xr (lat p)) = H * IZR (2 ^ zoom)) by (unfold row_at, H, sect, Rdiv; ring).
  rewrite W.
  assert (D : Rabs (xr y - H * IZR (2 ^ zoom)) <= (e + / 10000000) * IZR (2 ^ zoom) + tiny).
  { replace (xr y - H * IZR (2 ^ zoom)) with ((xr y - xr h * IZR (2 ^ zoom)) + (xr h - H) * IZR (2 ^ zoom)) by ring.
    eapply Rle_trans; [apply Rabs_triang|]. rewrite (Rabs_mult (xr h - H)), (Rabs_pos_eq (IZR (2 ^ zoom))) by lra.
    assert (Rabs (xr h - H) * IZR (2 ^ zoom) <= e * IZR (2 ^ zoom)) by (apply Rmult_le_compat_r; lra). lra. }
  assert (By : xr y <= IZR (2 ^ 32 - 1)).
  { apply Rle_trans with 100000000; [|apply IZR_le; lia]. apply Rabs_le_inv in Ey. apply Rabs_le_inv in Bh. unfold tiny in Ey.
    assert (xr h * IZR (2 ^ zoom) <= 14 / 10 * IZR (2 ^ zoom)) by (apply Rmult_le_compat_r; lra). lra. }
  rewrite (floor_to_u32 y Fy By). apply Rabs_le_inv in D.
  pose proof (Zfloor_lb (xr y)) as L. pose proof (Zfloor_ub (xr y)) as U.
  assert (MX : IZR (Z.max 0 (Zfloor (xr y))) = Rmax 0 (IZR (Zfloor (xr y)))).
  { destruct (Z.max_spec 0 (Zfloor (xr y))) as [[Q ->]|[Q ->]].
    - symmetry. apply Rmax_right. apply IZR_le. lia.
    - symmetry. apply Rmax_left. apply IZR_le. lia. }
  rewrite MX. unfold Rmax. destruct (Rle_dec 0 (IZR (Zfloor (xr y)))), (Rle_dec 0 (H * IZR (2 ^ zoom))); lra.
Qed.
Lemma c63_row_proof : forall chk m p zoom, libm_accurate m -> (0 <= zoom <= 24)%Z -> fin (lat p) -> Rabs (xr (lat p)) <= 851 / 10 ->
  exists t, from_position chk m p zoom = Ok t /\
    IZR (t_y t) - IZR (2 ^ zoom) / 16384 <= Rmax 0 (row_at zoom (xr (lat p))) /\
    row_at zoom (xr (lat p)) < IZR (t_y t) + 1 + IZR (2 ^ zoom) / 16384.
Proof.
  intros chk m p zoom A Hz F B.
  destruct (row_frac_near m (lat p) (/ 24) (41 / 1000000) A F B) as [Fh Eh]; [lra|intros r Br _; apply sect_bounds; lra|lra|lra|].
  destruct (sect_bounds (radians (xr (lat p)))) as ((S1 & S2) & _ & _); [pose proof (radians_small _ B); lra|].
  destruct (from_position_row chk m p zoom _ Hz Fh Eh) as (t & E & L & U); [lra|apply ln_bound; lra|].
  exists t. split; [exact E|]. assert (1 <= IZR (2 ^ zoom)) by (apply IZR_le; pose proof (pow2_le zoom 24 Hz); lia). unfold tiny in *. split; lra.
Qed.
Lemma c63_row_north_proof : forall chk m p zoom, libm_accurate m -> (0 <= zoom <= 24)%Z -> fin (lat p) -> 0 <= xr (lat p) <= 851 / 10 ->
  exists t, from_position chk m p zoom = Ok t /\
    IZR (t_y t) - IZR (2 ^ zoom) / 262144 <= Rmax 0 (row_at zoom (xr (lat p))) /\
    row_at zoom (xr (lat p)) < IZR (t_y t) + 1 + IZR (2 ^ zoom) / 262144.
Proof.
  intros chk m p zoom A Hz F B. assert (B' : Rabs (xr (lat p)) <= 851 / 10) by (apply Rabs_le; lra).
  destruct (row_frac_near m (lat p) 1 (3 / 1000000) A F B') as [Fh Eh]; [lra|intros r Br P; apply sect_north; [apply P; lra|lra]|lra|lra|].
  destruct (sect_bounds (radians (xr (lat p)))) as ((S1 & S2) & _ & _); [pose proof (radians_small _ B'); lra|].
  destruct (from_position_row chk m p zoom _ Hz Fh Eh) as (t & E & L & U); [lra|apply ln_bound; lra|].
  exists t. split; [exact E|]. assert (1 <= IZR (2 ^ zoom)) by (apply IZR_le; pose proof (pow2_le zoom 24 Hz); lia). unfold tiny in *. split; lra.
Qed.
Lemma c63_inside_proof : forall chk m p zoom y, libm_accurate m -> (0 <= zoom <= 24)%Z -> (0 <= y)%Z -> fin (lat p) -> Rabs (xr (lat p)) <= 851 / 10 ->
  IZR y + IZR (2 ^ zoom) / 16384 <= row_at zoom (xr (lat p)) < IZR y + 1 - IZR (2 ^ zoom) / 16384 ->
  exists t, from_position chk m p zoom = Ok t /\ t_y t = y.
Proof.
  intros chk m p zoom y A Hz Hy F B R. destruct (c63_row_proof chk m p zoom A Hz F B) as (t & E & L & U). exists t. split; [exact E|].
  assert (0 <= IZR y) by (apply IZR_le; lia). pose proof (pow2_pos zoom ltac:(lia)). rewrite Rmax_right in L by lra.
  assert (IZR (t_y t) < IZR (y + 1)) by (rewrite plus_IZR; lra). assert (IZR y < IZR (t_y t + 1)) by (rewrite plus_IZR; lra).
  apply lt_IZR in H1, H2. lia.
Qed.

(** ** The latitude of a row *)
Lemma cosh_pos a : 1 <= cosh a.
Proof.
  unfold cosh. rewrite exp_Ropp. pose proof (exp_pos a) as P. set (e := exp a) in *. clearbody e.
  assert (0 < / e) by (apply Rinv_0_lt_compat; lra). assert (Q : 0 <= (e - 1) * (e - 1) * / e) by (apply Rmult_le_pos; [apply (Rle_0_sqr (e - 1))|lra]).
  replace ((e - 1) * (e - 1) * / e) with (e - 2 + / e) in Q by (field; lra). lra.
Qed.
Lemma cosh_sinh a : cosh a * cosh a = 1 + sinh a * sinh a.
Proof.
  unfold cosh, sinh. rewrite exp_Ropp. pose proof (exp_pos a) as P. set (e := exp a) in *. clearbody e.
  field. lra.
Qed.
Definition gd (a : R) : R := atan (sinh a).
Lemma sinh_derive a : is_derive sinh a (cosh a).
Proof. unfold sinh, cosh. auto_derive; [trivial|]. field. Qed.
Lemma gd_derive a : is_derive gd a (/ cosh a).
Proof.
  unfold gd. pose proof (cosh_pos a) as C. replace (/ cosh a) with (cosh a * / (1 + sinh a * sinh a)) by (rewrite <- cosh_sinh; field; lra).
  apply (is_derive_comp atan sinh a (/ (1 + sinh a * sinh a)) (cosh a)); [|apply sinh_derive].
  apply is_derive_Reals. replace (1 + sinh a * sinh a) with (1 + (sinh a) ^ 2) by ring. apply derivable_pt_lim_atan.
Qed.
Lemma sech_derive a : is_derive (fun t => / cosh t) a (- sinh a / (cosh a * cosh a)).
Proof.
  pose proof (cosh_pos a) as C. unfold cosh in C |- *. auto_derive; [lra|]. unfold sinh. field. lra.
Qed.
Lemma mvt (f df : R -> R) a b : (forall x, is_derive f x (df x)) -> exists c, Rmin a b <= c <= Rmax a b /\ f b - f a = df c * (b - a).
Proof.
  intro D. apply (MVT_gen f a b df).
  - intros x _. apply D.
  - intros x _. apply continuity_pt_filterlim. apply (ex_derive_continuous f). eexists. apply D.
Qed.
Lemma gd_lipschitz a b : Rabs (gd b - gd a) <= Rabs (b - a).
Proof.
  destruct (mvt gd (fun t => / cosh t) a b gd_derive) as (c & _ & ->). pose proof (cosh_pos c) as C. rewrite Rabs_mult.
  rewrite (Rabs_pos_eq (/ cosh c)) by (left; apply Rinv_0_lt_compat; lra). rewrite <- (Rmult_1_l (Rabs (b - a))) at 2.
  apply Rmult_le_compat_r; [apply Rabs_pos|]. rewrite <- Rinv_1. apply Rinv_le_contravar; lra.
Qed.
Lemma sech_lipschitz a b : Rabs (/ cosh b - / cosh a) <= / 2 * Rabs (b - a).
Proof.
  destruct (mvt (fun t => / cosh t) (fun t => - sinh t / (cosh t * cosh t)) a b sech_derive) as (c & _ & ->). pose proof (cosh_pos c) as C. rewrite Rabs_mult.
  apply Rmult_le_compat_r; [apply Rabs_pos|]. rewrite cosh_sinh. set (s := sinh c). assert (0 < / (1 + s * s)) by (apply Rinv_0_lt_compat; nra).
  assert ((1 + s * s) * / (1 + s * s) = 1) by (apply Rinv_r; nra). unfold Rdiv. set (i := / (1 + s * s)) in *. clearbody i.
  assert (0 <= (1 - s) * (1 - s) * i) by (apply Rmult_le_pos; [apply (Rle_0_sqr (1 - s))|lra]).
  assert (0 <= (1 + s) * (1 + s) * i) by (apply Rmult_le_pos; [apply (Rle_0_sqr (1 + s))|lra]). apply Rabs_le. lra.
Qed.
Lemma gd_chord a b t : 0 <= t <= 1 -> Rabs (gd (a + t * (b - a)) - ((1 - t) * gd a + t * gd b)) <= (b - a) * (b - a) / 8.
Proof.
  intro T. set (x := a + t * (b - a)).
  destruct (mvt gd (fun t => / cosh t) a x gd_derive) as (c & Bc & E1). destruct (mvt gd (fun t => / cosh t) x b gd_derive) as (d & Bd & E2).
  replace (gd x - ((1 - t) * gd a + t * gd b)) with ((1 - t) * (gd x - gd a) - t * (gd b - gd x)) by ring. rewrite E1, E2.
  replace ((1 - t) * (/ cosh c * (x - a)) - t * (/ cosh d * (b - x))) with ((t * (1 - t)) * (b - a) * (/ cosh c - / cosh d)) by (unfold x; ring).
  rewrite !Rabs_mult, (Rabs_pos_eq t), (Rabs_pos_eq (1 - t)) by lra. pose proof (sech_lipschitz d c) as L.
  assert (D : Rabs (c - d) <= Rabs (b - a)).
  { assert (Rmin a b <= x <= Rmax a b). { unfold x, Rmin, Rmax. destruct (Rle_dec a b); nra. }
    unfold Rmin, Rmax, Rabs in *. repeat destruct Rle_dec; repeat destruct Rcase_abs; lra. }
  assert (Q : t * (1 - t) <= / 4) by (pose proof (Rle_0_sqr (t - / 2)) as W; unfold Rsqr in W; lra).
  assert (Q0 : 0 <= t * (1 - t)) by (apply Rmult_le_pos; lra).
  pose proof (Rabs_pos (b - a)) as P. pose proof (Rabs_pos (/ cosh c - / cosh d)) as P'.
  assert (SQ : Rabs (b - a) * Rabs (b - a) = (b - a) * (b - a)) by (unfold Rabs; destruct (Rcase_abs (b - a)); ring).
  apply Rle_trans with (/ 4 * Rabs (b - a) * (/ 2 * Rabs (b - a))).
  - apply Rmult_le_compat; [apply Rmult_le_pos; lra|exact P'|apply Rmult_le_compat_r; lra|lra].
  - lra.
Qed.
Lemma atan_derive x : is_derive atan x (/ (1 + x ^ 2)).
Proof. apply is_derive_Reals. apply derivable_pt_lim_atan. Qed.
(** A relative error of the argument of atan. *)
Lemma atan_near v w e k : 0 <= e -> 0 <= k -> Rabs v * e + k <= 1 -> Rabs (w - v) <= Rabs v * e + k -> Rabs (atan w - atan v) <= 2 * e + k.
Proof.
  intros He Hk Hd H. destruct (mvt atan (fun x => / (1 + x ^ 2)) v w atan_derive) as (c & Bc & ->).
  assert (I : 0 < / (1 + c ^ 2) <= 1).
  { assert (0 <= c ^ 2) by (simpl; rewrite Rmult_1_r; apply Rle_0_sqr). split; [apply Rinv_0_lt_compat; lra|]. rewrite <- Rinv_1. apply Rinv_le_contravar; lra. }
  assert (V : Rabs v <= Rabs c + 1).
  { unfold Rmin, Rmax, Rabs in *. repeat destruct Rle_dec; repeat destruct Rcase_abs; lra. }
  rewrite Rabs_mult, (Rabs_pos_eq (/ (1 + c ^ 2))) by lra.
  apply Rle_trans with (/ (1 + c ^ 2) * (Rabs v * e + k)); [apply Rmult_le_compat_l; lra|].
  assert (W : / (1 + c ^ 2) * Rabs v <= 2).
  { apply Rmult_le_reg_l with (1 + c ^ 2); [assert (0 <= c ^ 2) by (simpl; rewrite Rmult_1_r; apply Rle_0_sqr); lra|].
    rewrite <- Rmult_assoc, Rinv_r by (assert (0 <= c ^ 2) by (simpl; rewrite Rmult_1_r; apply Rle_0_sqr); lra). rewrite Rmult_1_l.
    assert (c ^ 2 = Rabs c * Rabs c) as -> by (simpl; unfold Rabs; destruct (Rcase_abs c); ring).
    pose proof (Rle_0_sqr (Rabs c - 1)) as Z. unfold Rsqr in Z. pose proof (Rle_0_sqr (Rabs c)) as Z'. unfold Rsqr in Z'. lra. }
  set (i := / (1 + c ^ 2)) in *. clearbody i. assert (i * Rabs v * e <= 2 * e) by (apply Rmult_le_compat_r; lra).
  assert (i * k <= 1 * k) by (apply Rmult_le_compat_r; lra). lra.
Qed.
Lemma sinh_bound a : Rabs a <= 315 / 100 -> Rabs (sinh a) <= 20.
Proof.
  intro H. apply Rabs_le_inv in H.
  assert (E : forall x, x <= 315 / 100 -> exp x <= 40).
  { intros x X. apply Rle_trans with (exp (315 / 100)); [destruct X as [X| ->]; [left; apply exp_increasing; exact X|lra]|].
    replace (315 / 100) with (1 + 1 + 1 + 15 / 100) by lra. rewrite !exp_plus. pose proof exp_le_3 as T. pose proof (exp_pos 1) as T0.
    pose proof (exp_ineq1_le (- (15 / 100))) as Q. rewrite exp_Ropp in Q. pose proof (exp_pos (15 / 100)) as Q0.
    assert (exp (15 / 100) <= 40 / 27).
    { apply Rmult_le_reg_r with (/ exp (15 / 100)); [apply Rinv_0_lt_compat; lra|]. rewrite Rinv_r by lra. nra. }
    assert (exp 1 * exp 1 <= 9) by nra. assert (exp 1 * exp 1 * exp 1 <= 27) by nra. assert (0 < exp 1 * exp 1 * exp 1) by (repeat apply Rmult_lt_0_compat; lra). nra. }
  pose proof (E a ltac:(lra)). pose proof (E (- a) ltac:(lra)). pose proof (exp_pos a). pose proof (exp_pos (- a)). unfold sinh. apply Rabs_le. lra.
Qed.
Lemma row_deg_near m zoom y : libm_accurate m -> (0 <= zoom <= 22)%Z -> (0 <= y <= 2 ^ zoom)%Z ->
  fin (row_deg m zoom y) /\ Rabs (xr (row_deg m zoom y) - row_lat zoom (IZR y)) <= / 8192.
Proof.
  intros (_ & _ & _ & As & Aa) Hz Hy. destruct (row_arg zoom y Hz Hy) as (Fa & Ea & Ba).
  unfold row_deg. set (a := fmul PI32 _) in *. pose proof (pow2_pos zoom ltac:(lia)) as P.
  set (q := 1 - 2 * IZR y / IZR (2 ^ zoom)) in *.
  assert (Bq : -1 <= q <= 1).
  { unfold q. assert (0 <= IZR y <= IZR (2 ^ zoom)) by (split; apply IZR_le; lia).
    assert (0 <= IZR y / IZR (2 ^ zoom)) by (apply Rmult_le_pos; [lra|left; apply Rinv_0_lt_compat; lra]).
    assert (IZR y / IZR (2 ^ zoom) <= 1). { apply Rmult_le_reg_r with (IZR (2 ^ zoom)); [exact P|]. unfold Rdiv. rewrite Rmult_assoc, Rinv_l by lra. lra. }
    unfold Rdiv in *. lra. }
  destruct pi32_val as [Fp Ep]. rewrite Ep in Ea. pose proof pi_bounds as PB.
  pose proof (rnd_near (13176795 / 4194304 * q) (315 / 100) ltac:(apply Rabs_le; lra)) as Er. rewrite <- Ea in Er. unfold tiny in Er.
  assert (N1 : Rabs (xr a - PI * q) <= 33 / 100000000).
  { replace (xr a - PI * q) with ((xr a - 13176795 / 4194304 * q) + (13176795 / 4194304 - PI) * q) by ring. eapply Rle_trans; [apply Rabs_triang|].
    rewrite (Rabs_mult (13176795 / 4194304 - PI)). assert (Rabs (13176795 / 4194304 - PI) <= 12 / 100000000) by (apply Rabs_le; lra).
    assert (Rabs q <= 1) by (apply Rabs_le; lra). assert (Rabs (13176795 / 4194304 - PI) * Rabs q <= 12 / 100000000 * 1) by (apply Rmult_le_compat; try apply Rabs_pos; lra). lra. }
  assert (BPq : Rabs (PI * q) <= 3142 / 1000) by (apply Rabs_le; nra).
  assert (Ba' : Rabs (xr a) <= 315 / 100) by (apply Rabs_le_inv in N1; apply Rabs_le_inv in BPq; apply Rabs_le; lra).
  pose proof (sinh_bound _ Ba') as Bs. destruct (As a Fa ltac:(lra)) as [Fv Ev].
  assert (K1 : IZR (2 ^ 22) = 4194304) by reflexivity. assert (K2 : 0 <= / IZR (2 ^ 100) <= / 1000000000000).
  { split; [left; apply Rinv_0_lt_compat; apply IZR_lt; reflexivity|]. apply Rinv_le_contravar; [lra|]. apply IZR_le. lia. }
  set (k := / IZR (2 ^ 100)) in *. rewrite K1 in Ev. set (v := m_sinh m a) in *.
  assert (Bv : Rabs (xr v) <= 21).
  { replace (xr v) with ((xr v - sinh (xr a)) + sinh (xr a)) by ring. eapply Rle_trans; [apply Rabs_triang|]. lra. }
  destruct (Aa v Fv ltac:(lra)) as [Fw Ew]. fold k in Ew. rewrite K1 in Ew. set (w := m_atan m v) in *. clearbody k.
  pose proof (atan_near (sinh (xr a)) (xr v) (/ 4194304) k ltac:(lra) ltac:(lra) ltac:(lra) Ev) as N2.
  pose proof (gd_lipschitz (PI * q) (xr a)) as N3. unfold gd in N3.
  assert (At : Rabs (atan (xr v)) <= 16 / 10) by (pose proof (atan_bound (xr v)); apply Rabs_le; lra).
  assert (N4 : Rabs (xr w - atan (sinh (PI * q))) <= 12 / 10000000).
  { apply Rabs_le_inv in N2. assert (Rabs (atan (sinh (xr a)) - atan (sinh (PI * q))) <= 33 / 100000000) by lra.
    assert (Rabs (xr w - atan (xr v)) <= 16 / 10 / 4194304 + / 1000000000000) by lra. apply Rabs_le_inv in H. apply Rabs_le_inv in H0. apply Rabs_le. lra. }
  set (C := S754_finite false 15019745 (-18)). assert (FC : fin C) by (split; reflexivity).
  assert (EC : xr C = 15019745 / 262144) by (unfold C; rewrite xr_F2R, F2R_neg_exp by lia; reflexivity).
  pose proof (fin_mul _ _ Fw FC) as R. fold (to_degrees w) in R. rewrite EC in R.
  set (g := atan (sinh (PI * q))) in *.
  assert (Bg : Rabs g <= 158 / 100) by (unfold g; pose proof (atan_bound (sinh (PI * q))); apply Rabs_le; lra).
  destruct (op_near _ _ 91 R) as [Fd Ed]; [|lra|].
  { apply Rabs_le_inv in Bg. apply Rabs_le_inv in N4. apply Rabs_le. lra. }
  split; [exact Fd|]. unfold row_lat. fold q. fold g. unfold degrees. unfold tiny in Ed.
  replace (xr (to_degrees w) - g * 180 / PI) with ((xr (to_degrees w) - xr w * (15019745 / 262144)) + (xr w - g) * (15019745 / 262144) + g * (15019745 / 262144 - 180 / PI)) by (field; lra).
  assert (D : Rabs (15019745 / 262144 - 180 / PI) <= 5 / 1000000).
  { assert (I : / (314159270 / 100000000) < / PI < / (314159263 / 100000000)) by (split; apply Rinv_lt_contravar; lra).
    unfold Rdiv at 2. apply Rabs_le. lra. }
  apply Rabs_le_inv in N4. apply Rabs_le_inv in Ed.
  assert (G : Rabs (g * (15019745 / 262144 - 180 / PI)) <= 158 / 100 * (5 / 1000000)).
  { rewrite Rabs_mult. apply Rmult_le_compat; try apply Rabs_pos; lra. }
  change (fmul w C) with (to_degrees w) in *. set (z := g * (15019745 / 262144 - 180 / PI)) in *. clearbody z. apply Rabs_le_inv in G. apply Rabs_le. lra.
Qed.
Lemma c63_latitude_proof : forall chk m zoom x y, libm_accurate m -> (0 <= zoom <= 22)%Z -> (0 <= y <= 2 ^ zoom)%Z ->
  exists p, to_position chk m {| t_x := x; t_y := y; t_zoom := zoom |} = Ok p /\ fin (lat p) /\ Rabs (xr (lat p) - row_lat zoom (IZR y)) <= / 8192.
Proof.
  intros chk m zoom x y A Hz Hy. rewrite to_position_eq by lia. eexists. split; [reflexivity|]. cbn [lat]. apply row_deg_near; assumption.
Qed.
Lemma row_lat_gd zoom y : row_lat zoom y = degrees (gd (PI * (1 - 2 * y / IZR (2 ^ zoom)))). Proof. reflexivity. Qed.
Lemma row_lat_chord zoom y t : (0 <= zoom)%Z -> 0 <= t <= 1 ->
  Rabs (row_lat zoom (y + t) - ((1 - t) * row_lat zoom y + t * row_lat zoom (y + 1))) <= 283 / IZR (4 ^ zoom).
Proof.
  intros Hz T. rewrite !row_lat_gd. pose proof (pow2_pos zoom Hz) as P. pose proof pi_bounds as PB. set (n := IZR (2 ^ zoom)) in *.
  assert (N : IZR (4 ^ zoom) = n * n).
  { unfold n. rewrite <- mult_IZR. f_equal. replace 4%Z with (2 * 2)%Z by reflexivity. apply Z.pow_mul_l. }
  rewrite N. set (a := PI * (1 - 2 * y / n)). set (b := PI * (1 - 2 * (y + 1) / n)).
  replace (PI * (1 - 2 * (y + t) / n)) with (a + t * (b - a)) by (unfold a, b; field; lra).
  pose proof (gd_chord a b t T) as C. replace ((b - a) * (b - a) / 8) with (PI * PI / 2 / (n * n)) in C by (unfold a, b; field; lra).
  unfold degrees.
  replace (gd (a + t * (b - a)) * 180 / PI - ((1 - t) * (gd a * 180 / PI) + t * (gd b * 180 / PI)))
    with ((gd (a + t * (b - a)) - ((1 - t) * gd a + t * gd b)) * (180 / PI)) by (field; lra).
  assert (0 < 180 / PI) by (apply Rdiv_lt_0_compat; lra). rewrite Rabs_mult, (Rabs_pos_eq (180 / PI)) by lra.
  apply Rle_trans with (PI * PI / 2 / (n * n) * (180 / PI)); [apply Rmult_le_compat_r; lra|].
  replace (PI * PI / 2 / (n * n) * (180 / PI)) with (90 * PI * / (n * n)) by (field; lra). unfold Rdiv. apply Rmult_le_compat_r; [|lra].
  left. apply Rinv_0_lt_compat. apply Rmult_lt_0_compat; lra.
Qed.
Lemma c63_pixels_proof : forall chk m zoom x y, libm_ok m -> libm_accurate m -> (0 <= zoom <= 10)%Z -> (0 <= x < 2 ^ zoom)%Z -> (0 <= y < 2 ^ zoom)%Z ->
  exists pos : Z -> Z -> lat_lon,
    (forall j i, inside 256 256 j i ->
      fin (lon (pos j i)) /\ xr (lon (pos j i)) = column_lon zoom (IZR x + IZR j / 256) /\
      fin (lat (pos j i)) /\ Rabs (xr (lat (pos j i)) - row_lat zoom (IZR y + IZR i / 256)) <= 283 / IZR (4 ^ zoom) + / 4096) /\
  forall T (value : lat_lon -> outcome (option T)) color_fn d,
  create_single_tile chk m value color_fn {| t_x := x; t_y := y; t_zoom := zoom |} = Ok d ->
  forall j i, inside 256 256 j i -> exists c, colour_at value color_fn (pos j i) = Ok c /\ pixel d j i = Some c.
Proof.
  intros chk m zoom x y M A Hz Hx Hy. destruct (c33_pixels_proof chk m zoom x y M Hz Hx Hy) as (pos & p0 & p1 & E0 & E1 & P & Im).
  exists pos. split.
  - intros j i I. destruct (P j i I) as (F1 & F2 & F3 & F4). split; [exact F1|]. split; [exact F2|]. split; [exact F3|].
    destruct (c63_latitude_proof chk m zoom x y A ltac:(lia) ltac:(lia)) as (q0 & G0 & _ & H0).
    destruct (c63_latitude_proof chk m zoom (x + 1) (y + 1) A ltac:(lia) ltac:(lia)) as (q1 & G1 & _ & H1).
    rewrite E0 in G0. injection G0 as <-. rewrite E1 in G1. injection G1 as <-. destruct I as [_ I].
    assert (T : 0 <= IZR i / 256 <= 1) by (assert (0 <= IZR i <= 255) by (split; apply IZR_le; lia); lra).
    pose proof (row_lat_chord zoom (IZR y) (IZR i / 256) ltac:(lia) T) as C. rewrite plus_IZR in H1.
    set (t := IZR i / 256) in *. apply Rabs_le_inv in F4, H0, H1, C. set (u := xr (lat p0)) in *. set (w := xr (lat p1)) in *.
    set (r0 := row_lat zoom (IZR y)) in *. set (r1 := row_lat zoom (IZR y + 1)) in *. set (rt := row_lat zoom (IZR y + t)) in *.
    assert (L : Rabs ((1 - t) * (u - r0) + t * (w - r1)) <= / 8192) by (apply Rabs_le; split; nra).
    apply Rabs_le_inv in L. set (k := 283 / IZR (4 ^ zoom)) in *. clearbody k. apply Rabs_le. split; nra.
  - intros T value color_fn d E j i I. specialize (Im T value color_fn). rewrite E in Im. destruct Im as (_ & _ & _ & Im). apply Im. exact I.
Qed.
(** The two functions of the specification are inverse to each other. *)
Lemma c63_inverse_proof : forall zoom y, (0 <= zoom)%Z -> row_at zoom (row_lat zoom y) = y.
Proof.
  intros zoom y Hz. unfold row_at, row_lat. pose proof (pow2_pos zoom Hz) as P. pose proof pi_bounds as PB. set (n := IZR (2 ^ zoom)) in *.
  set (a := PI * (1 - 2 * y / n)). replace (radians (degrees (atan (sinh a)))) with (atan (sinh a)) by (unfold radians, degrees; field; lra).
  rewrite tan_atan, cos_atan. pose proof (cosh_sinh a) as S. pose proof (cosh_pos a) as C.
  assert (Q : sqrt (1 + Rsqr (sinh a)) = cosh a) by (unfold Rsqr; rewrite <- S; apply sqrt_square; lra). rewrite Q.
  replace (/ (1 / cosh a)) with (cosh a) by (field; lra). replace (sinh a + cosh a) with (exp a) by (unfold sinh, cosh; field).
  rewrite ln_exp. unfold a. field. lra.
Qed.
(** At zoom level 0 the distortion within the tile is large. *)
Lemma quarter_lat : 60 < row_lat 0 (/ 4).
Proof.
  unfold row_lat. change (IZR (2 ^ 0)) with 1. replace (PI * (1 - 2 * / 4 / 1)) with (PI / 2) by field. pose proof pi_bounds as PB.
  assert (S : sqrt 3 < sinh (PI / 2)).
  { assert (S3 : sqrt 3 < 174 / 100) by (rewrite <- (sqrt_square (174 / 100)) by lra; apply sqrt_lt_1; lra).
    apply Rlt_trans with (174 / 100); [exact S3|]. unfold sinh.
    assert (E : 39 / 10 <= exp (PI / 2)).
    { apply Rle_trans with (exp (3 / 2)); [|left; apply exp_increasing; lra].
      replace (3 / 2) with (3 / 8 + 3 / 8 + (3 / 8 + 3 / 8)) by lra. rewrite !exp_plus.
      assert (B : 141 / 100 <= exp (3 / 8)).
      { replace (3 / 8) with (3 / 16 + 3 / 16) by lra. rewrite exp_plus.
        assert (B2 : 119 / 100 <= exp (3 / 16)). { replace (3 / 16) with (3 / 32 + 3 / 32) by lra. rewrite exp_plus. pose proof (exp_ineq1_le (3 / 32)).
          assert (B3 : 35 / 32 <= exp (3 / 32)). { lra. } apply Rle_trans with (35 / 32 * (35 / 32)); [|apply Rmult_le_compat]; lra. }
        apply Rle_trans with (119 / 100 * (119 / 100)); [|apply Rmult_le_compat]; lra. }
      assert (198 / 100 <= exp (3 / 8) * exp (3 / 8)) by (apply Rle_trans with (141 / 100 * (141 / 100)); [|apply Rmult_le_compat]; lra).
      apply Rle_trans with (198 / 100 * (198 / 100)); [|apply Rmult_le_compat]; lra. }
    rewrite exp_Ropp. assert (/ exp (PI / 2) <= / (39 / 10)) by (apply Rinv_le_contravar; lra). lra. }
  apply atan_increasing in S. rewrite <- tan_PI3, atan_tan in S by lra. unfold degrees.
  apply Rmult_lt_reg_r with PI; [lra|]. unfold Rdiv. rewrite Rmult_assoc, Rinv_l by lra. lra.
Qed.
Lemma c63_distortion_proof : forall chk m, libm_ok m -> libm_accurate m ->
  exists pos : Z -> Z -> lat_lon, (forall j, (0 <= j < 256)%Z -> xr (lat (pos j 64%Z)) <= 46) /\ 60 < row_lat 0 (64 / 256) /\
  forall T (value : lat_lon -> outcome (option T)) color_fn d,
  create_single_tile chk m value color_fn {| t_x := 0; t_y := 0; t_zoom := 0 |} = Ok d ->
  forall j i, inside 256 256 j i -> exists c, colour_at value color_fn (pos j i) = Ok c /\ pixel d j i = Some c.
Proof.
  intros chk m M A. destruct (c33_pixels_proof chk m 0%Z 0%Z 0%Z M ltac:(lia) ltac:(cbn; lia) ltac:(cbn; lia)) as (pos & p0 & p1 & E0 & E1 & P & Im).
  exists pos. split; [|split].
  - intros j J. destruct (P j 64%Z ltac:(split; lia)) as (_ & _ & _ & Q).
    destruct (row_order m 0 0 1 M ltac:(lia) ltac:(lia) ltac:(cbn; lia)) as (_ & _ & B1 & B2 & B3).
    rewrite to_position_eq in E0 by lia. injection E0 as <-. rewrite to_position_eq in E1 by lia. injection E1 as <-. cbn [lat] in Q.
    destruct (row_deg_near m 0 0 A ltac:(lia) ltac:(cbn; lia)) as [_ N0]. destruct (row_deg_near m 0 1 A ltac:(lia) ltac:(cbn; lia)) as [_ N1].
    assert (S : row_lat 0 1 = - row_lat 0 0).
    { unfold row_lat. change (IZR (2 ^ 0)) with 1. replace (PI * (1 - 2 * 1 / 1)) with (- PI) by field. replace (PI * (1 - 2 * 0 / 1)) with PI by field.
      unfold sinh. rewrite Ropp_involutive. replace ((exp (- PI) - exp PI) / 2) with (- ((exp PI - exp (- PI)) / 2)) by field. rewrite atan_opp.
      unfold degrees. field. pose proof pi_bounds. lra. }
    rewrite S in N1. change (0 + 1)%Z with 1%Z in Q. apply Rabs_le_inv in Q, N0, N1. lra.
  - replace (64 / 256) with (/ 4) by lra. exact quarter_lat.
  - intros T value color_fn d E j i I. specialize (Im T value color_fn). rewrite E in Im. destruct Im as (_ & _ & _ & Im). apply Im. exact I.
Qed.
(** A row in the middle of a tile. *)
Lemma row_45 : 1 / 2 <= row_at 1 45 <= 7 / 8.
Proof.
  pose proof pi_bounds as PB. unfold row_at. change (IZR (2 ^ 1)) with 2. replace (radians 45) with (PI / 4) by (unfold radians; field).
  rewrite tan_PI4, cos_PI4. assert (S : 0 < sqrt 2 <= 1415 / 1000).
  { split; [apply sqrt_lt_R0; lra|]. rewrite <- (sqrt_square (1415 / 1000)) by lra. apply sqrt_le_1; lra. }
  replace (1 + / (1 / sqrt 2)) with (1 + sqrt 2) by (field; lra).
  assert (L : 0 < ln (1 + sqrt 2)) by (rewrite <- ln_1; apply ln_increasing; lra).
  assert (L1 : 1 / 2 < ln (1 + sqrt 2)).
  { rewrite <- (ln_exp (1 / 2)). apply ln_increasing; [apply exp_pos|].
    pose proof (exp_ineq1_le (- (1 / 2))) as Q. rewrite exp_Ropp in Q. pose proof (exp_pos (1 / 2)) as P.
    assert (exp (1 / 2) <= 2). { apply Rmult_le_reg_r with (/ exp (1 / 2)); [apply Rinv_0_lt_compat; lra|]. rewrite Rinv_r by lra. lra. }
    assert (1 < sqrt 2) by (rewrite <- sqrt_1; apply sqrt_lt_1; lra). lra. }
  assert (L2 : ln (1 + sqrt 2) < 1).
  { apply Rlt_le_trans with (ln (exp (1/4 + 1/4 + (1/4 + 1/4)))); [|rewrite ln_exp; lra]. apply ln_increasing; [lra|]. rewrite !exp_plus.
    pose proof (exp_ineq1_le (1 / 4)) as Q. assert (25/16 <= exp (1 / 4) * exp (1 / 4)) by (apply Rle_trans with (5/4 * (5/4)); [|apply Rmult_le_compat]; lra).
    apply Rlt_le_trans with (25/16 * (25/16)); [lra|apply Rmult_le_compat; lra]. }
  assert (I : 0 < / PI < / 3) by (split; [apply Rinv_0_lt_compat; lra|apply Rinv_lt_contravar; lra]).
  assert (I2 : / 4 < / PI) by (apply Rinv_lt_contravar; lra).
  assert (/ 8 <= ln (1 + sqrt 2) * / PI) by (apply Rle_trans with (1 / 2 * / 4); [|apply Rmult_le_compat]; lra).
  assert (ln (1 + sqrt 2) * / PI <= / 3) by (apply Rle_trans with (1 * / 3); [apply Rmult_le_compat|]; lra).
  unfold Rdiv in *. lra.
Qed.
