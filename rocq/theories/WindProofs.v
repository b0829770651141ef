(** Proofs about wind directions (C39). *)
From Coq Require Import ZArith Reals Psatz List Bool Lia Lra.
From Coq Require Import Floats.SpecFloat.
From Flocq Require Import Core.Core.
From Verif Require Import Base F32 F32Facts GeoModel GeoSpec GeoProofs GeoValueProofs ImagingProofs TileModel TileSpec TileProofs
  MercatorProofs LibmProofs ChartModel ChartSpec ChartProofs.
Open Scope R_scope.

Lemma to_degrees_near w : fin w -> Rabs (xr w) <= 158 / 50 ->
  fin (to_degrees w) /\ Rabs (xr (to_degrees w) - degrees (xr w)) <= / 30000.
Proof.
  intros Fw B. pose proof pi_bounds as PB.
  set (C := S754_finite false 15019745 (-18)). assert (FC : fin C) by (split; reflexivity).
  assert (EC : xr C = 15019745 / 262144) by (unfold C; rewrite xr_F2R, F2R_neg_exp by lia; reflexivity).
  pose proof (fin_mul _ _ Fw FC) as R. rewrite EC in R. change (fmul w C) with (to_degrees w) in R.
  destruct (op_near _ _ 182 R) as [Fd Ed]; [|lra|].
  { apply Rabs_le_inv in B. apply Rabs_le. lra. }
  split; [exact Fd|]. unfold degrees. unfold tiny in Ed.
  replace (xr (to_degrees w) - xr w * 180 / PI) with ((xr (to_degrees w) - xr w * (15019745 / 262144)) + xr w * (15019745 / 262144 - 180 / PI)) by (field; lra).
  assert (D : Rabs (15019745 / 262144 - 180 / PI) <= 5 / 1000000).
  { assert (I : / (314159270 / 100000000) < / PI < / (314159263 / 100000000)) by (split; apply Rinv_lt_contravar; lra).
    change (180 / PI) with (180 * / PI). apply Rabs_le. lra. }
  eapply Rle_trans; [apply Rabs_triang|]. rewrite (Rabs_mult (xr w)).
  assert (Rabs (xr w) * Rabs (15019745 / 262144 - 180 / PI) <= 158 / 50 * (5 / 1000000)) by (apply Rmult_le_compat; try apply Rabs_pos; lra). lra.
Qed.
Lemma c39_direction_proof : forall atan2 u v gs l x y e n, atan2_accurate atan2 -> wind_new u v gs = Ok l ->
  value_by_xy f32_type u x y = Ok (Some e) -> value_by_xy f32_type v x y = Ok (Some n) -> fin e -> fin n -> xr e <> 0 \/ xr n <> 0 ->
  exists d a, wind_speed_dir_by_xy atan2 l x y = Ok (Some (wind_speed e n, d)) /\
    fin d /\ angle_of (xr e) (xr n) a /\ Rabs (xr d - a * 180 / PI) <= / 8192.
Proof.
  intros f u v gs l x y e n A N U V Fe Fn Z. pose proof (c39_vector_proof u v gs l (fun g => value_by_xy f32_type g x y) e n N) as [[_ W] _].
  specialize (W (conj U V)). destruct (A n e Fn Fe Z) as (a & An & Ff & E). exists (to_degrees (f n e)), a.
  unfold wind_speed_dir_by_xy, wind_e_n_by_xy. rewrite W. cbn [omap option_map fst snd]. split; [reflexivity|].
  pose proof pi_bounds as PB. pose proof An as (B & _ & _). change (IZR (2 ^ 20)) with 1048576 in E. apply Rabs_le_inv in E.
  destruct (to_degrees_near (f n e) Ff ltac:(apply Rabs_le; lra)) as [Fd Ed]. split; [exact Fd|]. split; [exact An|].
  unfold degrees in Ed. apply Rabs_le_inv in Ed.
  assert (D : Rabs ((xr (f n e) - a) * (180 / PI)) <= 60 * / 1048576).
  { rewrite Rabs_mult. assert (I : 0 < 180 / PI <= 60).
    { split; [apply Rdiv_lt_0_compat; lra|]. apply Rmult_le_reg_r with PI; [lra|]. unfold Rdiv. rewrite Rmult_assoc, Rinv_l by lra. lra. }
    rewrite (Rabs_pos_eq (180 / PI)) by lra. rewrite Rmult_comm. apply Rmult_le_compat; try lra; [apply Rabs_pos|apply Rabs_le; lra]. }
  apply Rabs_le_inv in D. replace ((xr (f n e) - a) * (180 / PI)) with (xr (f n e) * 180 / PI - a * 180 / PI) in D by (field; lra).
  apply Rabs_le. lra.
Qed.

(** The exact angle, correctly rounded. *)
Definition angle (e n : R) : R := if Rle_dec 0 n then acos (e / sqrt (e * e + n * n)) else - acos (e / sqrt (e * e + n * n)).
Definition ideal_atan2 (y x : f32) : f32 := nearest (angle (xr x) (xr y)).
Lemma angle_spec e n : e <> 0 \/ n <> 0 -> angle_of e n (angle e n).
Proof.
  intro Z. set (r := sqrt (e * e + n * n)). assert (S : 0 < e * e + n * n).
  { pose proof (Rle_0_sqr e) as P. pose proof (Rle_0_sqr n) as P'. unfold Rsqr in *. destruct Z as [Z|Z]; apply Rsqr_pos_lt in Z; unfold Rsqr in Z; lra. }
  assert (Rp : 0 < r) by (apply sqrt_lt_R0; exact S). assert (RR : r * r = e * e + n * n) by (apply sqrt_sqrt; lra).
  pose proof (Rle_0_sqr n) as P'. unfold Rsqr in P'.
  assert (B : -1 <= e / r <= 1).
  { assert (- r <= e <= r). { split; [|]; destruct (Rle_lt_dec 0 e); nra. }
    split; apply Rmult_le_reg_r with r; try exact Rp; unfold Rdiv; rewrite Rmult_assoc, Rinv_l by lra; lra. }
  pose proof (acos_bound (e / r)) as AB. pose proof (sin_acos (e / r) B) as SA. pose proof (cos_acos (e / r) B) as CA.
  assert (Q : r * sqrt (1 - Rsqr (e / r)) = Rabs n).
  { rewrite <- (sqrt_square r) at 1 by lra. rewrite <- sqrt_mult_alt by nra. replace (r * r * (1 - Rsqr (e / r))) with (n * n).
    - apply sqrt_Rsqr_abs.
    - unfold Rsqr. replace (r * r * (1 - e / r * (e / r))) with (r * r - e * e) by (field; lra). rewrite RR. ring. }
  unfold angle_of, angle. fold r. destruct (Rle_dec 0 n) as [G|G].
  - split; [lra|]. rewrite CA, SA, Q, Rabs_pos_eq by exact G. split; [field; lra|reflexivity].
  - split; [lra|]. rewrite cos_neg, sin_neg, CA, SA. split; [field; lra|]. rewrite Ropp_mult_distr_r_reverse, Q, Rabs_left1 by lra. ring.
Qed.
Lemma ideal_atan2_accurate : atan2_accurate ideal_atan2.
Proof.
  intros y x Fy Fx Z. exists (angle (xr x) (xr y)). pose proof (angle_spec (xr x) (xr y) Z) as A. split; [exact A|]. destruct A as (B & _ & _).
  pose proof pi_bounds as PB. unfold ideal_atan2. destruct (nearest_spec (angle (xr x) (xr y)) ltac:(apply Rabs_le; lra)) as [F E].
  split; [exact F|]. rewrite E. pose proof (rnd_near (angle (xr x) (xr y)) 4 ltac:(apply Rabs_le; lra)) as Q. unfold tiny in Q.
  change (IZR (2 ^ 20)) with 1048576. lra.
Qed.
