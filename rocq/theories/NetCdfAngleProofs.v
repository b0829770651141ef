(** From radians in binary64 to degrees in binary32 (C27). *)
From Coq Require Import ZArith Reals Psatz List Bool Lia Lra.
From Coq Require Import Floats.SpecFloat.
From Flocq Require Import Core.Core IEEE754.BinarySingleNaN Relative.
From Verif Require Import Base F32 F32Facts Grib2Model GeoModel GeoSpec GeoProofs GeoValueProofs GeoRegridProofs NetCdfModel NetCdfSpec NetCdfProofs NetCdfAngleSpec.
Open Scope R_scope.

#[local] Instance Hprec64 : Prec_gt_0 53 := eq_refl.
#[local] Instance Hmax64 : Prec_lt_emax 53 1024 := eq_refl.
Notation b64 := (binary_float 53 1024).
Notation fexp64 := (SpecFloat.fexp 53 1024).
#[local] Instance fexp64_valid : Valid_exp fexp64 := fexp_correct 53 1024 _.

Lemma dmul_equiv (x y : b64) : dmul (B2SF x) (B2SF y) = B2SF (Bmult mode_NE x y).
Proof.
  unfold dmul. case x as [sx|sx| |sx mx ex Bx]; case y as [sy|sy| |sy my ey By]; [now trivial.. | ].
  simpl. rewrite B2SF_SF2B. apply binary_round_aux_equiv.
Qed.
Lemma r64_B2R (x : b64) : BinarySingleNaN.is_finite x = true -> r64 (B2SF x) = B2R x.
Proof. destruct x as [s|s| |s m e H]; try discriminate; reflexivity. Qed.
Lemma finite_B64 x : fis_finite (B2SF x) = @BinarySingleNaN.is_finite 53 1024 x.
Proof. destruct x; reflexivity. Qed.
Lemma dmul_rounds x y : fin64 x -> fin64 y -> Rabs (round radix2 fexp64 ZnearestE (r64 x * r64 y)) < bpow radix2 1024 ->
  fin64 (dmul x y) /\ r64 (dmul x y) = round radix2 fexp64 ZnearestE (r64 x * r64 y).
Proof.
  intros [Hx Fx] [Hy Fy]. rewrite <- (B2SF_SF2B 53 1024 x Hx), <- (B2SF_SF2B 53 1024 y Hy) in *.
  set (a := SF2B x Hx) in *. set (b := SF2B y Hy) in *. clearbody a b.
  rewrite finite_B64 in Fx, Fy. rewrite dmul_equiv, !r64_B2R by assumption. intro B.
  pose proof (Bmult_correct 53 1024 _ _ mode_NE a b) as C. change (round_mode mode_NE) with ZnearestE in C.
  rewrite Rlt_bool_true in C by exact B. destruct C as (C1 & C2 & _). rewrite Fx, Fy in C2. cbn [andb] in C2.
  split; [split; [apply valid_binary_B2SF|rewrite finite_B64; exact C2]|]. rewrite r64_B2R by exact C2. exact C1.
Qed.
Lemma rnd64_err r : Rabs (round radix2 fexp64 ZnearestE r - r) <= bpow radix2 (-53) * Rabs r + bpow radix2 (-1075).
Proof.
  destruct (error_N_FLT radix2 (-1074) 53 eq_refl (fun z => negb (Z.even z)) r) as (eps & eta & H1 & H2 & _ & E).
  change (round radix2 fexp64 ZnearestE r) with (round radix2 (FLT_exp (-1074) 53) ZnearestE r). rewrite E.
  replace (r * (1 + eps) + eta - r) with (r * eps + eta) by ring. eapply Rle_trans; [apply Rabs_triang|]. rewrite Rabs_mult.
  apply Rplus_le_compat.
  - rewrite Rmult_comm. apply Rmult_le_compat_r; [apply Rabs_pos|]. eapply Rle_trans; [exact H1|].
    change (- (53) + 1)%Z with (-52)%Z. replace (bpow radix2 (-53)) with (/ 2 * bpow radix2 (-52)); [lra|]. cbn. lra.
  - eapply Rle_trans; [exact H2|]. change (-1075)%Z with (-1 + -1074)%Z. rewrite (bpow_plus radix2 (-1) (-1074)). change (bpow radix2 (-1)) with (/ 2). lra.
Qed.
Lemma rnd32_err r : Rabs (rnd r - r) <= bpow radix2 (-24) * Rabs r + bpow radix2 (-150).
Proof.
  destruct (error_N_FLT radix2 (-149) 24 eq_refl (fun z => negb (Z.even z)) r) as (eps & eta & H1 & H2 & _ & E).
  unfold rnd. change (round radix2 fexp32 ZnearestE r) with (round radix2 (FLT_exp (-149) 24) ZnearestE r). rewrite E.
  replace (r * (1 + eps) + eta - r) with (r * eps + eta) by ring. eapply Rle_trans; [apply Rabs_triang|]. rewrite Rabs_mult.
  apply Rplus_le_compat.
  - rewrite Rmult_comm. apply Rmult_le_compat_r; [apply Rabs_pos|]. eapply Rle_trans; [exact H1|]. cbn. lra.
  - eapply Rle_trans; [exact H2|]. cbn. lra.
Qed.

Lemma pi_range : 314159263 / 100000000 < PI < 314159270 / 100000000.
Proof.
  pose proof (PI_2_3_7_ineq 3) as [A B]. pose proof (PI_2_3_7_ineq 4) as [A' _].
  cbv [sum_f_R0 tg_alt PI_2_3_7_tg Ratan_seq] in A, B, A'. simpl in A, B, A'. lra.
Qed.
(** The factor 180/pi of [f64::to_degrees]. *)
Definition factor64 : f64 := ddiv (SpecFloat.binary_normalize 53 1024 180%Z 0%Z false) PI64.
Lemma factor64_eq : factor64 = S754_finite false 8063664102031864 (-47).
Proof. vm_compute. reflexivity. Qed.
Lemma factor64_fin : fin64 factor64.
Proof. split; vm_compute; reflexivity. Qed.
Lemma factor64_err : Rabs (r64 factor64 - 180 / PI) <= 3 / 100000000 * (180 / PI) /\ 57 < r64 factor64 < 58.
Proof.
  rewrite factor64_eq. cbn [r64 SF2R cond_Zopp]. unfold F2R. cbn [Fnum Fexp]. change (bpow radix2 (-47)) with (/ 140737488355328).
  pose proof pi_range as [L U]. split; [|lra].
  assert (I1 : / PI <= 100000000 / 314159263).
  { replace (100000000 / 314159263) with (/ (314159263 / 100000000)) by lra. apply Rinv_le_contravar; lra. }
  assert (I2 : 100000000 / 314159270 <= / PI).
  { replace (100000000 / 314159270) with (/ (314159270 / 100000000)) by lra. apply Rinv_le_contravar; lra. }
  unfold Rdiv at 1 3. apply Rabs_le. lra.
Qed.

Lemma r64_f32 x : fin64 x -> rounds_to (f32_of_f64 x) (r64 x).
Proof.
  intros [V F]. destruct x as [s|s| |s m e]; try discriminate F.
  - cbn [f32_of_f64 r64 SF2R]. split; [reflexivity|]. split; [reflexivity|]. cbn [xr SF2R]. rewrite rnd_0, sat_id; [reflexivity|].
    rewrite Rabs_R0. apply Rlt_le, big_pos.
  - cbn [f32_of_f64 r64 SF2R]. apply normalize_rounds.
Qed.
Lemma p10 a b : (a < b)%Z -> bpow radix2 a < bpow radix2 b. Proof. apply bpow_lt. Qed.
(** One angle. *)
Lemma angle_close x : fin64 x -> Rabs (r64 x) <= 2 ^ 64 ->
  let y := f32_of_f64 (to_degrees64 x) in
  fin y /\ Rabs (xr y - degrees (r64 x)) <= Rabs (degrees (r64 x)) / 2 ^ 23 + / 2 ^ 140.
Proof.
  intros Fx B y. unfold y, to_degrees64. change (ddiv _ PI64) with factor64.
  destruct factor64_err as [Fe Fb]. pose proof factor64_fin as Ff. set (q := r64 factor64) in *.
  pose proof (rnd64_err (r64 x * q)) as E1. set (p := round radix2 fexp64 ZnearestE (r64 x * q)) in *.
  assert (S1 : bpow radix2 (-53) <= / 9007199254740992) by (cbn; lra).
  assert (S2 : bpow radix2 (-1075) <= bpow radix2 (-150)) by (apply bpow_le; lia).
  assert (S3 : bpow radix2 (-150) = / 2 ^ 150) by (change (-150)%Z with (Z.opp 150); rewrite bpow_opp; f_equal; rewrite <- (IZR_Zpower radix2) by lia; rewrite (pow_IZR 2 150); f_equal; reflexivity).
  assert (A0 : Rabs (r64 x * q) = Rabs (r64 x) * q) by (rewrite Rabs_mult, (Rabs_pos_eq q) by lra; reflexivity).
  set (a := Rabs (r64 x)) in *. assert (0 <= a) by apply Rabs_pos.
  set (t := / 2 ^ 150) in *. assert (T : 0 < t <= / 2) by (unfold t; split; [apply Rinv_0_lt_compat, pow_lt; lra|apply Rinv_le_contravar; [lra|simpl; lra]]).
  assert (E1' : Rabs (p - r64 x * q) <= a * q / 9007199254740992 + t).
  { eapply Rle_trans; [exact E1|]. rewrite A0. apply Rplus_le_compat; [|lra]. rewrite Rmult_comm. unfold Rdiv. apply Rmult_le_compat_l; [nra|exact S1]. }
  assert (P1 : Rabs p <= 2 ^ 70).
  { replace p with (p - r64 x * q + r64 x * q) by ring. eapply Rle_trans; [apply Rabs_triang|]. rewrite A0.
    assert (2 ^ 64 = 18446744073709551616) by (simpl; lra). assert (2 ^ 70 = 64 * 18446744073709551616) by (simpl; lra).
    assert (a * q <= 18446744073709551616 * 58) by (apply Rmult_le_compat; lra). lra. }
  assert (PB : 2 ^ 70 < bpow radix2 1024 /\ 2 ^ 71 < big).
  { split; [apply Rlt_trans with (bpow radix2 71); [|apply bpow_lt; lia]|apply Rlt_trans with (bpow radix2 72); [|apply bpow_lt; lia]];
      rewrite <- (IZR_Zpower radix2) by lia; rewrite (pow_IZR 2); apply IZR_lt; reflexivity. }
  destruct (dmul_rounds x factor64 Fx Ff ltac:(fold q p; lra)) as [Fd Ed]. fold q p in Ed.
  pose proof (r64_f32 _ Fd) as R. rewrite Ed in R. pose proof (rnd32_err p) as E2.
  assert (S4 : bpow radix2 (-24) = / 16777216) by (cbn; lra). rewrite S4, S3 in E2. fold t in E2.
  assert (P2 : Rabs (rnd p) < big).
  { replace (rnd p) with (rnd p - p + p) by ring. eapply Rle_lt_trans; [apply Rabs_triang|]. pose proof (Rabs_pos p).
    assert (2 ^ 71 = 2 * 2 ^ 70) by (simpl; ring). assert (1 <= 2 ^ 70) by (apply pow_R1_Rle; lra). lra. }
  destruct (rounds_fin _ _ R P2) as [Fy Ey]. split; [exact Fy|]. rewrite Ey.
  assert (D0 : degrees (r64 x) = r64 x * (180 / PI)) by (unfold degrees, Rdiv; ring). pose proof pi_range as [PL PU].
  set (k := 180 / PI) in *.
  assert (K : 57 < k < 58).
  { unfold k, Rdiv. assert (I1 : / PI <= 100000000 / 314159263).
    { replace (100000000 / 314159263) with (/ (314159263 / 100000000)) by lra. apply Rinv_le_contravar; lra. }
    assert (I2 : 100000000 / 314159270 <= / PI).
    { replace (100000000 / 314159270) with (/ (314159270 / 100000000)) by lra. apply Rinv_le_contravar; lra. } lra. }
  assert (D1 : Rabs (degrees (r64 x)) = a * k) by (rewrite D0, Rabs_mult, (Rabs_pos_eq k) by lra; reflexivity).
  assert (E0 : Rabs (r64 x * q - r64 x * k) <= a * k * (3 / 100000000)).
  { replace (r64 x * q - r64 x * k) with (r64 x * (q - k)) by ring. rewrite Rabs_mult. fold a.
    replace (a * k * (3 / 100000000)) with (a * (3 / 100000000 * k)) by ring. apply Rmult_le_compat_l; lra. }
  rewrite D1. replace (rnd p - degrees (r64 x)) with ((rnd p - p) + ((p - r64 x * q) + (r64 x * q - r64 x * k))) by (rewrite D0; ring).
  assert (QK : a * q <= a * k * (1 + 3 / 100000000)).
  { rewrite Rmult_assoc. apply Rmult_le_compat_l; [lra|]. apply Rabs_le_inv in Fe. lra. }
  assert (P3 : Rabs p <= a * q * (1 + / 9007199254740992) + t).
  { replace p with (p - r64 x * q + r64 x * q) by ring. eapply Rle_trans; [apply Rabs_triang|]. rewrite A0. lra. }
  assert (T2 : 4 * t <= / 2 ^ 140).
  { unfold t. replace (2 ^ 150) with (1024 * 2 ^ 140) by (replace 1024 with (2 ^ 10) by (simpl; lra); rewrite <- pow_add; reflexivity).
    rewrite Rinv_mult. assert (0 < / 2 ^ 140) by (apply Rinv_0_lt_compat, pow_lt; lra). lra. }
  assert (S5 : 2 ^ 23 = 8388608) by (simpl; lra). rewrite S5.
  eapply Rle_trans; [apply Rabs_triang|]. eapply Rle_trans; [apply Rplus_le_compat_l, Rabs_triang|].
  assert (0 <= a * k) by nra. lra.
Qed.
Lemma c27_accuracy_proof : forall d lats lons cs i la lo c,
  map_get CLAT (doc_data d) = Some (DoubleValues lats) -> map_get CLON (doc_data d) = Some (DoubleValues lons) ->
  lat_lon_values d = Ok cs -> nth_error lats i = Some la -> nth_error lons i = Some lo -> nth_error cs i = Some c ->
  fin64 la -> fin64 lo -> Rabs (r64 la) <= 2 ^ 64 -> Rabs (r64 lo) <= 2 ^ 64 ->
  fin_coord c /\ -180 <= xr (lat c) < 180 /\ -180 <= xr (lon c) < 180 /\
  same_direction (xr (lat c)) (degrees (r64 la)) /\ same_direction (xr (lon c)) (degrees (r64 lo)) /\
  (Rabs (degrees (r64 la)) <= 17999 / 100 -> Rabs (degrees (r64 lo)) <= 17999 / 100 ->
   Rabs (xr (lat c) - degrees (r64 la)) <= Rabs (degrees (r64 la)) / 2 ^ 23 + / 2 ^ 140 /\
   Rabs (xr (lon c) - degrees (r64 lo)) <= Rabs (degrees (r64 lo)) / 2 ^ 23 + / 2 ^ 140).
Proof.
  intros d lats lons cs i la lo c E1 E2 H I1 I2 I3 F1 F2 B1 B2.
  destruct (c27_pairs_proof d lats lons E1 E2) as [N P]. destruct (Nat.eq_dec (length lats) (length lons)) as [L|L]; [|rewrite (N L) in H; discriminate].
  destruct (P L) as (cs' & H' & _ & Q). rewrite H in H'. injection H' as <-. rewrite (Q i la lo I1 I2) in I3. injection I3 as <-.
  destruct (angle_close la F1 B1) as [G1 A1]. destruct (angle_close lo F2 B2) as [G2 A2].
  set (y := f32_of_f64 (to_degrees64 la)) in *. set (z := f32_of_f64 (to_degrees64 lo)) in *.
  destruct (c12_normalise_proof y z G1 G2) as (C & R1 & R2 & (k1 & K1) & (k2 & K2)). cbv zeta in C, R1, R2, K1, K2.
  split; [exact C|]. split; [exact R1|]. split; [exact R2|]. split; [|split].
  - exists k1. rewrite K1. replace (xr y - 360 * IZR k1 + 360 * IZR k1) with (xr y) by ring. exact A1.
  - exists k2. rewrite K2. replace (xr z - 360 * IZR k2 + 360 * IZR k2) with (xr z) by ring. exact A2.
  - assert (S5 : 2 ^ 23 = 8388608) by (simpl; lra). assert (S6 : / 2 ^ 140 <= / 2 ^ 20) by (apply Rinv_le_contravar; [apply pow_lt; lra|apply Rle_pow; [lra|lia]]).
    assert (S7 : 2 ^ 20 = 1048576) by (simpl; lra).
    assert (W : forall v r, Rabs (v - r) <= Rabs r / 2 ^ 23 + / 2 ^ 140 -> Rabs r <= 17999 / 100 -> -180 <= v < 180).
    { intros v r X Y. rewrite S5 in X. rewrite S7 in S6. assert (Z : Rabs (v - r) <= / 1000) by lra.
      apply Rabs_le_inv in Z. apply Rabs_le_inv in Y. lra. }
    intros D1 D2. rewrite (c12_identity_proof y z G1 G2 (W _ _ A1 D1) (W _ _ A2 D2)). cbn [lat lon]. split; assumption.
Qed.
