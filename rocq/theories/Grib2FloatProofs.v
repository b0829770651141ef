(** Rounding analysis of the GRIB2 decoders (C08, C10). *)
From Coq Require Import ZArith Reals Psatz Bool List Lia Lra.
From Coq Require Import Floats.SpecFloat.
From Flocq Require Import Core.Core Relative.
From Verif Require Import Base F32 F32Facts BaseFacts Grib2Model Grib2Spec Grib2Proofs Grib2DocProofs.
Import ListNotations.
Open Scope Z_scope.

(** ** Angles *)
Lemma angle_value v : 0 <= v < 2 ^ 32 ->
  let a := fdiv (f32_of_Z v) (f32_of_Z 1000000) in
  f32_valid a /\ fis_finite a = true /\ xr a = rnd (rnd (IZR v) / 1000000).
Proof.
  intros Hv a. destruct (f32_of_Z_exact 1000000 ltac:(lia)) as [Fm Em].
  pose proof (f32_of_Z_rounds v) as Rv.
  assert (G32 : generic_format radix2 fexp32 (IZR (2 ^ 32))).
  { change (2 ^ 32) with (1 * 2 ^ 32). rewrite <- F2R_nonneg_exp by lia. apply gen_F2R; lia. }
  assert (B : (0 <= rnd (IZR v) <= IZR (2 ^ 32))%R).
  { apply rnd_between; [apply (gen_Z 0); lia|exact G32|]. split; apply IZR_le; lia. }
  assert (B32 : (IZR (2 ^ 32) < big)%R).
  { pose proof (Z_lt_big (2 ^ 32) ltac:(lia)) as L. rewrite Rabs_pos_eq in L; [exact L|apply IZR_le; lia]. }
  destruct (rounds_finite _ _ Rv) as [Fv Ev].
  { rewrite Rabs_pos_eq; lra. }
  assert (Rd : rounds_to a (rnd (IZR v) / 1000000)).
  { unfold a. rewrite <- Ev. rewrite <- Em. apply fdiv_rounds; try apply f32_of_Z_valid; try assumption.
    rewrite Em. lra. }
  assert (B2 : (0 <= rnd (rnd (IZR v) / 1000000) <= IZR (2 ^ 32))%R).
  { apply rnd_between; [apply (gen_Z 0); lia|exact G32|]. lra. }
  destruct (rounds_finite _ _ Rd) as [Fa Ea].
  { rewrite Rabs_pos_eq; lra. }
  split; [apply Rd|]. split; [exact Fa|exact Ea].
Qed.
Lemma angle_error v : 0 <= v < 2 ^ 32 ->
  let a := fdiv (f32_of_Z v) (f32_of_Z 1000000) in
  (Rabs (xr a - IZR v / 1000000) <= bpow radix2 (-22) * (IZR v / 1000000))%R.
Proof.
  intros Hv a. destruct (angle_value v Hv) as (_ & _ & E). fold a in E. rewrite E.
  destruct (Z.eq_dec v 0) as [->|N].
  { rewrite rnd_0. unfold Rdiv. rewrite Rmult_0_l, rnd_0, Rminus_0_r, Rabs_R0. lra. }
  pose proof (rnd_IZR_rel v) as R1.
  assert (H1 : (1 <= IZR v)%R) by (apply IZR_le; lia).
  rewrite (Rabs_pos_eq (IZR v)) in R1 by lra.
  set (p := rnd (IZR v)) in *.
  assert (Hu : (ulp_half = / 16777216)%R) by (unfold ulp_half; cbn; lra).
  assert (H22 : (bpow radix2 (-22) = / 4194304)%R) by (cbn; lra).
  apply Rabs_le_inv in R1. rewrite Hu in R1.
  assert (P1 : (/ 2 <= p)%R) by lra.
  pose proof (rnd_rel (p / 1000000)) as R2. rewrite Hu in R2.
  assert (P2 : (0 <= p / 1000000)%R) by lra.
  rewrite (Rabs_pos_eq (p / 1000000)) in R2 by exact P2.
  assert (S : (bpow radix2 (-126) <= p / 1000000)%R).
  { apply Rle_trans with (bpow radix2 (-30)); [apply bpow_le; lia|].
    assert (bpow radix2 (-30) = / 1073741824)%R as -> by (cbn; lra). lra. }
  specialize (R2 S). apply Rabs_le_inv in R2. rewrite H22. apply Rabs_le. lra.
Qed.
Lemma read_angle_value v rest : 0 <= v < 2 ^ 32 ->
  read_angle (be_bytes 4 v ++ rest) = Ok (fdiv (f32_of_Z v) (f32_of_Z 1000000), rest).
Proof.
  intro Hv. unfold read_angle. rewrite (bind_ok_step _ _ _ v rest); [reflexivity|].
  apply read_u32_app. exact Hv.
Qed.

(** ** Simple packing *)
Section Unpack.
  Variables (r c1 c2 : f32) (E : Z).
  Hypothesis Hr : f32_valid r.
  Hypothesis Fr : fis_finite r = true.
  Hypothesis H1 : f32_valid c1.
  Hypothesis F1 : fis_finite c1 = true.
  Hypothesis E1 : xr c1 = bpow radix2 E.
  Hypothesis HE : -126 <= E <= 111.
  Hypothesis H2 : f32_valid c2.
  Hypothesis F2 : fis_finite c2 = true.

  Lemma product_exact X : 0 <= X < 65536 ->
    f32_valid (fmul (f32_of_Z X) c1) /\ fis_finite (fmul (f32_of_Z X) c1) = true /\
    xr (fmul (f32_of_Z X) c1) = (IZR X * bpow radix2 E)%R.
  Proof.
    intro HX. destruct (f32_of_Z_exact X ltac:(lia)) as [FX EX].
    rewrite <- E1, <- EX. apply rounds_exact.
    - apply fmul_rounds; try assumption. apply f32_of_Z_valid.
    - rewrite EX, E1. apply (gen_F2R X E); lia.
    - rewrite EX, E1, Rabs_mult, <- abs_IZR, (Rabs_pos_eq (bpow radix2 E)) by apply bpow_ge_0.
      unfold big. replace 128 with (17 + 111) by lia. rewrite bpow_plus.
      assert (IZR (Z.abs X) < bpow radix2 17)%R.
      { change (bpow radix2 17) with (IZR 131072). apply IZR_lt. lia. }
      assert (bpow radix2 E <= bpow radix2 111)%R by (apply bpow_le; lia).
      assert (0 <= IZR (Z.abs X))%R by (apply IZR_le; lia).
      pose proof (bpow_gt_0 radix2 E). nra.
  Qed.
  Lemma sum_rounds X : 0 <= X < 65536 ->
    rounds_to (fadd r (fmul (f32_of_Z X) c1)) (xr r + IZR X * bpow radix2 E).
  Proof.
    intro HX. destruct (product_exact X HX) as (V & F & Ep). rewrite <- Ep.
    apply fadd_rounds; assumption.
  Qed.
  Lemma unpack_one X : 0 <= X < 65536 -> xr c2 = 1%R ->
    rounds_to (unpack r c1 c2 X) (xr r + IZR X * bpow radix2 E).
  Proof.
    intros HX E2. unfold unpack. pose proof (sum_rounds X HX) as S.
    set (s := fadd r (fmul (f32_of_Z X) c1)) in *.
    destruct (fis_finite s) eqn:Fs.
    - destruct S as (Vs & Ns & Es).
      assert (Rb : (Rabs (xr s) < big)%R) by (apply xr_bound; assumption).
      assert (D : rounds_to (fdiv s c2) (xr s)).
      { replace (xr s) with (xr s / xr c2)%R by (rewrite E2; field).
        apply fdiv_rounds; try assumption. rewrite E2. lra. }
      destruct D as (Vd & Nd & Ed). split; [exact Vd|]. split; [exact Nd|].
      rewrite Ed. rewrite (rnd_gen (xr s)) by (apply xr_gen; assumption).
      rewrite sat_id by lra. exact Es.
    - destruct s as [sg|sg| |sg m e]; try discriminate Fs; [|destruct S as (_ & N & _); discriminate N].
      assert (fdiv (S754_infinity sg) c2 = S754_infinity sg) as ->; [|exact S].
      destruct c2 as [t|t| |t m e]; try discriminate F2.
      + cbn in E2. lra.
      + unfold fdiv. cbn [SFdiv]. destruct t; [|destruct sg; reflexivity]. exfalso.
        rewrite xr_F2R in E2. cbn [cond_Zopp] in E2.
        assert (F2R (Float radix2 (Z.neg m) e) < 0)%R by (apply F2R_lt_0; cbn; lia).
        change (- Z.pos m) with (Z.neg m) in E2. lra.
  Qed.

  (** The sum is rounded with a relative error, also in the subnormal range. *)
  Lemma multiple_emin x : generic_format radix2 fexp32 x -> exists m, x = F2R (Float radix2 m (-149)).
  Proof.
    intro G. apply (FLT_format_generic radix2 (-149) 24) in G. destruct G as [[m e] Hx Hm He].
    cbn [Fexp] in He. rewrite (F2R_change_exp radix2 (-149)) in Hx by exact He. eauto.
  Qed.
  Lemma sum_rel x y : generic_format radix2 fexp32 x -> generic_format radix2 fexp32 y ->
    (Rabs (rnd (x + y) - (x + y)) <= ulp_half * Rabs (x + y))%R.
  Proof.
    intros Gx Gy. destruct (multiple_emin x Gx) as [mx ->]. destruct (multiple_emin y Gy) as [my ->].
    replace (F2R (Float radix2 mx (-149)) + F2R (Float radix2 my (-149)))%R
      with (F2R (Float radix2 (mx + my) (-149))) by (unfold F2R; cbn [Fnum Fexp]; rewrite plus_IZR; ring).
    pose proof (relative_error_N_FLT_F2R_emin radix2 (-149) 24 eq_refl (fun x => negb (Z.even x))) as R.
    match goal with |- context [F2R (Float radix2 ?m (-149))] => specialize (R m) end.
    unfold rnd. change fexp32 with (FLT_exp (-149) 24). unfold ulp_half.
    replace (bpow radix2 (-24)) with (/2 * bpow radix2 (-24 + 1))%R; [exact R|].
    rewrite bpow_plus. change (bpow radix2 1) with 2%R. field.
  Qed.

  Lemma unpack_error X (ten : R) (delta : R) : 0 <= X < 65536 ->
    (0 < ten)%R -> (0 <= delta <= / 1024)%R -> (Rabs (xr c2 - ten) <= delta * ten)%R ->
    let exact := (xr r + IZR X * bpow radix2 E)%R in
    (Rabs exact <= bpow radix2 127)%R ->
    (exact = 0 \/ bpow radix2 (-125) <= Rabs (exact / ten) <= bpow radix2 127)%R ->
    f32_valid (unpack r c1 c2 X) /\ fis_finite (unpack r c1 c2 X) = true /\
    (Rabs (xr (unpack r c1 c2 X) - exact / ten) <= (3 * ulp_half + 2 * delta) * Rabs (exact / ten))%R.
  Proof.
    intros HX Ht Hd H10 exact HS HF. unfold unpack.
    pose proof (sum_rounds X HX) as S. fold exact in S.
    destruct (product_exact X HX) as (Vp & Fp & Ep).
    pose proof (sum_rel (xr r) (IZR X * bpow radix2 E) ltac:(apply xr_gen; assumption)
                  ltac:(rewrite <- Ep; apply xr_gen; assumption)) as RS. fold exact in RS.
    set (s := fadd r (fmul (f32_of_Z X) c1)) in *.
    assert (Hu : (ulp_half = / 16777216)%R) by (unfold ulp_half; cbn; lra).
    rewrite Hu in RS.
    assert (B127 : (big = 2 * bpow radix2 127)%R).
    { unfold big. change 128 with (1 + 127). rewrite bpow_plus. reflexivity. }
    pose proof (bpow_gt_0 radix2 127) as P127.
    destruct (rounds_finite _ _ S) as [Fs Es].
    { apply Rle_lt_trans with (Rabs exact + Rabs (rnd exact - exact))%R.
      - replace (rnd exact) with (exact + (rnd exact - exact))%R at 1 by ring. apply Rabs_triang.
      - nra. }
    apply Rabs_le_inv in H10.
    assert (Pc2 : (0 < xr c2)%R) by nra.
    assert (D : rounds_to (fdiv s c2) (rnd exact / xr c2)).
    { rewrite <- Es. apply fdiv_rounds; try assumption; [apply S|lra]. }
    set (q := (rnd exact / xr c2)%R) in *.
    assert (Q : (Rabs (q - exact / ten) <= (/ 16777216 * (3 / 2) + delta * (3 / 2)) * Rabs (exact / ten))%R).
    { assert (Q1 : (q - exact / ten = (rnd exact - exact) / xr c2 + exact / ten * ((ten - xr c2) / xr c2))%R)
        by (unfold q; field; lra).
      rewrite Q1. eapply Rle_trans; [apply Rabs_triang|].
      rewrite Rmult_plus_distr_r. apply Rplus_le_compat.
      - unfold Rdiv. rewrite Rabs_mult, (Rabs_pos_eq (/ xr c2)) by (apply Rlt_le, Rinv_0_lt_compat, Pc2).
        rewrite Rabs_mult, (Rabs_pos_eq (/ ten)) by (apply Rlt_le, Rinv_0_lt_compat, Ht).
        assert (I : (/ xr c2 <= 3 / 2 * / ten)%R).
        { apply Rmult_le_reg_l with (xr c2); [exact Pc2|]. rewrite Rinv_r by lra.
          apply Rmult_le_reg_r with ten; [exact Ht|].
          replace (xr c2 * (3 / 2 * / ten) * ten)%R with (xr c2 * (3 / 2))%R by (field; lra). nra. }
        pose proof (Rinv_0_lt_compat _ Pc2) as Ic. pose proof (Rinv_0_lt_compat _ Ht) as It.
        pose proof (Rabs_pos exact) as Pe. pose proof (Rabs_pos (rnd exact - exact)) as Pd.
        eapply Rle_trans; [apply Rmult_le_compat_r; [lra|exact RS]|].
        eapply Rle_trans; [apply Rmult_le_compat_l; [nra|exact I]|]. right. field. lra.
      - rewrite Rabs_mult, Rmult_comm. apply Rmult_le_compat_r; [apply Rabs_pos|].
        unfold Rdiv. rewrite Rabs_mult, (Rabs_pos_eq (/ xr c2)) by (apply Rlt_le, Rinv_0_lt_compat, Pc2).
        apply Rmult_le_reg_r with (xr c2); [exact Pc2|]. rewrite Rmult_assoc, Rinv_l, Rmult_1_r by lra.
        apply Rle_trans with (delta * ten)%R; [apply Rabs_le; lra|]. nra. }
    destruct HF as [Z0|[HF1 HF2]].
    { assert (q = 0)%R as Q0.
      { unfold q. rewrite Z0, rnd_0. unfold Rdiv. ring. }
      rewrite Q0 in D. apply rounds_exact in D.
      - destruct D as (V & F & X0). split; [exact V|]. split; [exact F|].
        rewrite X0, Z0. unfold Rdiv. rewrite Rmult_0_l, Rminus_0_r, Rabs_R0. lra.
      - apply (gen_Z 0). lia.
      - rewrite Rabs_R0. lra. }
    set (t := (exact / ten)%R) in *.
    pose proof (Rabs_pos t) as Pt.
    assert (Hdt : (delta * Rabs t <= / 1024 * Rabs t)%R) by (apply Rmult_le_compat_r; lra).
    assert (Hdt0 : (0 <= delta * Rabs t)%R) by (apply Rmult_le_pos; lra).
    rewrite Rmult_plus_distr_r, Rmult_assoc in Q.
    rewrite (Rmult_comm delta), Rmult_assoc in Q.
    assert (Qlo : (Rabs t * / 2 <= Rabs q)%R).
    { pose proof (Rabs_triang_inv t (t - q)) as T. replace (t - (t - q))%R with q in T by ring.
      rewrite Rabs_minus_sym in Q. lra. }
    assert (Qhi : (Rabs q <= Rabs t * (1 + 2 / 1024))%R).
    { pose proof (Rabs_triang t (q - t)) as T. replace (t + (q - t))%R with q in T by ring. lra. }
    pose proof (rnd_rel q) as RQ. rewrite Hu in RQ.
    assert (bpow radix2 (-126) <= Rabs q)%R as L.
    { change (-126) with (-125 + -1). rewrite bpow_plus. change (bpow radix2 (-1)) with (/2)%R. lra. }
    specialize (RQ L).
    assert (Rb : (Rabs (rnd q) < big)%R).
    { pose proof (Rabs_triang q (rnd q - q)) as T. replace (q + (rnd q - q))%R with (rnd q) in T by ring. lra. }
    destruct (rounds_finite _ _ D Rb) as [Fd Ed].
    split; [apply D|]. split; [exact Fd|]. rewrite Ed, Hu.
    replace (rnd q - t)%R with ((rnd q - q) + (q - t))%R by ring.
    eapply Rle_trans; [apply Rabs_triang|]. lra.
  Qed.
End Unpack.

(** ** Documents read from bytes *)
Lemma doc_ranges chk bs d rest t : Forall is_byte bs -> read_single_doc chk bs = Ok (d, rest) ->
  s5_template (d_s5 d) = SimplePacking t ->
  Forall is_byte (s6_bitmap (d_s6 d)) /\ Forall (fun v => 0 <= v < 65536) (s7_data (d_s7 d)) /\
  f32_valid (t50_reference t).
Proof.
  intros Hb H Ht. destruct (c04_accepted_is_message_proof _ _ _ _ Hb H) as (w & Hw & _ & ->).
  destruct Hw as (_ & _ & _ & _ & _ & W5 & W6 & W7).
  split; [|split].
  - destruct W6 as [F _]. unfold layout6, fields_ok in F. apply Forall_inv_tail, Forall_inv_tail, Forall_inv_tail, Forall_inv in F.
    exact F.
  - destruct W7 as [F _]. unfold layout7, fields_ok in F. cbn [app] in F.
    apply Forall_inv_tail, Forall_inv_tail in F. rewrite Forall_map in F. exact F.
  - destruct W5 as [F _]. cbn [message_meaning d_s5 meaning5 s5_template] in Ht. 
    unfold layout5 in F. destruct (w5_tpl (w_5 w)) as [r e dd b f|n s]; [|discriminate Ht].
    cbn [meaning5_tpl] in Ht. injection Ht as <-. cbn [t50_reference].
    unfold fields_ok in F. apply Forall_forall with (x := U 4 r) in F.
    + apply f32_of_bits_valid. exact F.
    + unfold layout5. cbn. tauto.
Qed.

Definition exact_power (powi : f32 -> Z -> f32) (b e : Z) (r : R) : Prop :=
  f32_valid (powi (f32_of_Z b) e) /\ fis_finite (powi (f32_of_Z b) e) = true /\ xr (powi (f32_of_Z b) e) = r.

Lemma doc_value powi chk bs d rest t l i v : Forall is_byte bs ->
  read_single_doc chk bs = Ok (d, rest) -> s5_template (d_s5 d) = SimplePacking t ->
  calculate_data_points powi d None Some = Ok l -> nth_error l i = Some (Some v) ->
  exists X, nth_error (s7_data (d_s7 d)) (rank (s6_bitmap (d_s6 d)) i) = Some X /\ 0 <= X < 65536 /\
    v = unpack (t50_reference t) (powi (f32_of_Z 2) (t50_e t)) (powi (f32_of_Z 10) (t50_d t)) X.
Proof.
  intros Hb H Ht Hc Hn. destruct (doc_ranges _ _ _ _ _ Hb H Ht) as (Bb & Br & _).
  destruct (s7_data (d_s7 d)) as [|z0 raw0] eqn:Er.
  { rewrite (c07_empty_data_section_proof _ powi d None Some t Ht Er) in Hc. injection Hc as <-.
    apply nth_error_In in Hn. apply repeat_spec in Hn. discriminate. }
  assert (Nr : s7_data (d_s7 d) <> []) by congruence. rewrite <- Er in *. clear Er z0 raw0.
  destruct (c07_data_points_proof _ powi d None Some t Ht Bb Nr) as [P1 P2].
  set (bitmap := s6_bitmap (d_s6 d)) in *. set (raw := s7_data (d_s7 d)) in *.
  set (n := Z.to_nat (s3_points (d_s3 d))) in *.
  assert (D : (bitmap = [] \/ (n <= 8 * length bitmap)%nat) /\ (rank bitmap n <= length raw)%nat).
  { destruct bitmap as [|b0 bm] eqn:Eb.
    - destruct (Nat.le_gt_cases (rank [] n) (length raw)) as [L|L]; [split; [left; reflexivity|exact L]|].
      exfalso. rewrite P2 in Hc; [discriminate|]. intros [_ K]. lia.
    - destruct (Nat.le_gt_cases n (8 * length (b0 :: bm))) as [L1|L1];
      destruct (Nat.le_gt_cases (rank (b0 :: bm) n) (length raw)) as [L2|L2];
      [split; [right; exact L1|exact L2]| | |];
      exfalso; (rewrite P2 in Hc; [discriminate|]); intros [[K0|K1] K2]; try discriminate K0; lia. }
  rewrite (P1 D) in Hc. injection Hc as <-. clear P1 P2.
  assert (Hi : (i < n)%nat).
  { rewrite nth_error_map in Hn. destruct (nth_error (seq 0 n) i) eqn:Es; [|discriminate].
    assert (L : nth_error (seq 0 n) i <> None) by congruence.
    apply nth_error_Some in L. rewrite seq_length in L. exact L. }
  rewrite nth_error_map in Hn.
  assert (Es : nth_error (seq 0 n) i = Some i).
  { rewrite nth_error_nth' with (d := 0%nat) by (rewrite seq_length; exact Hi). rewrite seq_nth by exact Hi. reflexivity. }
  rewrite Es in Hn. cbn [option_map] in Hn. destruct (has_value bitmap i) eqn:Hv; [|discriminate].
  injection Hn as <-.
  assert (Hr : (rank bitmap i < length raw)%nat).
  { destruct D as [_ D]. eapply Nat.lt_le_trans; [|exact D]. unfold rank.
    replace n with (i + (n - i))%nat by lia. rewrite seq_app, filter_app, app_length.
    replace (n - i)%nat with (S (n - i - 1)) by lia. cbn [seq filter Nat.add]. rewrite Hv. cbn [length]. lia. }
  exists (nth (rank bitmap i) raw 0). split; [apply nth_error_nth'; exact Hr|]. split; [|reflexivity].
  rewrite Forall_forall in Br. apply Br. apply nth_In. exact Hr.
Qed.

Lemma c08_correctly_rounded_proof : forall powi chk bs d rest t l i v, Forall is_byte bs ->
  read_single_doc chk bs = Ok (d, rest) -> s5_template (d_s5 d) = SimplePacking t ->
  fis_finite (t50_reference t) = true -> t50_d t = 0 -> -126 <= t50_e t <= 111 ->
  exact_power powi 2 (t50_e t) (bpow radix2 (t50_e t)) -> exact_power powi 10 0 1 ->
  calculate_data_points powi d None Some = Ok l -> nth_error l i = Some (Some v) ->
  exists X, nth_error (s7_data (d_s7 d)) (rank (s6_bitmap (d_s6 d)) i) = Some X /\
    rounds_to v (xr (t50_reference t) + IZR X * bpow radix2 (t50_e t)).
Proof.
  intros powi chk bs d rest t l i v Hb H Ht Fr D0 HE (V1 & F1 & E1) (V2 & F2 & E2) Hc Hn.
  destruct (doc_value _ _ _ _ _ _ _ _ _ Hb H Ht Hc Hn) as (X & HX & RX & ->).
  destruct (doc_ranges _ _ _ _ _ Hb H Ht) as (_ & _ & Vr).
  exists X. split; [exact HX|]. rewrite D0. apply unpack_one; assumption.
Qed.
Lemma c08_monotone_proof : forall powi r E X Y, f32_valid r -> fis_finite r = true ->
  -126 <= E <= 111 -> exact_power powi 2 E (bpow radix2 E) -> exact_power powi 10 0 1 ->
  0 <= X <= Y -> Y < 65536 ->
  fle (unpack r (powi (f32_of_Z 2) E) (powi (f32_of_Z 10) 0) X)
      (unpack r (powi (f32_of_Z 2) E) (powi (f32_of_Z 10) 0) Y) = true.
Proof.
  intros powi r E X Y Vr Fr HE (V1 & F1 & E1) (V2 & F2 & E2) HX HY.
  destruct (unpack_one r _ _ E Vr Fr V1 F1 E1 HE V2 F2 X ltac:(lia) E2) as (Va & Na & Ea).
  destruct (unpack_one r _ _ E Vr Fr V1 F1 E1 HE V2 F2 Y ltac:(lia) E2) as (Vb & Nb & Eb).
  apply fle_xr; try assumption. rewrite Ea, Eb. apply sat_mono, rnd_mono.
  apply Rplus_le_compat_l, Rmult_le_compat_r; [apply bpow_ge_0|apply IZR_le; lia].
Qed.
Lemma c08_error_proof : forall powi chk bs d rest t l i v ten delta, Forall is_byte bs ->
  read_single_doc chk bs = Ok (d, rest) -> s5_template (d_s5 d) = SimplePacking t ->
  fis_finite (t50_reference t) = true -> -126 <= t50_e t <= 111 ->
  exact_power powi 2 (t50_e t) (bpow radix2 (t50_e t)) ->
  f32_valid (powi (f32_of_Z 10) (t50_d t)) -> fis_finite (powi (f32_of_Z 10) (t50_d t)) = true ->
  (0 < ten)%R -> (0 <= delta <= / 1024)%R ->
  (Rabs (xr (powi (f32_of_Z 10) (t50_d t)) - ten) <= delta * ten)%R ->
  calculate_data_points powi d None Some = Ok l -> nth_error l i = Some (Some v) ->
  exists X, nth_error (s7_data (d_s7 d)) (rank (s6_bitmap (d_s6 d)) i) = Some X /\
    let scaled := (xr (t50_reference t) + IZR X * bpow radix2 (t50_e t))%R in
    ((Rabs scaled <= bpow radix2 127)%R ->
     (scaled = 0 \/ bpow radix2 (-125) <= Rabs (scaled / ten) <= bpow radix2 127)%R ->
     fis_finite v = true /\
     (Rabs (xr v - scaled / ten) <= (3 * bpow radix2 (-24) + 2 * delta) * Rabs (scaled / ten))%R).
Proof.
  intros powi chk bs d rest t l i v ten delta Hb H Ht Fr HE (V1 & F1 & E1) V2 F2 P10 Pd H10 Hc Hn.
  destruct (doc_value _ _ _ _ _ _ _ _ _ Hb H Ht Hc Hn) as (X & HX & RX & ->).
  destruct (doc_ranges _ _ _ _ _ Hb H Ht) as (_ & _ & Vr).
  exists X. split; [exact HX|]. intros scaled B1 B2.
  destruct (unpack_error (t50_reference t) _ _ (t50_e t) Vr Fr V1 F1 E1 HE V2 F2 X ten delta RX P10 Pd H10 B1 B2) as (_ & F & R).
  split; [exact F|exact R].
Qed.

(** compiler-rt's __powisf2, the usual implementation of [f32::powi]; the loop runs at most
    32 times for an i32 exponent. *)
Fixpoint powi_loop (fuel : nat) (a r : f32) (b : Z) : f32 :=
  match fuel with
  | O => r
  | S f =>
      let r' := if Z.odd b then fmul r a else r in
      let b' := Z.quot b 2 in
      if b' =? 0 then r' else powi_loop f (fmul a a) r' b'
  end.
Definition powi_rt (a : f32) (b : Z) : f32 :=
  let r := powi_loop 32 a (f32_of_Z 1) b in
  if b <? 0 then fdiv (f32_of_Z 1) r else r.

Definition is_pow2 (x : f32) (e : Z) : bool :=
  match x with
  | S754_finite false m e' => valid_binary 24 128 x && Z.eqb (Zpos m * 2 ^ (e' + 200)) (2 ^ (e + 200))
  | _ => false
  end.
Lemma powi_rt_table : forallb (fun k => let e := Z.of_nat k - 126 in is_pow2 (powi_rt (f32_of_Z 2) e) e) (seq 0 254) = true.
Proof. vm_compute. reflexivity. Qed.
Lemma powi_rt_two E : -126 <= E <= 127 -> exact_power powi_rt 2 E (bpow radix2 E).
Proof.
  intro HE. pose proof powi_rt_table as T. rewrite forallb_forall in T.
  specialize (T (Z.to_nat (E + 126))). cbv zeta in T. rewrite Z2Nat.id in T by lia.
  replace (E + 126 - 126) with E in T by lia.
  assert (In (Z.to_nat (E + 126)) (seq 0 254)) as I by (apply in_seq; lia).
  specialize (T I). unfold exact_power. destruct (powi_rt (f32_of_Z 2) E) as [s|s| |[|] m e]; try discriminate T.
  unfold is_pow2 in T. apply andb_prop in T as [T1 T2]. apply Z.eqb_eq in T2.
  split; [exact T1|]. split; [reflexivity|]. rewrite xr_F2R. cbn [cond_Zopp].
  apply valid_mantissa in T1 as [_ T1].
  unfold F2R. cbn [Fnum Fexp]. apply Rmult_eq_reg_r with (bpow radix2 200); [|apply Rgt_not_eq, bpow_gt_0].
  rewrite Rmult_assoc, <- !bpow_plus. rewrite <- !IZR_Zpower by lia. rewrite <- mult_IZR. f_equal. exact T2.
Qed.
Lemma powi_rt_ten0 : exact_power powi_rt 10 0 1.
Proof.
  unfold exact_power. assert (powi_rt (f32_of_Z 10) 0 = f32_of_Z 1) as -> by (vm_compute; reflexivity).
  split; [apply f32_of_Z_valid|]. apply (f32_of_Z_exact 1). lia.
Qed.

Lemma c08_powi_proof : forall E, -126 <= E <= 127 ->
  exact_power powi_rt 2 E (bpow radix2 E) /\ exact_power powi_rt 10 0 1.
Proof. intros E H. split; [exact (powi_rt_two E H)|exact powi_rt_ten0]. Qed.

Lemma c10_angle_proof : forall v rest, 0 <= v < 2 ^ 32 -> exists a,
  read_angle (be_bytes 4 v ++ rest) = Ok (a, rest) /\ f32_valid a /\ fis_finite a = true /\
  (Rabs (xr a - IZR v / 1000000) <= bpow radix2 (-22) * (IZR v / 1000000))%R /\
  (v <= 2 ^ 24 -> xr a = rnd (IZR v / 1000000)).
Proof.
  intros v rest Hv. exists (fdiv (f32_of_Z v) (f32_of_Z 1000000)).
  split; [exact (read_angle_value v rest Hv)|].
  destruct (angle_value v Hv) as (V & F & E). split; [exact V|]. split; [exact F|].
  split; [exact (angle_error v Hv)|]. intro S. rewrite E. f_equal. f_equal. apply rnd_gen, gen_Z. lia.
Qed.

Lemma c10_negative_angle_proof : forall m rest, 0 < m < 2 ^ 31 -> exists a,
  read_angle (be_bytes 4 (2 ^ 31 + m) ++ rest) = Ok (a, rest) /\ (2147 < xr a)%R.
Proof.
  intros m rest Hm. exists (fdiv (f32_of_Z (2 ^ 31 + m)) (f32_of_Z 1000000)).
  split; [apply read_angle_value; lia|].
  pose proof (angle_error (2 ^ 31 + m) ltac:(lia)) as A. cbv zeta in A. apply Rabs_le_inv in A.
  assert (2147483648 <= IZR (2 ^ 31 + m))%R by (apply IZR_le; lia).
  assert (bpow radix2 (-22) = / 4194304)%R as E by (cbn; lra). rewrite E in A. lra.
Qed.
