(** Proofs that the floats of the model are those of IEEE 754 (C92). *)
From Coq Require Import ZArith Reals List Bool Lia Lra.
From Coq Require Import Floats.SpecFloat.
From Flocq Require Import Core.Core IEEE754.BinarySingleNaN.
From Flocq Require IEEE754.Binary IEEE754.Bits.
From Verif Require Import Base F32 F32Facts Grib2Model Grib2Spec NetCdfAngleSpec NetCdfAngleProofs IeeeSpec.
Import ListNotations.
Open Scope Z_scope.

(** ** Bits *)
Lemma float_bits_aux (mw ew : Z) (b : Z) : 0 < mw -> 1 < ew -> 0 <= b ->
  float_of_bits mw ew b = Binary.FF2SF (Bits.binary_float_of_bits_aux mw ew b).
Proof.
  intros Hm He Hb. unfold float_of_bits, Bits.binary_float_of_bits_aux, Bits.split_bits. cbv zeta.
  pose proof (Z.pow_pos_nonneg 2 mw ltac:(lia) ltac:(lia)) as PM. pose proof (Z.pow_pos_nonneg 2 ew ltac:(lia) ltac:(lia)) as PE.
  assert (S : (1 <=? b / 2 ^ (mw + ew)) = Zle_bool (2 ^ mw * 2 ^ ew) b).
  { rewrite Z.pow_add_r by lia. apply Bool.eq_iff_eq_true. rewrite !Z.leb_le. split; intro H.
    - pose proof (Z.mul_div_le b (2 ^ mw * 2 ^ ew) ltac:(nia)). nia.
    - apply Z.div_le_lower_bound; nia. }
  rewrite S. pose proof (Z.mod_pos_bound b (2 ^ mw) PM) as BM. set (mm := b mod 2 ^ mw) in *. set (ex := (b / 2 ^ mw) mod 2 ^ ew).
  assert (Q : forall x y, Zeq_bool x y = (x =? y)) by (intros x y; apply Bool.eq_iff_eq_true; rewrite <- Zeq_is_eq_bool, Z.eqb_eq; reflexivity). rewrite !Q.
  destruct (ex =? 0).
  - destruct mm as [|p|p]; [reflexivity| |lia]. cbn [Binary.FF2SF]. f_equal. unfold SpecFloat.emin. lia.
  - destruct (ex =? 2 ^ ew - 1).
    + destruct mm as [|p|p]; [reflexivity|reflexivity|lia].
    + destruct (mm + 2 ^ mw) as [|p|p] eqn:E; [reflexivity| |reflexivity]. cbn [Binary.FF2SF]. f_equal. unfold SpecFloat.emin. lia.
Qed.
Lemma c92_single_proof : forall b, 0 <= b < 2 ^ 32 -> f32_of_bits b = Binary.B2SF 24 128 (Bits.b32_of_bits b).
Proof. intros b Hb. unfold Bits.b32_of_bits, Bits.binary_float_of_bits. rewrite Binary.B2SF_FF2B. apply float_bits_aux; lia. Qed.
Lemma c92_double_proof : forall b, 0 <= b < 2 ^ 64 -> f64_of_bits b = Binary.B2SF 53 1024 (Bits.b64_of_bits b).
Proof. intros b Hb. unfold Bits.b64_of_bits, Bits.binary_float_of_bits. rewrite Binary.B2SF_FF2B. apply float_bits_aux; lia. Qed.
(** The four bytes of the reference value of a packed field. *)
Lemma c92_reference_proof : forall bs t rest, Forall is_byte bs -> read_template5_0 bs = Ok (t, rest) ->
  exists b0 b1 b2 b3 more, bs = b0 :: b1 :: b2 :: b3 :: more /\
    t50_reference t = Binary.B2SF 24 128 (Bits.b32_of_bits (b0 * 2 ^ 24 + b1 * 2 ^ 16 + b2 * 2 ^ 8 + b3)).
Proof.
  intros bs t rest B E. destruct bs as [|b0 [|b1 [|b2 [|b3 more]]]]; try discriminate E. exists b0, b1, b2, b3, more. split; [reflexivity|].
  assert (R : t50_reference t = f32_of_bits (b0 * 2 ^ 24 + b1 * 2 ^ 16 + b2 * 2 ^ 8 + b3)).
  { unfold read_template5_0 in E. unfold bind in E. replace (read_u32 (b0 :: b1 :: b2 :: b3 :: more)) with (Ok (b0 * 2 ^ 24 + b1 * 2 ^ 16 + b2 * 2 ^ 8 + b3, more)) in E.
    - repeat match type of E with match ?x with _ => _ end = _ => destruct x as [[? ?]|?|]; try discriminate E end. unfold ret in E. injection E as <- _. reflexivity.
    - unfold read_u32, read_be, bind, take_bytes, ret. change (4 >? isize_max) with false. cbv iota.
      replace (4 <=? Z.of_nat (length (b0 :: b1 :: b2 :: b3 :: more))) with true by (symmetry; apply Z.leb_le; cbn [length]; lia).
      change (Z.to_nat 4) with 4%nat. cbn [firstn skipn]. unfold be_value. cbn [be_acc]. f_equal. f_equal. lia. }
  rewrite R. apply c92_single_proof. repeat match goal with H : Forall _ (_ :: _) |- _ => inversion H; clear H; subst end. unfold is_byte in *. lia.
Qed.

(** ** Rounding *)
Lemma single_parts x : single x <-> f32_valid x /\ fis_finite x = true.
Proof. unfold single, number, f32_valid. destruct x; reflexivity. Qed.
Lemma real_xr x : single x -> xr x = real x.
Proof. intro S. apply single_parts in S. exact (xr_finite x (proj2 S)). Qed.
Lemma rounded_of z r : rounds_to z r -> correctly_rounded z r.
Proof.
  intro H. unfold correctly_rounded, nearest. change (round radix2 (FLT_exp (-149) 24) ZnearestE r) with (rnd r). change (bpow radix2 128) with big.
  destruct (Rlt_bool_spec (Rabs (rnd r)) big) as [L|L].
  - destruct (rounds_finite z r H L) as [F E]. assert (S : single z) by (apply single_parts; split; [exact (proj1 H)|exact F]). split; [exact S|]. now rewrite <- (real_xr z S).
  - destruct H as (V & N & E). pose proof big_pos as P.
    assert (C : (0 <= r /\ xr z = big \/ r < 0 /\ xr z = - big)%R).
    { rewrite E. destruct (Rle_or_lt 0 r) as [Q|Q].
      - left. split; [exact Q|]. apply sat_hi. pose proof (rnd_mono 0 r Q) as M. rewrite rnd_0 in M. rewrite Rabs_pos_eq in L by exact M. exact L.
      - right. split; [exact Q|]. apply sat_lo. pose proof (rnd_mono r 0 ltac:(lra)) as M. rewrite rnd_0 in M. rewrite Rabs_left1 in L by exact M. lra. }
    assert (F : fis_finite z = false).
    { destruct (fis_finite z) eqn:F; [|reflexivity]. pose proof (xr_bound z V F) as B. exfalso. destruct C as [[_ C]|[_ C]]; rewrite C in B; [rewrite Rabs_pos_eq in B by lra|rewrite Rabs_Ropp, Rabs_pos_eq in B by lra]; lra. }
    destruct z as [s|s| |s m e]; try discriminate F; try discriminate N. cbn [xr] in C. destruct s; destruct C as [[Q C]|[Q C]]; try lra; f_equal; symmetry.
    + now apply Rlt_bool_true.
    + now apply Rlt_bool_false.
Qed.
Ltac singles := repeat match goal with H : single _ |- _ => apply single_parts in H; destruct H end.
Lemma c92_rounding_proof : forall x y, single x -> single y ->
  correctly_rounded (fadd x y) (real x + real y) /\ correctly_rounded (fsub x y) (real x - real y) /\ correctly_rounded (fmul x y) (real x * real y) /\
  (real y <> 0%R -> correctly_rounded (fdiv x y) (real x / real y)) /\ ((0 <= real x)%R -> correctly_rounded (fsqrt x) (R_sqrt.sqrt (real x))).
Proof.
  intros x y Sx Sy. rewrite <- (real_xr x Sx), <- (real_xr y Sy). singles.
  repeat split; try (intro); apply rounded_of; [apply fadd_rounds|apply fsub_rounds|apply fmul_rounds|apply fdiv_rounds|apply fsqrt_rounds]; assumption.
Qed.
Lemma c92_from_proof : (forall z, correctly_rounded (f32_of_Z z) (IZR z)) /\ (forall x, double x -> correctly_rounded (f32_of_f64 x) (real x)).
Proof.
  split; [intro z; apply rounded_of, f32_of_Z_rounds|]. intros x [V F]. apply rounded_of. apply (r64_f32 x). split; [exact V|]. destruct x; try discriminate F; reflexivity.
Qed.
(** All values, also infinities and NaN. *)
Lemma c92_operations_proof : forall x y : binary_float 24 128,
  fadd (B2SF x) (B2SF y) = B2SF (Bplus mode_NE x y) /\ fsub (B2SF x) (B2SF y) = B2SF (Bminus mode_NE x y) /\
  fmul (B2SF x) (B2SF y) = B2SF (Bmult mode_NE x y) /\ fdiv (B2SF x) (B2SF y) = B2SF (Bdiv mode_NE x y) /\
  fsqrt (B2SF x) = B2SF (Bsqrt mode_NE x).
Proof. intros x y. repeat split; [apply fadd_equiv|apply fsub_equiv|apply fmul_equiv|apply fdiv_equiv|apply fsqrt_equiv]. Qed.
Lemma c92_product_proof : forall x y : binary_float 53 1024, dmul (B2SF x) (B2SF y) = B2SF (Bmult mode_NE x y).
Proof. exact dmul_equiv. Qed.

(** ** Comparisons *)
Lemma single_nan x : single x -> fis_nan x = false.
Proof. intro S. apply single_parts in S. destruct S as [_ F]. destruct x; try discriminate F; reflexivity. Qed.
Lemma c92_order_proof : forall x y, single x -> single y ->
  (flt x y = true <-> (real x < real y)%R) /\ (fle x y = true <-> (real x <= real y)%R) /\ (feq x y = true <-> real x = real y) /\
  (fgt x y = true <-> (real x > real y)%R) /\ (fge x y = true <-> (real x >= real y)%R).
Proof.
  intros x y Sx Sy. pose proof (single_nan x Sx) as Nx. pose proof (single_nan y Sy) as Ny. rewrite <- (real_xr x Sx), <- (real_xr y Sy). singles.
  split; [now apply flt_xr|]. split; [now apply fle_xr|]. split; [now apply feq_xr|]. split; [now apply flt_xr|].
  change (fge x y) with (fle y x). rewrite fle_xr by assumption. split; [apply Rle_ge|apply Rge_le].
Qed.
(** Comparisons with NaN are false; the infinities are beyond all numbers. *)
Lemma c92_special_order_proof : forall x, (flt x S754_nan = false /\ flt S754_nan x = false /\ fle x S754_nan = false /\ fle S754_nan x = false /\ feq x S754_nan = false /\ feq S754_nan x = false) /\
  (single x -> flt x (S754_infinity false) = true /\ flt (S754_infinity true) x = true /\ flt (S754_infinity false) x = false /\ flt x (S754_infinity true) = false).
Proof. intro x. split; [destruct x; repeat split; reflexivity|]. intros [_ F]. destruct x as [?|?| |[] ? ?]; try discriminate F; repeat split; reflexivity. Qed.

(** ** Integers *)
Lemma half_away_round r : half_away r (Zround r).
Proof.
  unfold half_away, Zround. destruct (Rle_bool_spec 0 r) as [H|H].
  - pose proof (Zfloor_lb (r + /2)) as L. pose proof (Zfloor_ub (r + /2)) as U. set (z := Zfloor (r + / 2)) in *.
    destruct (Req_dec (r - IZR z) (- / 2)) as [E|E].
    + right. split; [rewrite E, Rabs_Ropp, Rabs_pos_eq by lra; reflexivity|]. rewrite !Rabs_pos_eq by lra. lra.
    + left. apply Rabs_def1; lra.
  - pose proof (Zfloor_lb (- r + /2)) as L. pose proof (Zfloor_ub (- r + /2)) as U. set (z := Zfloor (- r + / 2)) in *. rewrite opp_IZR.
    destruct (Req_dec (r - - IZR z) (/ 2)) as [E|E].
    + right. split; [rewrite E, Rabs_pos_eq by lra; reflexivity|]. rewrite (Rabs_left r) by lra. rewrite Rabs_left by lra. lra.
    + left. apply Rabs_def1; lra.
Qed.
Lemma c92_integers_proof : forall x, single x ->
  (single (ffloor x) /\ real (ffloor x) = IZR (Zfloor (real x))) /\ (single (fceil x) /\ real (fceil x) = IZR (Zceil (real x))) /\
  (single (fround x) /\ exists z, half_away (real x) z /\ real (fround x) = IZR z).
Proof.
  intros x S. pose proof (real_xr x S) as E. apply single_parts in S. destruct S as [V F].
  destruct (ffloor_xr x V F) as (A1 & A2 & A3). destruct (fceil_xr x V F) as (B1 & B2 & B3). destruct (fround_xr x V F) as (C1 & C2 & C3).
  assert (SA : single (ffloor x)) by (apply single_parts; auto). assert (SB : single (fceil x)) by (apply single_parts; auto). assert (SC : single (fround x)) by (apply single_parts; auto).
  rewrite E in *. rewrite (real_xr _ SA) in A3. rewrite (real_xr _ SB) in B3. rewrite (real_xr _ SC) in C3.
  repeat split; try assumption. exists (Zround (real x)). split; [apply half_away_round|exact C3].
Qed.
(** [x as u8], [as u32] and [as usize]: the fraction is dropped, numbers out of the range become the nearest end of it, NaN becomes 0. *)
Lemma c92_casts_proof :
  (forall x, single x -> f_to_u8 x = Z.max 0 (Z.min (2 ^ 8 - 1) (Ztrunc (real x))) /\ f_to_u32 x = Z.max 0 (Z.min (2 ^ 32 - 1) (Ztrunc (real x))) /\
    f_to_usize x = Z.max 0 (Z.min (2 ^ 64 - 1) (Ztrunc (real x)))) /\
  (forall f hi, In (f, hi) [(f_to_u8, 2 ^ 8 - 1); (f_to_u32, 2 ^ 32 - 1); (f_to_usize, 2 ^ 64 - 1)] ->
    f S754_nan = 0 /\ f (S754_infinity false) = hi /\ f (S754_infinity true) = 0).
Proof.
  split.
  - intros x S. pose proof (single_nan x S) as N. rewrite <- (real_xr x S). singles. repeat split; apply f_to_int_xr; try assumption; lia.
  - intros f hi [E|[E|[E|[]]]]; injection E as <- <-; repeat split; reflexivity.
Qed.
Lemma c92_remainder_proof : forall x y, single x -> single y -> real y <> 0%R ->
  single (frem x y) /\ real (frem x y) = (real x - real y * IZR (Ztrunc (real x / real y)))%R.
Proof.
  intros x y Sx Sy. rewrite <- (real_xr x Sx), <- (real_xr y Sy). singles. intro N. destruct (frem_xr x y) as (A & B & C); try assumption.
  assert (S : single (frem x y)) by (apply single_parts; auto). split; [exact S|]. rewrite <- (real_xr _ S). exact C.
Qed.
Lemma c92_minmax_proof : forall x y, (single x -> single y ->
    (single (fmin x y) /\ real (fmin x y) = Rmin (real x) (real y)) /\ (single (fmax x y) /\ real (fmax x y) = Rmax (real x) (real y))) /\
  fmin x S754_nan = x /\ fmin S754_nan x = x /\ fmax x S754_nan = x /\ fmax S754_nan x = x.
Proof.
  intros x y. split; [|destruct x; repeat split; reflexivity]. intros Sx Sy. destruct (c92_order_proof y x Sy Sx) as (A & _). destruct (c92_order_proof x y Sx Sy) as (B & _).
  assert (M : fmin x y = if flt y x then y else x) by (destruct Sx as [_ Fx], Sy as [_ Fy], x, y; try discriminate Fx; try discriminate Fy; reflexivity).
  assert (N : fmax x y = if flt x y then y else x) by (destruct Sx as [_ Fx], Sy as [_ Fy], x, y; try discriminate Fx; try discriminate Fy; reflexivity).
  rewrite M, N. clear M N. split.
  - destruct (flt y x).
    + split; [exact Sy|]. rewrite Rmin_right; [reflexivity|]. apply Rlt_le. now apply A.
    + split; [exact Sx|]. rewrite Rmin_left; [reflexivity|]. apply Rnot_lt_le. intro L. apply A in L. discriminate L.
  - destruct (flt x y).
    + split; [exact Sy|]. rewrite Rmax_right; [reflexivity|]. apply Rlt_le. now apply B.
    + split; [exact Sx|]. rewrite Rmax_left; [reflexivity|]. apply Rnot_lt_le. intro L. apply B in L. discriminate L.
Qed.
