(** The property about floating-point numbers (C92). *)
From Coq Require Import ZArith Reals List Bool Lia Lra.
From Coq Require Import Floats.SpecFloat.
From Flocq Require Import Core.Core IEEE754.BinarySingleNaN.
From Flocq Require IEEE754.Binary IEEE754.Bits.
From Verif Require Import Base F32 F32Facts Grib2Model Grib2Spec IeeeSpec IeeeProofs.
Import ListNotations.
Open Scope Z_scope.

(** C92.  The four or eight bytes of a number in a file are read as IEEE 754 says (Flocq's definition). *)
Theorem C92_single : forall b, 0 <= b < 2 ^ 32 -> f32_of_bits b = Binary.B2SF 24 128 (Bits.b32_of_bits b).
Proof. exact c92_single_proof. Qed.
Print Assumptions C92_single.
Theorem C92_double : forall b, 0 <= b < 2 ^ 64 -> f64_of_bits b = Binary.B2SF 53 1024 (Bits.b64_of_bits b).
Proof. exact c92_double_proof. Qed.
Print Assumptions C92_double.
(** C92.  So is the reference value of a packed field. *)
Theorem C92_reference : forall bs t rest, Forall is_byte bs -> read_template5_0 bs = Ok (t, rest) ->
  exists b0 b1 b2 b3 more, bs = b0 :: b1 :: b2 :: b3 :: more /\
    t50_reference t = Binary.B2SF 24 128 (Bits.b32_of_bits (b0 * 2 ^ 24 + b1 * 2 ^ 16 + b2 * 2 ^ 8 + b3)).
Proof. exact c92_reference_proof. Qed.
Print Assumptions C92_reference.
(** C92.  The operations of the model on numbers give the exact result, correctly rounded. *)
Theorem C92_rounding : forall x y, single x -> single y ->
  correctly_rounded (fadd x y) (real x + real y) /\ correctly_rounded (fsub x y) (real x - real y) /\ correctly_rounded (fmul x y) (real x * real y) /\
  (real y <> 0%R -> correctly_rounded (fdiv x y) (real x / real y)) /\ ((0 <= real x)%R -> correctly_rounded (fsqrt x) (R_sqrt.sqrt (real x))).
Proof. exact c92_rounding_proof. Qed.
Print Assumptions C92_rounding.
(** C92.  On all values, also infinities and NaN, they are the operations of IEEE 754 (Flocq's definitions). *)
Theorem C92_operations : forall x y : binary_float 24 128,
  fadd (B2SF x) (B2SF y) = B2SF (Bplus mode_NE x y) /\ fsub (B2SF x) (B2SF y) = B2SF (Bminus mode_NE x y) /\
  fmul (B2SF x) (B2SF y) = B2SF (Bmult mode_NE x y) /\ fdiv (B2SF x) (B2SF y) = B2SF (Bdiv mode_NE x y) /\
  fsqrt (B2SF x) = B2SF (Bsqrt mode_NE x).
Proof. exact c92_operations_proof. Qed.
Print Assumptions C92_operations.
Theorem C92_product : forall x y : binary_float 53 1024, dmul (B2SF x) (B2SF y) = B2SF (Bmult mode_NE x y).
Proof. exact c92_product_proof. Qed.
Print Assumptions C92_product.
(** C92.  Integers and doubles become the nearest number. *)
Theorem C92_from : (forall z, correctly_rounded (f32_of_Z z) (IZR z)) /\ (forall x, double x -> correctly_rounded (f32_of_f64 x) (real x)).
Proof. exact c92_from_proof. Qed.
Print Assumptions C92_from.
(** C92.  Comparisons are those of the reals; with NaN they are false, and the infinities are beyond all numbers. *)
Theorem C92_order : forall x y, single x -> single y ->
  (flt x y = true <-> (real x < real y)%R) /\ (fle x y = true <-> (real x <= real y)%R) /\ (feq x y = true <-> real x = real y) /\
  (fgt x y = true <-> (real x > real y)%R) /\ (fge x y = true <-> (real x >= real y)%R).
Proof. exact c92_order_proof. Qed.
Print Assumptions C92_order.
Theorem C92_special_order : forall x,
  (flt x S754_nan = false /\ flt S754_nan x = false /\ fle x S754_nan = false /\ fle S754_nan x = false /\ feq x S754_nan = false /\ feq S754_nan x = false) /\
  (single x -> flt x (S754_infinity false) = true /\ flt (S754_infinity true) x = true /\ flt (S754_infinity false) x = false /\ flt x (S754_infinity true) = false).
Proof. exact c92_special_order_proof. Qed.
Print Assumptions C92_special_order.
(** C92.  floor, ceil and round. *)
Theorem C92_integers : forall x, single x ->
  (single (ffloor x) /\ real (ffloor x) = IZR (Zfloor (real x))) /\ (single (fceil x) /\ real (fceil x) = IZR (Zceil (real x))) /\
  (single (fround x) /\ exists z, half_away (real x) z /\ real (fround x) = IZR z).
Proof. exact c92_integers_proof. Qed.
Print Assumptions C92_integers.
(** C92.  [as u8], [as u32] and [as usize]. *)
Theorem C92_casts :
  (forall x, single x -> f_to_u8 x = Z.max 0 (Z.min (2 ^ 8 - 1) (Ztrunc (real x))) /\ f_to_u32 x = Z.max 0 (Z.min (2 ^ 32 - 1) (Ztrunc (real x))) /\
    f_to_usize x = Z.max 0 (Z.min (2 ^ 64 - 1) (Ztrunc (real x)))) /\
  (forall f hi, In (f, hi) [(f_to_u8, 2 ^ 8 - 1); (f_to_u32, 2 ^ 32 - 1); (f_to_usize, 2 ^ 64 - 1)] ->
    f S754_nan = 0 /\ f (S754_infinity false) = hi /\ f (S754_infinity true) = 0).
Proof. exact c92_casts_proof. Qed.
Print Assumptions C92_casts.
(** C92.  [x % y], min and max. *)
Theorem C92_remainder : forall x y, single x -> single y -> real y <> 0%R ->
  single (frem x y) /\ real (frem x y) = (real x - real y * IZR (Ztrunc (real x / real y)))%R.
Proof. exact c92_remainder_proof. Qed.
Print Assumptions C92_remainder.
Theorem C92_minmax : forall x y, (single x -> single y ->
    (single (fmin x y) /\ real (fmin x y) = Rmin (real x) (real y)) /\ (single (fmax x y) /\ real (fmax x y) = Rmax (real x) (real y))) /\
  fmin x S754_nan = x /\ fmin S754_nan x = x /\ fmax x S754_nan = x /\ fmax S754_nan x = x.
Proof. exact c92_minmax_proof. Qed.
Print Assumptions C92_minmax.

(** The double nearest to pi, a single and the smallest single. *)
Example C92_double_sample : f64_of_bits 4614256656552045848 = S754_finite false 7074237752028440 (-51) /\ double (f64_of_bits 4614256656552045848).
Proof. split; [vm_compute; reflexivity|]. split; vm_compute; reflexivity. Qed.
Example C92_single_sample : f32_of_bits 3221225472 = S754_finite true 8388608 (-22) /\ real (f32_of_bits 3221225472) = (-2)%R /\ f32_of_bits 1 = S754_finite false 1 (-149) /\ single (f32_of_bits 3221225472) /\ single (f32_of_bits 1).
Proof.
  split; [vm_compute; reflexivity|]. split; [|split; [vm_compute; reflexivity|split; split; vm_compute; reflexivity]].
  replace (f32_of_bits 3221225472) with (S754_finite true 8388608 (-22)) by (vm_compute; reflexivity). unfold real, SF2R, F2R. cbn. lra.
Qed.
Example C92_reference_sample : exists t, read_template5_0 [192; 0; 0; 0; 0; 1; 128; 2; 16; 0] = Ok (t, []) /\
  Forall is_byte [192; 0; 0; 0; 0; 1; 128; 2; 16; 0] /\ t50_reference t = f32_of_bits 3221225472.
Proof. eexists. split; [vm_compute; reflexivity|]. split; [repeat constructor; unfold is_byte; lia|]. vm_compute. reflexivity. Qed.
