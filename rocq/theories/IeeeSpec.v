(** Floating-point numbers by the standard IEEE 754 (C92): the reals they stand for and the rounding of real numbers, in the terms of
    Flocq, independently of the operations of F32.v. *)
From Coq Require Import ZArith Reals.
From Coq Require Import Floats.SpecFloat.
From Flocq Require Import Core.Core IEEE754.BinarySingleNaN.
Open Scope Z_scope.

#[export] Instance prec53 : Prec_gt_0 53 := eq_refl.
#[export] Instance emax1024 : Prec_lt_emax 53 1024 := eq_refl.

(** A number of a format with [prec] bits of precision and exponents below [emax]: binary32 has 24 and 128, binary64 has 53 and 1024. *)
Definition number (prec emax : Z) (x : spec_float) : Prop := valid_binary prec emax x = true /\ is_finite_SF x = true.
Definition single : spec_float -> Prop := number 24 128.
Definition double : spec_float -> Prop := number 53 1024.
Definition real (x : spec_float) : R := SF2R radix2 x.
(** The real nearest to [r] that has 24 bits of precision and is a multiple of 2^-149, the one with the even last bit if there are two. *)
Definition nearest (r : R) : R := round radix2 (FLT_exp (-149) 24) ZnearestE r.
(** [z] is the result of an operation whose exact result is [r]: the nearest number, or an infinity if that is too large. *)
Definition correctly_rounded (z : spec_float) (r : R) : Prop :=
  if Rlt_bool (Rabs (nearest r)) (bpow radix2 128) then single z /\ real z = nearest r
  else z = S754_infinity (Rlt_bool r 0).
(** The integer nearest to [r], halves away from zero. *)
Definition half_away (r : R) (z : Z) : Prop := (Rabs (r - IZR z) < / 2 \/ (Rabs (r - IZR z) = / 2 /\ Rabs r < Rabs (IZR z)))%R.
