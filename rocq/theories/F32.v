(** Rust's [f32] and [f64] as the executable IEEE-754 specification of the Coq standard
    library ([Coq.Floats.SpecFloat]).  Rust's f32/f64 arithmetic is IEEE-754 binary32/64 with
    round-to-nearest-even; NaN payloads are not modelled (they are never observed by /repo). *)
From Coq Require Import ZArith List Bool.
From Coq Require Import Floats.SpecFloat.
From Verif Require Import Base.
Open Scope Z_scope.

Definition f32 := spec_float.
Definition f64 := spec_float.

(** The values of [spec_float] that are binary32 (resp. binary64) values. *)
Definition f32_valid (x : f32) : Prop := valid_binary 24 128 x = true.
Definition f64_valid (x : f64) : Prop := valid_binary 53 1024 x = true.

Definition fadd (x y : f32) : f32 := SFadd 24 128 x y.
Definition fsub (x y : f32) : f32 := SFsub 24 128 x y.
Definition fmul (x y : f32) : f32 := SFmul 24 128 x y.
Definition fdiv (x y : f32) : f32 := SFdiv 24 128 x y.
Definition fsqrt (x : f32) : f32 := SFsqrt 24 128 x.
Definition feq (x y : f32) : bool := SFeqb x y.
Definition flt (x y : f32) : bool := SFltb x y.
Definition fle (x y : f32) : bool := SFleb x y.
Definition fgt (x y : f32) : bool := SFltb y x.
Definition fge (x y : f32) : bool := SFleb y x.
Definition dmul (x y : f64) : f64 := SFmul 53 1024 x y.
Definition ddiv (x y : f64) : f64 := SFdiv 53 1024 x y.

Definition fnan : f32 := S754_nan.
Definition fzero : f32 := S754_zero false.

(** [z as f32] for an integer [z] (u8, u16, u32, usize ...): correctly rounded. *)
Definition f32_of_Z (z : Z) : f32 := binary_normalize 24 128 z 0 false.
(** The literal [p/q] for integers p, q exactly representable (every decimal literal in /repo
    is written in this form in the model, e.g. 273.15 = 27315/100; rustc rounds literals
    correctly, and so does this division). *)
Definition f32_lit (p q : Z) : f32 := fdiv (f32_of_Z p) (f32_of_Z q).

(** [x as f32] for [x : f64]. *)
Definition f32_of_f64 (x : f64) : f32 :=
  match x with
  | S754_finite s m e => binary_normalize 24 128 (cond_Zopp s (Zpos m)) e s
  | other => other
  end.

(** [f32::from_bits] / byteorder [read_f32]: the IEEE-754 interchange format, generalised over
    the number of fraction bits [mw] and exponent bits [ew] (23/8 and 52/11). *)
Definition float_of_bits (mw ew : Z) (b : Z) : spec_float :=
  let m := b mod 2 ^ mw in
  let e := (b / 2 ^ mw) mod 2 ^ ew in
  let s := 1 <=? b / 2 ^ (mw + ew) in
  let bias := 2 ^ (ew - 1) - 1 in
  if e =? 0 then
    match m with Zpos p => S754_finite s p (1 - bias - mw) | _ => S754_zero s end
  else if e =? 2 ^ ew - 1 then
    (if m =? 0 then S754_infinity s else S754_nan)
  else match m + 2 ^ mw with Zpos p => S754_finite s p (e - bias - mw) | _ => S754_nan end.
Definition f32_of_bits : Z -> f32 := float_of_bits 23 8.
Definition f64_of_bits : Z -> f64 := float_of_bits 52 11.

(** Integer parts of a finite float, as exact integers. *)
Definition sf_trunc (s : bool) (m : positive) (e : Z) : Z :=
  cond_Zopp s (if 0 <=? e then Zpos m * 2 ^ e else Zpos m / 2 ^ (- e)).
Definition sf_floor (s : bool) (m : positive) (e : Z) : Z :=
  if 0 <=? e then cond_Zopp s (Zpos m) * 2 ^ e else cond_Zopp s (Zpos m) / 2 ^ (- e).
Definition sf_ceil (s : bool) (m : positive) (e : Z) : Z := - sf_floor (negb s) m e.
(** Round half away from zero ([f32::round]). *)
Definition sf_round (s : bool) (m : positive) (e : Z) : Z :=
  cond_Zopp s (if 0 <=? e then Zpos m * 2 ^ e
               else (2 * Zpos m + 2 ^ (- e)) / (2 * 2 ^ (- e))).

Definition f_integral (g : bool -> positive -> Z -> Z) (x : f32) : f32 :=
  match x with
  | S754_finite s m e =>
      if 0 <=? e then x else binary_normalize 24 128 (g s m e) 0 s
  | other => other
  end.
(** [f32::floor], [f32::ceil], [f32::round]. *)
Definition ffloor : f32 -> f32 := f_integral sf_floor.
Definition fceil : f32 -> f32 := f_integral sf_ceil.
Definition fround : f32 -> f32 := f_integral sf_round.

(** [x as u8] etc.: truncates towards zero and saturates; NaN becomes 0. *)
Definition f_to_int (lo hi : Z) (x : f32) : Z :=
  match x with
  | S754_nan => 0
  | S754_zero _ => 0
  | S754_infinity s => if s then lo else hi
  | S754_finite s m e => Z.max lo (Z.min hi (sf_trunc s m e))
  end.
Definition f_to_u8 : f32 -> Z := f_to_int 0 255.
Definition f_to_u32 : f32 -> Z := f_to_int 0 4294967295.
Definition f_to_usize : f32 -> Z := f_to_int 0 18446744073709551615.
Definition f_to_i32 : f32 -> Z := f_to_int (-2147483648) 2147483647.

(** [f32::min], [f32::max]: the other operand if one is NaN. *)
Definition fmin (x y : f32) : f32 :=
  match x, y with
  | S754_nan, _ => y
  | _, S754_nan => x
  | _, _ => if flt y x then y else x
  end.
Definition fmax (x y : f32) : f32 :=
  match x, y with
  | S754_nan, _ => y
  | _, S754_nan => x
  | _, _ => if flt x y then y else x
  end.

(** [x % y]: exact remainder with the sign of [x] (C's fmodf). *)
Definition frem (x y : f32) : f32 :=
  match x, y with
  | S754_finite sx mx ex, S754_finite _ my ey =>
      let e := Z.min ex ey in
      binary_normalize 24 128
        (cond_Zopp sx ((Zpos mx * 2 ^ (ex - e)) mod (Zpos my * 2 ^ (ey - e)))) e sx
  | S754_zero _, S754_finite _ _ _ => x
  | S754_zero _, S754_infinity _ => x
  | S754_finite _ _ _, S754_infinity _ => x
  | _, _ => S754_nan
  end.
(** [f32::rem_euclid]: [let r = self % rhs; if r < 0.0 { r + rhs.abs() } else { r }]. *)
Definition frem_euclid (x y : f32) : f32 :=
  let r := frem x y in if flt r fzero then fadd r (SFabs y) else r.

Definition fis_finite (x : f32) : bool :=
  match x with S754_finite _ _ _ | S754_zero _ => true | _ => false end.
Definition fis_nan (x : f32) : bool := match x with S754_nan => true | _ => false end.
