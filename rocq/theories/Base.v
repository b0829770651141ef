(** Common vocabulary of the model: outcomes of Rust calls, byte readers,
    machine integers.  Nothing in this file is specific to one module of /repo. *)
From Coq Require Import ZArith List Bool Lia.
Import ListNotations.
Open Scope Z_scope.

(** Error values of the Rust code, by kind only; the texts are not modelled.
    (src/grib2/common/grib2_error.rs:5-21, src/netcdf/common/netcdf_error.rs,
    src/imaging/imaging_error.rs:4-11.) *)
Inductive err := EInvalid | EIo | EUtf8.

(** Outcome of a Rust call: [Ok]/[Err] is the returned [Result], [Panic] an unwinding panic. *)
Inductive outcome (A : Type) := Ok (a : A) | Err (e : err) | Panic.
Arguments Ok {A} a.
Arguments Err {A} e.
Arguments Panic {A}.

Definition obind {A B} (m : outcome A) (k : A -> outcome B) : outcome B :=
  match m with Ok a => k a | Err e => Err e | Panic => Panic end.

Definition omap {A B} (f : A -> B) (m : outcome A) : outcome B :=
  match m with Ok a => Ok (f a) | Err e => Err e | Panic => Panic end.

(** A stream implementing [std::io::Read] is the list of the bytes not read yet.
    Only end-of-file makes a read fail; other I/O errors are not modelled. *)
Definition bytes := list Z.
Definition is_byte (b : Z) : Prop := 0 <= b < 256.
Definition reader (A : Type) := bytes -> outcome (A * bytes).

Definition ret {A} (a : A) : reader A := fun bs => Ok (a, bs).
Definition fail {A} (e : err) : reader A := fun _ => Err e.
Definition rpanic {A} : reader A := fun _ => Panic.
Definition bind {A B} (m : reader A) (k : A -> reader B) : reader B :=
  fun bs => match m bs with Ok (a, rest) => k a rest | Err e => Err e | Panic => Panic end.

Notation "x <- m ;; k" := (bind m (fun x => k)) (at level 61, m at next level, right associativity).
Notation "m ;;; k" := (bind m (fun _ => k)) (at level 61, right associativity).

(** Largest allocation Rust accepts, in bytes (isize::MAX on a 64-bit target);
    [vec![0; n]] panics with "capacity overflow" beyond it. *)
Definition isize_max : Z := 9223372036854775807.

(** [reader.read_exact] into a fresh buffer of [n] bytes. *)
Definition take_bytes (n : Z) : reader bytes := fun bs =>
  if n >? isize_max then Panic
  else if n <=? Z.of_nat (length bs)
  then Ok (firstn (Z.to_nat n) bs, skipn (Z.to_nat n) bs)
  else Err EIo.

(** Big-endian value of a list of bytes (byteorder's BigEndian). *)
Fixpoint be_acc (acc : Z) (bs : bytes) : Z :=
  match bs with [] => acc | b :: r => be_acc (acc * 256 + b) r end.
Definition be_value (bs : bytes) : Z := be_acc 0 bs.

(** byteorder [read_u8/u16/u24/u32/u64/u128::<BigEndian>]: [n] is the width in bytes. *)
Definition read_be (n : Z) : reader Z := b <- take_bytes n ;; ret (be_value b).
Definition read_u8 : reader Z := read_be 1.
Definition read_u16 : reader Z := read_be 2.
Definition read_u24 : reader Z := read_be 3.
Definition read_u32 : reader Z := read_be 4.
Definition read_u64 : reader Z := read_be 8.
Definition read_u128 : reader Z := read_be 16.
(** [read_i8], [read_i16], ...: two's complement reinterpretation of the unsigned value. *)
Definition to_signed (bits v : Z) : Z := if v <? 2 ^ (bits - 1) then v else v - 2 ^ bits.
Definition read_i8 : reader Z := v <- read_u8 ;; ret (to_signed 8 v).
Definition read_i16 : reader Z := v <- read_u16 ;; ret (to_signed 16 v).
Definition read_i32 : reader Z := v <- read_u32 ;; ret (to_signed 32 v).

(** Splits a buffer into groups of [k] bytes and decodes each one
    (byteorder [read_u16_into], [read_f32_into]). *)
Fixpoint chunks (fuel : nat) (k : nat) (bs : bytes) : list bytes :=
  match fuel with
  | O => []
  | S f => match bs with [] => [] | _ => firstn k bs :: chunks f k (skipn k bs) end
  end.
Definition read_be_into (k : Z) (count : Z) : reader (list Z) :=
  b <- take_bytes (k * count) ;; ret (map be_value (chunks (length b) (Z.to_nat k) b)).

(** Unsigned subtraction [a - b] in a type of [bits] bits: with overflow checks
    ([chk = true], the dev and test profiles) an underflow panics, without them
    ([chk = false], the release profile) it wraps. *)
Definition usub (chk : bool) (bits a b : Z) : outcome Z :=
  if b <=? a then Ok (a - b) else if chk then Panic else Ok (a - b + 2 ^ bits).
(** The result [r] of an unsigned addition or multiplication in a type of [bits] bits, likewise. *)
Definition uwrap (chk : bool) (bits r : Z) : outcome Z :=
  if r <? 2 ^ bits then Ok r else if chk then Panic else Ok (r mod 2 ^ bits).
Definition lift {A} (m : outcome A) : reader A :=
  fun bs => match m with Ok a => Ok (a, bs) | Err e => Err e | Panic => Panic end.

(** [std::str::from_utf8]: well-formed UTF-8 byte sequences (RFC 3629, table 3-7 of the
    Unicode standard). *)
Definition in_range (lo hi b : Z) : bool := (lo <=? b) && (b <=? hi).
Fixpoint utf8_valid (l : bytes) : bool :=
  match l with
  | [] => true
  | b0 :: r0 =>
    if in_range 0 127 b0 then utf8_valid r0
    else match r0 with
    | [] => false
    | b1 :: r1 =>
      if in_range 194 223 b0 then in_range 128 191 b1 && utf8_valid r1
      else match r1 with
      | [] => false
      | b2 :: r2 =>
        if (b0 =? 224) then in_range 160 191 b1 && in_range 128 191 b2 && utf8_valid r2
        else if in_range 225 236 b0 || in_range 238 239 b0
             then in_range 128 191 b1 && in_range 128 191 b2 && utf8_valid r2
        else if (b0 =? 237) then in_range 128 159 b1 && in_range 128 191 b2 && utf8_valid r2
        else match r2 with
        | [] => false
        | b3 :: r3 =>
          (if (b0 =? 240) then in_range 144 191 b1
           else if in_range 241 243 b0 then in_range 128 191 b1
           else if (b0 =? 244) then in_range 128 143 b1 else false)
          && in_range 128 191 b2 && in_range 128 191 b3 && utf8_valid r3
        end
      end
    end
  end.

(** Equality test on byte lists (String equality). *)
Fixpoint bytes_eqb (a b : bytes) : bool :=
  match a, b with
  | [], [] => true
  | x :: a', y :: b' => (x =? y) && bytes_eqb a' b'
  | _, _ => false
  end.
