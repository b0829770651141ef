(** Numbers as text, independently of the functions of Text.v. *)
From Coq Require Import Ascii String ZArith.
Open Scope Z_scope.

(** A decimal digit and its value. *)
Definition digit (c : ascii) (d : Z) : Prop := 0 <= d <= 9 /\ String.get (Z.to_nat d) "0123456789" = Some c.
(** A sequence of digits and the number it denotes. *)
Inductive numeral : string -> Z -> Prop :=
| one_digit c d : digit c d -> numeral (String c "") d
| more_digits s n c d : numeral s n -> digit c d -> numeral (s ++ String c "") (10 * n + d).
(** The number is written with at least [w] digits, and with leading zeros only if it would have fewer. *)
Definition padded (w : nat) (s : string) (n : Z) : Prop :=
  numeral s n /\ (w <= String.length s)%nat /\ ((w < String.length s)%nat -> forall r, s <> String "0" r).
(** The number is written without leading zeros. *)
Definition plain (s : string) (n : Z) : Prop := padded 1 s n.
