(** Text: Rust's strings and the formatting and parsing functions of the standard library that /repo uses.
    A string is the sequence of its UTF-8 bytes; all the characters looked at are ASCII.
    Nothing in this file is specific to one module of /repo. *)
From Coq Require Import ZArith List Bool Ascii String.
From Verif Require Import Base.
Import ListNotations.
Open Scope Z_scope.

Definition digit_char (d : Z) : ascii := ascii_of_nat (48 + Z.to_nat d).
Definition digit_of (c : ascii) : option Z :=
  let n := Z.of_nat (nat_of_ascii c) in if (48 <=? n) && (n <=? 57) then Some (n - 48) else None.

(** [format!("{}", n)] for an unsigned n: the decimal digits, in front of [acc]. *)
Fixpoint dec_digits (fuel : nat) (n : Z) (acc : string) : string :=
  match fuel with
  | O => acc
  | S k => let acc' := String (digit_char (n mod 10)) acc in if n <? 10 then acc' else dec_digits k (n / 10) acc'
  end.
Definition dec (n : Z) : string := dec_digits (S (Z.to_nat (Z.log2 n))) n EmptyString.
(** [format!("{:0w}", n)] *)
Fixpoint zeros (k : nat) : string := match k with O => EmptyString | S k => String "0" (zeros k) end.
Definition dec_pad (w : nat) (n : Z) : string := (zeros (w - String.length (dec n)) ++ dec n)%string.

(** The value of a string of decimal digits; None if another character occurs. *)
Fixpoint digits_value (acc : Z) (s : string) : option Z :=
  match s with
  | EmptyString => Some acc
  | String c r => match digit_of c with Some d => digits_value (acc * 10 + d) r | None => None end
  end.
(** [str::parse::<u8>()] (core::num: an optional leading '+', then one or more digits, no overflow). *)
Definition parse_u8 (s : string) : option Z :=
  let s' := match s with String c r => if Ascii.eqb c "+" then r else s | EmptyString => s end in
  match s' with
  | EmptyString => None
  | _ => match digits_value 0 s' with Some v => if v <=? 255 then Some v else None | None => None end
  end.

(** [str::contains(char)] *)
Fixpoint contains (c : ascii) (s : string) : bool :=
  match s with EmptyString => false | String d r => Ascii.eqb c d || contains c r end.
(** [str::starts_with(char)] *)
Definition starts_with (c : ascii) (s : string) : bool :=
  match s with String d _ => Ascii.eqb c d | EmptyString => false end.
(** [str::split(char)], first piece and the others. *)
Fixpoint split_on (c : ascii) (s : string) : string * list string :=
  match s with
  | EmptyString => (EmptyString, [])
  | String d r => let '(p, ps) := split_on c r in if Ascii.eqb c d then (EmptyString, p :: ps) else (String d p, ps)
  end.
(** [str::trim_end_matches(char)] *)
Fixpoint trim_end (c : ascii) (s : string) : string :=
  match s with
  | EmptyString => EmptyString
  | String d r => match trim_end c r with
                  | EmptyString => if Ascii.eqb c d then EmptyString else String d EmptyString
                  | r' => String d r'
                  end
  end.
(** [slice.contains(&string)] *)
Definition mem (s : string) (l : list string) : bool := existsb (String.eqb s) l.
