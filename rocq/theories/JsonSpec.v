(** The vocabulary of the property about the texts of answers (C81): the grammar of JSON (RFC 8259). *)
From Coq Require Import Ascii String ZArith List Bool.
From Verif Require Import Base TextSpec Utf8Spec FetchModel SwissModel NcTextModel ServiceModel ServiceSpec JsonModel.
Import ListNotations.
Open Scope Z_scope.
Local Open Scope string_scope.

(** White space: spaces, tabs and ends of lines. *)
Inductive blank : string -> Prop :=
| b_none : blank ""
| b_more c s : In c [" "; "009"; "010"; "013"]%char -> blank s -> blank (String c s).
(** Digits, possibly none. *)
Definition digits (s : string) : Prop := s = "" \/ exists n, numeral s n.
(** Numbers: a sign, an integer without leading zeros, a fraction and an exponent. *)
Definition number (t : string) : Prop :=
  exists sign int frac expo, t = sign ++ int ++ frac ++ expo /\ (sign = "" \/ sign = "-") /\
    (int = "0" \/ exists c d r, digit c d /\ d <> 0 /\ digits r /\ int = String c r) /\
    (frac = "" \/ exists r n, numeral r n /\ frac = "." ++ r) /\
    (expo = "" \/ exists e s r n, (e = "e" \/ e = "E") /\ (s = "" \/ s = "+" \/ s = "-") /\ numeral r n /\ expo = e ++ s ++ r).

(** ** Strings *)

(** A hexadecimal digit, four of them, and the number they denote. *)
Definition hex_digit (c : ascii) (d : Z) : Prop := 0 <= d <= 15 /\ (String.get (Z.to_nat d) "0123456789abcdef" = Some c \/ String.get (Z.to_nat d) "0123456789ABCDEF" = Some c).
Definition hex_number (s : string) (n : Z) : Prop :=
  exists a b c d w x y z, s = String a (String b (String c (String d ""))) /\ hex_digit a w /\ hex_digit b x /\ hex_digit c y /\ hex_digit d z /\
    n = 4096 * w + 256 * x + 16 * y + z.
(** The letter after a backslash and the character it stands for. *)
Definition letter_escapes : list (ascii * ascii) :=
  [("034", "034"); ("\", "\"); ("/", "/"); ("b", "008"); ("f", "012"); ("n", "010"); ("r", "013"); ("t", "009")]%char.
(** Characters that stand for themselves: all but control characters, the quotation mark and the backslash. *)
Definition ordinary_char (c : ascii) : Prop := 32 <= code c /\ c <> "034"%char /\ c <> "\"%char.
(** What is between quotation marks, and the text that it stands for.  The two halves of a character above FFFF follow each other. *)
Inductive spells : string -> string -> Prop :=
| sp_end : spells "" ""
| sp_char c t s : ordinary_char c -> spells t s -> spells (String c t) (String c s)
| sp_letter e v t s : In (e, v) letter_escapes -> spells t s -> spells (String "\" (String e t)) (String v s)
| sp_code h n t s : hex_number h n -> scalar n -> spells t s -> spells ("\u" ++ h ++ t) (str_of (utf8 n) ++ s)
| sp_pair h n h' n' t s : hex_number h n -> hex_number h' n' -> 55296 <= n <= 56319 -> 56320 <= n' <= 57343 -> spells t s ->
    spells ("\u" ++ h ++ "\u" ++ h' ++ t) (str_of (utf8 (65536 + 1024 * (n - 55296) + (n' - 56320))) ++ s).
(** It stands for a text of Unicode characters. *)
Definition string_denotes (t s : string) : Prop := spells t s /\ is_text (bytes_of s).
(** It has the form of a string, whatever it stands for. *)
Inductive string_form : string -> Prop :=
| sf_end : string_form ""
| sf_char c t : ordinary_char c -> string_form t -> string_form (String c t)
| sf_letter e v t : In (e, v) letter_escapes -> string_form t -> string_form (String "\" (String e t))
| sf_code h n t : hex_number h n -> string_form t -> string_form ("\u" ++ h ++ t).

(** ** Values *)

Section Grammar.
  (** The meaning of strings and which numbers there are. *)
  Variables (str : string -> string -> Prop) (num : string -> Prop).
  Definition in_quotes (t : string) : string := String "034" (t ++ String "034" "").
  Inductive denotes : string -> json -> Prop :=
  | d_null : denotes "null" JNull
  | d_true : denotes "true" (JBool true)
  | d_false : denotes "false" (JBool false)
  | d_number t : number t -> num t -> denotes t (JNumber t)
  | d_string t s : str t s -> denotes (in_quotes t) (JString s)
  | d_empty_array w : blank w -> denotes ("[" ++ w ++ "]") (JArray [])
  | d_array t l : elements t l -> denotes ("[" ++ t ++ "]") (JArray l)
  | d_empty_object w : blank w -> denotes ("{" ++ w ++ "}") (JObject [])
  | d_object t l : members t l -> denotes ("{" ++ t ++ "}") (JObject l)
  with elements : string -> list json -> Prop :=
  | e_one w t w' j : blank w -> denotes t j -> blank w' -> elements (w ++ t ++ w') [j]
  | e_more w t w' j r l : blank w -> denotes t j -> blank w' -> elements r l -> elements (w ++ t ++ w' ++ "," ++ r) (j :: l)
  with members : string -> list (string * json) -> Prop :=
  | m_one w k name w1 w2 t w' j : blank w -> str k name -> blank w1 -> blank w2 -> denotes t j -> blank w' ->
      members (w ++ in_quotes k ++ w1 ++ ":" ++ w2 ++ t ++ w') [(name, j)]
  | m_more w k name w1 w2 t w' j r l : blank w -> str k name -> blank w1 -> blank w2 -> denotes t j -> blank w' -> members r l ->
      members (w ++ in_quotes k ++ w1 ++ ":" ++ w2 ++ t ++ w' ++ "," ++ r) ((name, j) :: l).
  (** The whole text: a value with white space around it. *)
  Definition stands_for (text : string) (j : json) : Prop := exists w t w', text = w ++ t ++ w' /\ blank w /\ denotes t j /\ blank w'.
End Grammar.
(** The text is JSON and stands for the value. *)
Definition json_text_of (representable : string -> bool) : string -> json -> Prop := stands_for string_denotes (fun t => representable t = true).
(** The text has the form of JSON, whatever its strings and numbers stand for. *)
Definition json_form (text : string) : Prop := exists j, stands_for (fun t _ => string_form t) (fun _ => True) text j.

(** How deep arrays and objects are nested. *)
Fixpoint nesting (j : json) : nat :=
  match j with
  | JArray l => S (list_max (map nesting l))
  | JObject ms => S (list_max (map (fun m => nesting (snd m)) ms))
  | _ => 0
  end.
(** A value that can be written: its strings are texts and its numbers numbers. *)
Inductive writable (representable : string -> bool) : json -> Prop :=
| w_null : writable representable JNull
| w_bool b : writable representable (JBool b)
| w_number t : number t -> representable t = true -> writable representable (JNumber t)
| w_string s : is_text (bytes_of s) -> writable representable (JString s)
| w_array l : Forall (writable representable) l -> writable representable (JArray l)
| w_object ms : Forall (fun m => is_text (bytes_of (fst m)) /\ writable representable (snd m)) ms -> writable representable (JObject ms).

(** What is made of the text of an answer: if it stands for a value, then what this value says; if it is not JSON, it is refused.
    (Of a text in between, such as one with half a character or with more than 127 arrays in each other, nothing is said here.) *)
Definition answer_decoded {A} (representable : string -> bool) (says : json -> A -> Prop) (answer : outcome string) (o : outcome A) : Prop :=
  match answer with
  | Ok text => (forall j, json_text_of representable text j -> (nesting j <= 127)%nat -> decoded says (Ok j) o) /\ (~ json_form text -> o = Err EInvalid)
  | Err e => o = Err e
  | Panic => o = Panic
  end.
(** A member that is there if there is a value, and not there otherwise. *)
Definition may_have (ms : list (string * json)) (name : string) (v : option string) : Prop :=
  match v with Some s => has_member ms name (JString s) | None => forall m, In m ms -> fst m <> name end.
Definition text_of_optional (v : option string) : Prop := match v with Some s => is_text (bytes_of s) | None => True end.
