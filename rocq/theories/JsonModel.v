(** Model of how the text of an answer becomes a JSON value: the crate serde_json 1.0.143, whose [from_reader] is behind
    [read_json] in /repo/src/meteo_swiss/data_geo_admin_ch/icon_ch_forecast_search_service.rs:25-28 and
    icon_ch_assets_service.rs:14-17.  The crate is not in /repo; the model follows its published source (read.rs and de.rs).
    Simplification: the crate reads straight into the records, and in members that no record has it accepts a little more
    (strings that are not UTF-8 or have half of a surrogate pair, numbers out of range, any depth); the model does not.
    A text is the string of its bytes. *)
From Coq Require Import Ascii String ZArith List Bool.
From Verif Require Import Base Text FetchModel SwissModel NcTextModel ServiceModel RfcModel.
Import ListNotations.
Open Scope Z_scope.

Definition code (c : ascii) : Z := Z.of_nat (nat_of_ascii c).
Definition bytes_of (s : string) : bytes := map code (list_ascii_of_string s).

(** ** Pieces *)

(** de.rs, parse_whitespace *)
Definition is_blank (c : ascii) : bool := (code c =? 32) || (code c =? 10) || (code c =? 9) || (code c =? 13).
Fixpoint skip_blanks (s : string) : string :=
  match s with String c r => if is_blank c then skip_blanks r else s | EmptyString => EmptyString end.
(** The digits at the beginning, and the rest. *)
Fixpoint span_digits (s : string) : string * string :=
  match s with
  | String c r => match digit_of c with Some _ => let '(a, b) := span_digits r in (String c a, b) | None => (EmptyString, s) end
  | EmptyString => (EmptyString, EmptyString)
  end.
Definition some_digits (s : string) : option (string * string) :=
  match span_digits s with (EmptyString, _) => None | (ds, r) => Some (ds, r) end.
(** de.rs, parse_integer: no zero in front of other digits. *)
Definition read_int (s : string) : option (string * string) :=
  match s with
  | EmptyString => None
  | String c r =>
      match digit_of c with
      | None => None
      | Some 0 => match span_digits r with (EmptyString, _) => Some (String c EmptyString, r) | _ => None end
      | Some _ => let '(ds, r') := span_digits r in Some (String c ds, r')
      end
  end.
(** An optional sign or letter. *)
Definition maybe (l : list string) (s : string) : string * string :=
  match strip_one (map (fun p => (p, p)) l) s with Some (p, r) => (p, r) | None => (EmptyString, s) end.
(** de.rs, parse_decimal and parse_exponent *)
Definition read_fraction (s : string) : option (string * string) :=
  match strip "." s with
  | Some r => bind (some_digits r) (fun '(ds, r) => Some (("." ++ ds)%string, r))
  | None => Some (EmptyString, s)
  end.
Definition read_exponent (s : string) : option (string * string) :=
  match maybe ["e"; "E"]%string s with
  | (EmptyString, _) => Some (EmptyString, s)
  | (e, r) => let '(sign, r) := maybe ["+"; "-"]%string r in bind (some_digits r) (fun '(ds, r) => Some ((e ++ sign ++ ds)%string, r))
  end.
(** The text of a number. *)
Definition read_number (s : string) : option (string * string) :=
  let '(sign, s) := maybe ["-"]%string s in
  bind (read_int s) (fun '(i, s) => bind (read_fraction s) (fun '(f, s) => bind (read_exponent s) (fun '(e, s) =>
    Some ((sign ++ i ++ f ++ e)%string, s)))).

(** read.rs, decode_four_hex_digits *)
Definition hex_value (c : ascii) : option Z :=
  let n := code c in
  if (48 <=? n) && (n <=? 57) then Some (n - 48) else if (65 <=? n) && (n <=? 70) then Some (n - 55)
  else if (97 <=? n) && (n <=? 102) then Some (n - 87) else None.
Definition hex4 (a b c d : ascii) : option Z :=
  bind (hex_value a) (fun a => bind (hex_value b) (fun b => bind (hex_value c) (fun c => bind (hex_value d) (fun d =>
    Some (((a * 16 + b) * 16 + c) * 16 + d))))).
(** read.rs, push_wtf8_codepoint: the UTF-8 bytes of a character. *)
Definition push_char (n : Z) : string :=
  str_of (if n <? 0x80 then [n]
          else if n <? 0x800 then [0xC0 + n / 2 ^ 6; 0x80 + n mod 2 ^ 6]
          else if n <? 0x10000 then [0xE0 + n / 2 ^ 12; 0x80 + n / 2 ^ 6 mod 2 ^ 6; 0x80 + n mod 2 ^ 6]
          else [0xF0 + n / 2 ^ 18; 0x80 + n / 2 ^ 12 mod 2 ^ 6; 0x80 + n / 2 ^ 6 mod 2 ^ 6; 0x80 + n mod 2 ^ 6]).
(** read.rs, parse_escape: the escapes of one character. *)
Definition simple_escape (c : ascii) : option ascii :=
  let n := code c in
  if n =? 34 then Some c else if n =? 92 then Some c else if n =? 47 then Some c
  else if n =? 98 then Some (ascii_of_nat 8) else if n =? 102 then Some (ascii_of_nat 12) else if n =? 110 then Some (ascii_of_nat 10)
  else if n =? 114 then Some (ascii_of_nat 13) else if n =? 116 then Some (ascii_of_nat 9) else None.
Definition prepend (p : string) (o : option (string * string)) : option (string * string) := bind o (fun '(t, r) => Some ((p ++ t)%string, r)).
Definition is_high (n : Z) : bool := (0xD800 <=? n) && (n <=? 0xDBFF).
Definition is_low (n : Z) : bool := (0xDC00 <=? n) && (n <=? 0xDFFF).
(** read.rs, parse_str_bytes, parse_escape and parse_unicode_escape: what is between the quotation marks, and the rest. *)
Fixpoint read_body (s : string) : option (string * string) :=
  match s with
  | EmptyString => None
  | String c r =>
      if code c =? 34 then Some (EmptyString, r)
      else if code c =? 92 then
        match r with
        | EmptyString => None
        | String e r1 =>
            if code e =? 117 then
              match r1 with
              | String a1 (String a2 (String a3 (String a4 r2))) =>
                  match hex4 a1 a2 a3 a4 with
                  | None => None
                  | Some n =>
                      if is_low n then None
                      else if is_high n then
                        match r2 with
                        | String x (String y (String b1 (String b2 (String b3 (String b4 r3))))) =>
                            if (code x =? 92) && (code y =? 117) then
                              match hex4 b1 b2 b3 b4 with
                              | None => None
                              | Some m => if is_low m then prepend (push_char (0x10000 + (n - 0xD800) * 0x400 + (m - 0xDC00))) (read_body r3) else None
                              end
                            else None
                        | _ => None
                        end
                      else prepend (push_char n) (read_body r2)
                  end
              | _ => None
              end
            else match simple_escape e with Some v => prepend (String v EmptyString) (read_body r1) | None => None end
        end
      else if code c <? 32 then None
      else prepend (String c EmptyString) (read_body r)
  end.
(** ... which must be UTF-8. *)
Definition read_string (s : string) : option (string * string) :=
  bind (read_body s) (fun '(t, r) => if utf8_valid (bytes_of t) then Some (t, r) else None).

(** ** Values *)

Section Read.
  (** Can the number be represented (is it not out of the range of f64)? *)
  Variable representable : string -> bool.
  (** de.rs, deserialize_any and the readers of sequences and maps.  The fuel bounds the recursion; [depth] is the remaining depth. *)
  Fixpoint read_value (fuel depth : nat) (s : string) {struct fuel} : option (json * string) :=
    match fuel with
    | O => None
    | S f =>
        match skip_blanks s with
        | EmptyString => None
        | String c r as s =>
            if code c =? 110 then bind (strip "null" s) (fun r => Some (JNull, r))
            else if code c =? 116 then bind (strip "true" s) (fun r => Some (JBool true, r))
            else if code c =? 102 then bind (strip "false" s) (fun r => Some (JBool false, r))
            else if code c =? 34 then bind (read_string r) (fun '(t, r) => Some (JString t, r))
            else if code c =? 91 then
              match depth with
              | S (S d) => match strip "]" (skip_blanks r) with
                           | Some r => Some (JArray [], r)
                           | None => bind (read_elements f (S d) r) (fun '(l, r) => Some (JArray l, r))
                           end
              | _ => None
              end
            else if code c =? 123 then
              match depth with
              | S (S d) => match strip "}" (skip_blanks r) with
                           | Some r => Some (JObject [], r)
                           | None => bind (read_members f (S d) r) (fun '(l, r) => Some (JObject l, r))
                           end
              | _ => None
              end
            else bind (read_number s) (fun '(t, r) => if representable t then Some (JNumber t, r) else None)
        end
    end
  with read_elements (fuel depth : nat) (s : string) {struct fuel} : option (list json * string) :=
    match fuel with
    | O => None
    | S f => bind (read_value f depth s) (fun '(j, s) =>
        match strip_one [(",", true); ("]", false)]%string (skip_blanks s) with
        | Some (true, r) => bind (read_elements f depth r) (fun '(l, r) => Some (j :: l, r))
        | Some (false, r) => Some ([j], r)
        | None => None
        end)
    end
  with read_members (fuel depth : nat) (s : string) {struct fuel} : option (list (string * json) * string) :=
    match fuel with
    | O => None
    | S f => bind (strip (String "034" EmptyString) (skip_blanks s)) (fun s => bind (read_string s) (fun '(k, s) =>
        bind (strip ":" (skip_blanks s)) (fun s => bind (read_value f depth s) (fun '(j, s) =>
        match strip_one [(",", true); ("}", false)]%string (skip_blanks s) with
        | Some (true, r) => bind (read_members f depth r) (fun '(l, r) => Some ((k, j) :: l, r))
        | Some (false, r) => Some ([(k, j)], r)
        | None => None
        end))))
    end.
  (** de.rs, from_trait: a value and nothing else.  The depth is 128. *)
  Definition read_json (s : string) : option json :=
    bind (read_value (String.length s) 128 s) (fun '(j, r) => match skip_blanks r with EmptyString => Some j | _ => None end).
End Read.

(** ** Servers *)

(** What the servers answer, as texts.  (ureq refuses a body of more than 10 MB here; that is one of the errors.) *)
Record text_servers := {
  te_post : string -> string -> result string;
  te_get : string -> result string;
  te_file : string -> result bytes;
  te_bunzip : bytes -> bytes;
  te_local : string -> result bytes
}.
(** [read_json]: a text that cannot be read is an error. *)
Definition parsed (representable : string -> bool) (p : result string) : result json :=
  r_bind p (fun text => r_of (match read_json representable text with Some j => Ok j | None => Err EInvalid end)).
Definition json_servers (representable : string -> bool) (te : text_servers) : servers :=
  {| se_post := fun url body => parsed representable (te_post te url body); se_json := fun url => parsed representable (te_get te url);
     se_file := te_file te; se_bunzip := te_bunzip te; se_local := te_local te |}.
