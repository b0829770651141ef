(** Model of the text of a point in time: chrono's [DateTime::parse_from_rfc3339] (crate chrono 0.4.41, format/parse.rs and
    format/scan.rs), which /repo/src/meteo_swiss/forecast_run/icon_ch_forecast_reference_datetime.rs:29 calls.  The crate is not
    in /repo; the model follows its published source.  All its errors are one here. *)
From Coq Require Import Ascii String ZArith List Bool.
From Verif Require Import Base Text ForecastModel SwissModel.
Import ListNotations.
Open Scope Z_scope.

(** [let x = f()?;] for options *)
Definition bind {A B} (o : option A) (k : A -> option B) : option B := match o with Some a => k a | None => None end.
(** scan.rs, number(s, k, k): exactly [k] digits. *)
Fixpoint scan_number (k : nat) (acc : Z) (s : string) : option (Z * string) :=
  match k with
  | O => Some (acc, s)
  | S k => match s with
           | EmptyString => None
           | String c r => match digit_of c with Some d => scan_number k (acc * 10 + d) r | None => None end
           end
  end.
(** scan.rs, number(s, 1, 9): up to nine digits; their value, their number and the rest. *)
Fixpoint scan_up_to (k : nat) (acc : Z) (n : nat) (s : string) : Z * nat * string :=
  match k, s with
  | S k, String c r => match digit_of c with Some d => scan_up_to k (acc * 10 + d) (S n) r | None => (acc, n, s) end
  | _, _ => (acc, n, s)
  end.
(** [trim_start_matches(|c| c.is_ascii_digit())] *)
Fixpoint skip_digits (s : string) : string :=
  match s with
  | EmptyString => EmptyString
  | String c r => match digit_of c with Some _ => skip_digits r | None => s end
  end.
(** scan.rs, nanosecond: the digits after the point; those after the ninth are ignored. *)
Definition scan_nanosecond (s : string) : option (Z * string) :=
  let '(v, n, r) := scan_up_to 9 0 0 s in
  match n with O => None | _ => Some (v * 10 ^ (9 - Z.of_nat n), skip_digits r) end.
(** scan.rs, char, and [starts_with]: the rest after a prefix. *)
Fixpoint strip (p s : string) : option string :=
  match p, s with
  | EmptyString, _ => Some s
  | String c p, String d s => if Ascii.eqb c d then strip p s else None
  | String _ _, EmptyString => None
  end.
(** One of several prefixes, the first that fits; what it stands for and the rest. *)
Fixpoint strip_one {A} (l : list (string * A)) (s : string) : option (A * string) :=
  match l with
  | [] => None
  | (p, a) :: l => match strip p s with Some r => Some (a, r) | None => strip_one l s end
  end.
(** [parsed.set_month(..)] and so on: the number must be in a range. *)
Definition checked (lo hi n : Z) : option Z := if (lo <=? n) && (n <=? hi) then Some n else None.
(** The sign of an offset (is it negative); the third is the minus sign U+2212. *)
Definition SIGNS : list (string * bool) := [("+", false); ("-", true); (String "226" (String "136" (String "146" "")), true)]%string.
(** scan.rs, timezone_offset(s, colon, true, false, true): seconds ahead of UTC. *)
Definition scan_offset (s : string) : option (Z * string) :=
  match strip_one [("Z", tt); ("z", tt)]%string s with
  | Some (_, r) => Some (0, r)
  | None => bind (strip_one SIGNS s) (fun '(negative, s) =>
            bind (scan_number 2 0 s) (fun '(h, s) =>
            bind (strip ":" s) (fun s =>
            bind (scan_number 2 0 s) (fun '(m, s) =>
            bind (checked 0 59 m) (fun m =>
              let seconds := h * 3600 + m * 60 in Some (if negative : bool then - seconds else seconds, s))))))
  end.
(** parse.rs, parse_rfc3339, and parsed.rs, to_datetime: a date that does not exist is an error; the second 60 is the second 59
    with another billion of nanoseconds. *)
Definition parse_rfc3339 : rfc3339_parser := fun s =>
  bind (scan_number 4 0 s) (fun '(y, s) =>
  bind (strip "-" s) (fun s => bind (scan_number 2 0 s) (fun '(mo, s) => bind (checked 1 12 mo) (fun mo =>
  bind (strip "-" s) (fun s => bind (scan_number 2 0 s) (fun '(d, s) => bind (checked 1 31 d) (fun d =>
  bind (strip_one [("T", tt); ("t", tt); (" ", tt)]%string s) (fun '(_, s) =>
  bind (scan_number 2 0 s) (fun '(h, s) => bind (checked 0 23 h) (fun h =>
  bind (strip ":" s) (fun s => bind (scan_number 2 0 s) (fun '(mi, s) => bind (checked 0 59 mi) (fun mi =>
  bind (strip ":" s) (fun s => bind (scan_number 2 0 s) (fun '(se, s) => bind (checked 0 60 se) (fun se =>
  bind (match strip "." s with Some r => scan_nanosecond r | None => Some (0, s) end) (fun '(nano, s) =>
  bind (scan_offset s) (fun '(offset, s) =>
  bind (checked (- ((23 * 60 + 59) * 60)) ((23 * 60 + 59) * 60) offset) (fun offset =>
  match s with
  | EmptyString =>
      if d <=? days_in_month y mo
      then Some ({| dt_date := {| year := y; month := mo; day := d |}; dt_hour := h; dt_minute := mi;
                    dt_second := if se =? 60 then 59 else se; dt_nano := if se =? 60 then 10 ^ 9 + nano else nano |}, offset)
      else None
  | _ => None
  end))))))))))))))))))).
