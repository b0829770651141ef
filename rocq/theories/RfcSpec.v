(** The vocabulary of the property about the texts of points in time (C80). *)
From Coq Require Import Ascii String ZArith List Bool.
From Verif Require Import Base TextSpec ForecastModel ForecastSpec SwissModel SwissSpec.
Import ListNotations.
Open Scope Z_scope.

(** A number, written with exactly [k] digits. *)
Definition written (k : nat) (s : string) (n : Z) : Prop := numeral s n /\ String.length s = k.
(** A decimal fraction of a second, in whole nanoseconds. *)
Definition fraction (s : string) (nanos : Z) : Prop :=
  (s = ""%string /\ nanos = 0) \/
  exists digits n, s = ("." ++ digits)%string /\ numeral digits n /\ nanos = n * 10 ^ 9 / 10 ^ Z.of_nat (String.length digits).
(** An offset from UTC in seconds: Z, or a sign (the last is U+2212) with hours and minutes. *)
Definition sign (s : string) (n : Z) : Prop :=
  (s = "+"%string /\ n = 1) \/ (s = "-"%string /\ n = -1) \/ (s = String "226" (String "136" (String "146" "")) /\ n = -1).
Definition zone (s : string) (offset : Z) : Prop :=
  ((s = "Z"%string \/ s = "z"%string) /\ offset = 0) \/
  exists sg g hh h mm m, sign sg g /\ written 2 hh h /\ h < 24 /\ written 2 mm m /\ m < 60 /\ s = (sg ++ hh ++ ":" ++ mm)%string /\ offset = g * (3600 * h + 60 * m).
(** The text says this time of day on this date, with this offset (RFC 3339); the second 60 is the second 59 and a billion nanoseconds. *)
Definition time_written (s : string) (t : datetime) (offset : Z) : Prop :=
  exists y mo d sep h mi se frac z second nanos,
    s = (y ++ "-" ++ mo ++ "-" ++ d ++ sep ++ h ++ ":" ++ mi ++ ":" ++ se ++ frac ++ z)%string /\
    written 4 y (year (dt_date t)) /\ written 2 mo (month (dt_date t)) /\ written 2 d (day (dt_date t)) /\ valid_date (dt_date t) /\
    (sep = "T" \/ sep = "t" \/ sep = " ")%string /\
    written 2 h (dt_hour t) /\ dt_hour t < 24 /\ written 2 mi (dt_minute t) /\ dt_minute t < 60 /\
    written 2 se second /\ fraction frac nanos /\
    (second < 60 /\ dt_second t = second /\ dt_nano t = nanos \/ second = 60 /\ dt_second t = 59 /\ dt_nano t = 10 ^ 9 + nanos) /\
    zone z offset.
(** The reference times in the answers of the service are of the years 1 to 9998 and not in a leap second. *)
Definition ordinary_times (sv : service) : Prop := forall rq features f t offset,
  sv_search sv rq (Ok features) -> In f features -> time_written (ft_ref f) t offset -> 1 <= year (dt_date t) <= 9998 /\ dt_nano t < 10 ^ 9.
