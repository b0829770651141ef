(** The vocabulary of C90: successive calls of the Swiss service. *)
From Coq Require Import String ZArith List Bool.
From Verif Require Import Base GeoModel Par Text TextSpec ForecastModel ForecastSpec FetchModel DwdSpec SwissModel SwissSpec HistorySpec.
Import ListNotations.
Open Scope Z_scope.

Section Times.
  Variable rfc3339 : rfc3339_parser.
  (** The reference time that an entry of an answer gives, in nanoseconds from the beginning of 1 January 0000 UTC. *)
  Definition time_of (f : feature) (i : Z) : Prop := exists t offset, rfc3339 (ft_ref f) = Some (t, offset) /\ i = instant t - offset * 10 ^ 9.
  (** The times of the answer are in the order [le]. *)
  Definition listed (le : Z -> Z -> Prop) (l : list feature) : Prop :=
    forall before f between g after i j, l = before ++ f :: between ++ g :: after -> time_of f i -> time_of g j -> le i j.
  (** The answers [l'] and [l] to the questions for the reference times, the first one of a later call: it lists the times in their order,
      and one that is not earlier than the last one of the answer before.  (So it is if entries are added at the end.  Old ones may vanish.) *)
  Definition goes_on (l l' : list feature) : Prop :=
    listed Z.le l' /\ forall before f i, l = before ++ [f] -> time_of f i -> exists g j, In g l' /\ time_of g j /\ i <= j.
  (** The second call follows the first one. *)
  Definition swiss_follows (sv sv' : service) : Prop :=
    forall l l', sv_search sv latest_request (Ok l) -> sv_search sv' latest_request (Ok l') -> goes_on l l'.
End Times.
(** The path is in the directory of a run that starts in this hour, counted from the beginning of 1 January 0000 UTC. *)
Definition in_run (p : string) (hour : Z) : Prop :=
  exists run rest, valid_date (run_date run) /\ starts_at run hour /\ p = ("./output/icon-ch1/" ++ date_text (run_date run) ++ run_name run ++ "/" ++ rest)%string.
