(** The vocabulary of C91: which files and directories the program can touch. *)
From Coq Require Import String ZArith List Bool.
From Verif Require Import Base TextSpec ForecastModel ForecastSpec.
Import ListNotations.
Open Scope Z_scope.

(** The path of a file of the published forecasts: of a model, a date and hour, the number of a step, and one of the files that a step
    can have; see [layout]. *)
Definition published (m : fc_model) (p : string) : Prop :=
  exists run n f hour, run_model run = m /\ valid_date (run_date run) /\ padded 2 (run_name run) hour /\ 0 <= hour < 24 /\ 0 <= n /\ proper f /\ layout run n f p.
(** The directory of such a file, with or without a slash at its end. *)
Definition published_dir (m : fc_model) (p : string) : Prop :=
  exists q dir file, published m q /\ q = (dir ++ "/" ++ file)%string /\ (forall a b, file <> (a ++ "/" ++ b)%string) /\ (p = dir \/ p = (dir ++ "/")%string).
(** The effect touches nothing else. *)
Definition confined (m : fc_model) (e : effect) : Prop :=
  match e with
  | ERead _ | EHeights => True
  | EDir p => published_dir m p
  | EPart p _ | EImage p _ | ECreate p | EWrite p _ => published m p
  end.
