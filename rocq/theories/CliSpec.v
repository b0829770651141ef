(** The vocabulary of the properties of the command line program (C55, C61). *)
From Coq Require Import String ZArith List Bool.
From Verif Require Import Base F32 Par TileModel Text ForecastModel ForecastSpec FetchModel DwdModel DwdSpec SwissModel SwissSpec CliModel.
Import ListNotations.
Open Scope Z_scope.

(** The dates are in the years 0 to 9999. *)
Definition sane (w : world) : Prop := valid_date (wo_today w) /\ valid_date (prev_day (wo_today' w)) /\ dated (wo_rfc3339 w) (wo_service w).

(** The program that renders the latest forecast of a model of this name. *)
Definition rendering (w : world) (name : string) (variables : list string) (steps : list Z) (p : prog effect) : Prop :=
  (name = "icon-ch1"%string /\
     p = swiss_render_latest (wo_chk w) (wo_powi w) (wo_rfc3339 w) (wo_service w) (wo_libm w) (wo_faulty w) steps variables) \/
  exists model, (name = "icon-d2"%string /\ model = IconD2 \/ name = "icon-eu"%string /\ model = IconEu) /\
     p = dwd_render_latest (wo_chk w) (wo_powi w) (wo_fetch w) (wo_libm w) (wo_faulty w) (wo_heads w) (wo_today w) (wo_today' w) model variables steps.

(** The path of something in the directory with the output of a model. *)
Definition inside (name path : string) : Prop := exists rest, path = ("./output/" ++ name ++ "/" ++ rest)%string.
(** The directories a call with this model name may write to: its own, and (a finding) icon-eu also that of icon-d2. *)
Definition may_write (name dir : string) : Prop := dir = name \/ name = "icon-eu"%string /\ dir = "icon-d2"%string.

(** A history of calls of the program, one after the other, each of which may have been killed at any time; [tr] are all their effects. *)
Fixpoint happened (calls : list (world * cli_args)) (tr : list effect) : Prop :=
  match calls with
  | [] => tr = []
  | (w, a) :: rest => exists done missed printed code tr', main w a (done ++ missed) printed code /\ happened rest tr' /\ tr = done ++ tr'
  end.
