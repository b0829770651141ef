(** Model of /repo/src/main.rs: the command line program.  The parsing of the arguments by clap is in ArgsModel.v; the log is not
    modelled; an error's text is given by a parameter. *)
From Coq Require Import String ZArith List Bool.
From Verif Require Import Base F32 Par TileModel Text ForecastModel FetchModel DwdModel SwissModel.
Import ListNotations.
Open Scope Z_scope.

(** main.rs:12-24 *)
Record cli_args := { ar_model : string; ar_variables : list string; ar_steps : list Z }.

(** All that a run of the program depends on besides its arguments: the build profile, the mathematical functions, whether
    operations on the disk may fail, the answers of the two services, the date (read twice) and the parser of dates. *)
Record world := {
  wo_chk : bool; wo_powi : f32 -> Z -> f32; wo_libm : libm; wo_faulty : bool;
  wo_fetch : fetcher; wo_heads : heads; wo_today : date; wo_today' : date;
  wo_service : service; wo_rfc3339 : rfc3339_parser;
  wo_text : err -> string }.

(** A run of the program: its effects, the lines it prints and its exit code. *)
Definition execution : Type := list effect -> list string -> Z -> Prop.

(** The three arms of main.rs:32-53: [let _ = p.or_else(|e| { println!(..); Err(e) })].  A program whose main
    function panics exits with 101 (and writes to stderr, not modelled). *)
Definition reporting (w : world) (name : string) (p : prog effect) : execution := fun tr printed code =>
  exists r, p tr r /\
    match r with
    | Ok tt => printed = [] /\ code = 0
    | Err e => printed = [("error while rendering " ++ name ++ " forecast: " ++ wo_text w e)%string] /\ code = 0
    | Panic => printed = [] /\ code = 101
    end.
(** main.rs:27-58 *)
Definition main (w : world) (a : cli_args) : execution :=
  let dwd model := dwd_render_latest (wo_chk w) (wo_powi w) (wo_fetch w) (wo_libm w) (wo_faulty w) (wo_heads w) (wo_today w) (wo_today' w)
    model (ar_variables a) (ar_steps a) in
  if String.eqb (ar_model a) "icon-ch1" then
    reporting w "icon-ch1" (swiss_render_latest (wo_chk w) (wo_powi w) (wo_rfc3339 w) (wo_service w) (wo_libm w) (wo_faulty w) (ar_steps a) (ar_variables a))
  else if String.eqb (ar_model a) "icon-d2" then reporting w "icon-d2" (dwd IconD2)
  else if String.eqb (ar_model a) "icon-eu" then reporting w "icon-eu" (dwd IconEu)
  else fun tr printed code => tr = [] /\ printed = [("unknown model: " ++ ar_model a)%string] /\ code = 0.
