(** Property C78: what the words of the command line mean. *)
From Coq Require Import ZArith List Bool Ascii String Permutation.
From Verif Require Import Base Text ForecastModel CliModel ArgsModel ArgsSpec ArgsProofs.
Import ListNotations.
Open Scope Z_scope.

(** The program takes exactly the lines made of occurrences of the three options, in every way of writing them, with exactly one
    model; it takes the values in the order in which they stand. *)
Theorem C78_arguments : forall args a, parse_line args = Call a <-> exists gs stop, args = line_of gs stop /\ well_formed gs stop /\ asks gs a.
Proof. exact c78_arguments_proof. Qed.
Print Assumptions C78_arguments.

(** Such a line makes the program do what it does for these arguments. *)
Theorem C78_call : forall w gs stop a, well_formed gs stop -> asks gs a -> forall tr printed code,
  program w (line_of gs stop) tr printed code <-> main w a tr printed code.
Proof. exact c78_call_proof. Qed.
Print Assumptions C78_call.

(** Any other line does nothing at all: exit code 2, or 0 if a word asks for the help or the version. *)
Theorem C78_refused : forall w args, (forall gs stop a, args = line_of gs stop -> well_formed gs stop -> ~ asks gs a) -> forall tr printed code,
  program w args tr printed code -> tr = [] /\ (code = 2 /\ printed = [] \/ code = 0 /\ Exists asks_help args).
Proof. exact c78_refused_proof. Qed.
Print Assumptions C78_refused.

(** The order of the options on the line makes no difference to what the program may do, *)
Theorem C78_order : forall w gs gs' stop stop' a, well_formed gs stop -> (stop' = [] \/ stop' = ["--"%string]) -> asks gs a -> Permutation gs gs' ->
  forall tr printed code, program w (line_of gs stop) tr printed code <-> program w (line_of gs' stop') tr printed code.
Proof. exact c78_order_proof. Qed.
Print Assumptions C78_order.
(** nor do the order and the repetition of the variables and of the steps. *)
Theorem C78_same : forall w a b, equal_calls a b -> forall tr printed code, main w a tr printed code <-> main w b tr printed code.
Proof. exact equal_calls_proof. Qed.
Print Assumptions C78_same.

(** A line that uses all ways of writing options:
    -v temp_2m wind_10m -m=icon-d2 --steps=3 -s4 -s +5 -v - -- *)
Definition sample_groups : list group := [
  {| gr_words := ["-v"; "temp_2m"; "wind_10m"]%string; gr_opt := OVariables; gr_values := ["temp_2m"; "wind_10m"]%string |};
  {| gr_words := ["-m=icon-d2"]%string; gr_opt := OModel; gr_values := ["icon-d2"]%string |};
  {| gr_words := ["--steps=3"]%string; gr_opt := OSteps; gr_values := ["3"]%string |};
  {| gr_words := ["-s4"]%string; gr_opt := OSteps; gr_values := ["4"]%string |};
  {| gr_words := ["-s"; "+5"]%string; gr_opt := OSteps; gr_values := ["+5"]%string |};
  {| gr_words := ["-v"; "-"]%string; gr_opt := OVariables; gr_values := ["-"]%string |}].
Definition sample_args : cli_args := {| ar_model := "icon-d2"; ar_variables := ["temp_2m"; "wind_10m"; "-"]%string; ar_steps := [3; 4; 5] |}.
Lemma sample_well_formed : well_formed sample_groups ["--"%string].
Proof.
  split; [|now right]. unfold sample_groups. repeat apply Forall_cons; [..|apply Forall_nil].
  - apply (given_apart OVariables); [now right|discriminate| |discriminate]. constructor; [right; discriminate|]. constructor; [right; discriminate|constructor].
  - apply (given_equals OModel "icon-d2").
  - apply (given_long OSteps "3").
  - apply (given_behind OSteps "4"); discriminate.
  - apply (given_apart OSteps); [now right|discriminate| |discriminate]. constructor; [right; discriminate|constructor].
  - apply (given_apart OVariables); [now right|discriminate| |discriminate]. constructor; [now left|constructor].
Qed.
Lemma sample_asks : asks sample_groups sample_args.
Proof.
  split; [reflexivity|]. split; [reflexivity|]. change (Forall2 number_text ["3"; "4"; "+5"]%string [3; 4; 5]).
  repeat apply Forall2_cons; [..|apply Forall2_nil]; [exists "3"%string|exists "4"%string|exists "5"%string];
    (split; [tauto|]); (split; [discriminate|]); now split.
Qed.
Example C78_sample : line_of sample_groups ["--"%string] = ["-v"; "temp_2m"; "wind_10m"; "-m=icon-d2"; "--steps=3"; "-s4"; "-s"; "+5"; "-v"; "-"; "--"]%string /\
  well_formed sample_groups ["--"%string] /\ asks sample_groups sample_args /\
  parse_line (line_of sample_groups ["--"%string]) = Call sample_args /\
  Permutation sample_groups (rev sample_groups) /\
  (exists a, parse_line (line_of (rev sample_groups) []) = Call a /\ ar_variables a = ["-"; "temp_2m"; "wind_10m"]%string /\ ar_steps a = [5; 4; 3]).
Proof.
  split; [reflexivity|]. split; [exact sample_well_formed|]. split; [exact sample_asks|]. split; [vm_compute; reflexivity|]. split; [apply Permutation_rev|].
  eexists. split; [vm_compute; reflexivity|]. split; reflexivity.
Qed.
(** Lines that are refused: no words; no model; the model twice; a second word behind the model; a step that is no number or too large;
    an option without value; an unknown option; a word behind "--"; a value that begins with a hyphen. *)
Example C78_refused_sample : Forall (fun args => parse_line args = Usage)
  [[]; ["-v"; "temp_2m"]; ["-m"; "icon-d2"; "-m"; "icon-d2"]; ["-m"; "icon-d2"; "icon-eu"]; ["-m"; "icon-d2"; "-s"; "1.5"];
   ["-m"; "icon-d2"; "-s"; "18446744073709551616"]; ["-m"; "icon-d2"; "-s"]; ["-m"; "icon-d2"; "-x"]; ["-m"; "icon-d2"; "--"; "x"]; ["-m"; "icon-d2"; "-s"; "-1"]]%string /\
  parse_line ["-m"; "icon-d2"; "-h"]%string = Shown /\ parse_line ["--version"]%string = Shown /\ parse_line ["-m"; "icon-d2"; "-s"; "18446744073709551615"]%string <> Usage.
Proof. split; [repeat (constructor; [reflexivity|]); constructor|]. split; [reflexivity|]. split; [reflexivity|discriminate]. Qed.
Example C78_same_sample : equal_calls {| ar_model := "icon-eu"; ar_variables := ["wind_10m"; "temp_2m"; "wind_10m"]%string; ar_steps := [2; 1; 2] |}
  {| ar_model := "icon-eu"; ar_variables := ["temp_2m"; "wind_10m"]%string; ar_steps := [1; 2] |}.
Proof. repeat split; cbn; tauto. Qed.
