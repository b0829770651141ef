(** Vocabulary of the property about the command line (C78). *)
From Coq Require Import ZArith List Bool Ascii String.
From Verif Require Import Base Text ForecastModel CliModel ArgsModel.
Import ListNotations.
Open Scope Z_scope.

Definition name_of (o : cli_opt) : string := match o with OModel => "model" | OVariables => "variables" | OSteps => "steps" end.
Definition letter_of (o : cli_opt) : string := match o with OModel => "m" | OVariables => "v" | OSteps => "s" end.
(** A word that stands for itself: it does not begin with a hyphen, or is only a hyphen. *)
Definition plain_word (s : string) : Prop := s = "-"%string \/ forall r, s <> String "-" r.

(** One occurrence of an option: its words and its values. *)
Record group := { gr_words : list string; gr_opt : cli_opt; gr_values : list string }.
Inductive given : group -> Prop :=
| given_apart : forall o w vs, w = ("--" ++ name_of o)%string \/ w = ("-" ++ letter_of o)%string -> vs <> [] -> Forall plain_word vs ->
    (o = OModel -> List.length vs = 1%nat) -> given {| gr_words := w :: vs; gr_opt := o; gr_values := vs |}
| given_long : forall o v, given {| gr_words := [("--" ++ name_of o ++ "=" ++ v)%string]; gr_opt := o; gr_values := [v] |}
| given_equals : forall o v, given {| gr_words := [("-" ++ letter_of o ++ "=" ++ v)%string]; gr_opt := o; gr_values := [v] |}
| given_behind : forall o v, v <> EmptyString -> (forall r, v <> String "=" r) ->
    given {| gr_words := [("-" ++ letter_of o ++ v)%string]; gr_opt := o; gr_values := [v] |}.
(** The values given for an option, in their order. *)
Definition same_opt (a b : cli_opt) : bool := match a, b with OModel, OModel | OVariables, OVariables | OSteps, OSteps => true | _, _ => false end.
Definition values_of (o : cli_opt) (gs : list group) : list string := flat_map (fun g => if same_opt (gr_opt g) o then gr_values g else []) gs.

(** The text of a number: digits, perhaps with a plus sign, below 2^64. *)
Definition number_text (s : string) (n : Z) : Prop :=
  exists d, (s = d \/ s = String "+" d) /\ d <> EmptyString /\ digits_value 0 d = Some n /\ n < 2 ^ 64.

(** A line that gives these arguments: occurrences of options, perhaps "--" at the end; the model once. *)
Definition line_of (gs : list group) (stop : list string) : list string := List.concat (map gr_words gs) ++ stop.
Definition asks (gs : list group) (a : cli_args) : Prop :=
  values_of OModel gs = [ar_model a] /\ values_of OVariables gs = ar_variables a /\ Forall2 number_text (values_of OSteps gs) (ar_steps a).
Definition well_formed (gs : list group) (stop : list string) : Prop := Forall given gs /\ (stop = [] \/ stop = ["--"%string]).

(** A word that asks for the help or the version. *)
Definition asks_help (s : string) : Prop := s = "--help"%string \/ s = "--version"%string \/ exists r, s = String "-" (String "h" r) \/ s = String "-" (String "V" r).

(** The same model, the same variables and the same steps, in any order and any number of times. *)
Definition equal_calls (a b : cli_args) : Prop :=
  ar_model a = ar_model b /\ (forall v, In v (ar_variables a) <-> In v (ar_variables b)) /\ (forall n, In n (ar_steps a) <-> In n (ar_steps b)).
