(** Model of the command line of /repo/src/main.rs:10-24 and 29: the three options that the struct Args declares, as read by clap
    (4.5.47, [Args::parse()]).  clap's code is not in /repo; what is modelled here are its documented rules for options declared like
    this: [short, long], a required String, and two Vecs with [num_args = 1..].  The name of the program is not among the words.
    The words are UTF-8.  The texts of clap's messages are not modelled. *)
From Coq Require Import ZArith List Bool Ascii String.
From Verif Require Import Base Text ForecastModel CliModel.
Import ListNotations.
Open Scope Z_scope.

(** main.rs:13-15, 17-19, 21-23 *)
Inductive cli_opt := OModel | OVariables | OSteps.
(** What is known after some of the words. *)
Record collected := { co_model : option string; co_variables : list string; co_steps : list Z }.
(** The result: the arguments; an error (a message on stderr and exit code 2); or the help or the version on stdout (exit code 0). *)
Inductive parsed := Call (a : cli_args) | Usage | Shown.

(** [str::parse::<usize>()]: an optional leading '+', then one or more digits, no overflow. *)
Definition parse_usize (s : string) : option Z :=
  let s' := match s with String c r => if Ascii.eqb c "+" then r else s | EmptyString => s end in
  match s' with
  | EmptyString => None
  | _ => match digits_value 0 s' with Some v => if v <? 2 ^ 64 then Some v else None | None => None end
  end.
Fixpoint parse_numbers (l : list string) : option (list Z) :=
  match l with
  | [] => Some []
  | s :: r => match parse_usize s, parse_numbers r with Some n, Some ns => Some (n :: ns) | _, _ => None end
  end.
(** The values of one occurrence of an option.  There must be one at least; a String may be given once, a Vec is extended. *)
Definition store (c : collected) (o : cli_opt) (values : list string) : option collected :=
  match values with
  | [] => None
  | v :: _ =>
      match o with
      | OModel => match co_model c with
                  | None => Some {| co_model := Some v; co_variables := co_variables c; co_steps := co_steps c |}
                  | Some _ => None
                  end
      | OVariables => Some {| co_model := co_model c; co_variables := co_variables c ++ values; co_steps := co_steps c |}
      | OSteps => match parse_numbers values with
                  | Some ns => Some {| co_model := co_model c; co_variables := co_variables c; co_steps := co_steps c ++ ns |}
                  | None => None
                  end
      end
  end.
(** An occurrence whose values are still being collected ends at the next option or at the end. *)
Definition flush (c : collected) (p : option (cli_opt * list string)) : option collected :=
  match p with None => Some c | Some (o, vs) => store c o vs end.
Definition finish (c : collected) (p : option (cli_opt * list string)) : parsed :=
  match flush c p with
  | None => Usage
  | Some c' => match co_model c' with
               | None => Usage
               | Some m => Call {| ar_model := m; ar_variables := co_variables c'; ar_steps := co_steps c' |}
               end
  end.
(** Kinds of words: "--"; "--name" and "--name=value"; "-c..." with something behind the hyphen; a value. *)
Inductive word := WEnd | WLong (name : string) (value : option string) | WShort (c : ascii) (rest : string) | WValue.
Fixpoint split_equals (s : string) : string * option string :=
  match s with
  | EmptyString => (EmptyString, None)
  | String c r => if Ascii.eqb c "=" then (EmptyString, Some r) else let '(n, v) := split_equals r in (String c n, v)
  end.
Definition classify (s : string) : word :=
  match s with
  | String a (String b r) =>
      if Ascii.eqb a "-" then
        if Ascii.eqb b "-" then match r with EmptyString => WEnd | _ => let '(n, v) := split_equals r in WLong n v end
        else WShort b r
      else WValue
  | _ => WValue
  end.
(** The options by name; [Some None]: help or version. *)
Definition by_name (n : string) : option (option cli_opt) :=
  if String.eqb n "model" then Some (Some OModel) else if String.eqb n "variables" then Some (Some OVariables)
  else if String.eqb n "steps" then Some (Some OSteps) else if String.eqb n "help" || String.eqb n "version" then Some None else None.
Definition by_letter (c : ascii) : option (option cli_opt) :=
  if Ascii.eqb c "m" then Some (Some OModel) else if Ascii.eqb c "v" then Some (Some OVariables)
  else if Ascii.eqb c "s" then Some (Some OSteps) else if Ascii.eqb c "h" || Ascii.eqb c "V" then Some None else None.
(** Whether a further value is taken: a String takes one, a Vec any number. *)
Definition takes (o : cli_opt) (vs : list string) : bool := match o, vs with OModel, _ :: _ => false | _, _ => true end.
(** "-c=value" and "-cvalue" *)
Definition attached (r : string) : string := match r with String c r' => if Ascii.eqb c "=" then r' else r | EmptyString => r end.
Fixpoint parse (c : collected) (p : option (cli_opt * list string)) (args : list string) : parsed :=
  match args with
  | [] => finish c p
  | a :: rest =>
      match classify a with
      | WEnd => match rest with [] => finish c p | _ => Usage end
      | WLong n v =>
          match by_name n with
          | None => Usage
          | Some None => match v, flush c p with None, Some _ => Shown | _, _ => Usage end
          | Some (Some o) =>
              match flush c p with
              | None => Usage
              | Some c' => match v with
                           | None => parse c' (Some (o, [])) rest
                           | Some v => match store c' o [v] with Some c'' => parse c'' None rest | None => Usage end
                           end
              end
          end
      | WShort ch r =>
          match by_letter ch with
          | None => Usage
          | Some None => match flush c p with Some _ => Shown | None => Usage end
          | Some (Some o) =>
              match flush c p with
              | None => Usage
              | Some c' => match r with
                           | EmptyString => parse c' (Some (o, [])) rest
                           | _ => match store c' o [attached r] with Some c'' => parse c'' None rest | None => Usage end
                           end
              end
          end
      | WValue =>
          match p with
          | Some (o, vs) => if takes o vs then parse c (Some (o, vs ++ [a])) rest else Usage
          | None => Usage
          end
      end
  end.
(** main.rs:29: Args::parse() starts with nothing given. *)
Definition parse_line (args : list string) : parsed := parse {| co_model := None; co_variables := []; co_steps := [] |} None args.
(** main.rs:27-58 *)
Definition program (w : world) (args : list string) : execution := fun tr printed code =>
  match parse_line args with
  | Call a => main w a tr printed code
  | Usage => tr = [] /\ printed = [] /\ code = 2
  | Shown => tr = [] /\ code = 0
  end.
