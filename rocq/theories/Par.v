(** Programs with visible effects, sequential and parallel (rayon), as the set of their possible
    executions: a trace of effects and how the program ended.  Nothing in this file is specific
    to one module of /repo. *)
From Coq Require Import ZArith List Bool.
From Verif Require Import Base.
Import ListNotations.
Open Scope Z_scope.

(** [p tr r]: the program can perform exactly the effects [tr] in this order and then end with [r]. *)
Definition prog (E : Type) := list E -> outcome unit -> Prop.

Definition p_end {E} (o : outcome unit) : prog E := fun tr r => tr = [] /\ r = o.
Definition p_emit {E} (e : E) : prog E := fun tr r => tr = [e] /\ r = Ok tt.
(** [p; q]: an error or panic of [p] skips [q]. *)
Definition p_then {E} (p q : prog E) : prog E := fun tr r =>
  (p tr r /\ r <> Ok tt) \/ exists t1 t2, tr = t1 ++ t2 /\ p t1 (Ok tt) /\ q t2 r.
(** [let x = o?; q x] for a computation without effects. *)
Definition p_let {A E} (o : outcome A) (q : A -> prog E) : prog E :=
  match o with Ok a => q a | Err e => p_end (Err e) | Panic => p_end Panic end.
(** A [for] loop. *)
Fixpoint for_seq {A E} (l : list A) (body : A -> prog E) : prog E :=
  match l with
  | [] => p_end (Ok tt)
  | a :: rest => p_then (body a) (for_seq rest body)
  end.
(** [let _ = p;] for a fallible p: an error is ignored, a panic is not. *)
Definition p_ignore {E} (p : prog E) : prog E := fun tr r =>
  exists r', p tr r' /\ r = match r' with Panic => Panic | _ => Ok tt end.

(** All ways to interleave several traces. *)
Inductive interleaving {E} : list (list E) -> list E -> Prop :=
| il_done : forall ts, Forall (fun t => t = []) ts -> interleaving ts []
| il_next : forall l1 e t l2 tr, interleaving (l1 ++ t :: l2) tr -> interleaving (l1 ++ (e :: t) :: l2) (e :: tr).

(** One execution of a parallel loop: every element was either not started or ran to some end. *)
Definition started {A E} (body : A -> prog E) (a : A) (x : option (list E * outcome unit)) : Prop :=
  match x with Some (tr, r) => body a tr r | None => True end.
Definition traces_of {E} (xs : list (option (list E * outcome unit))) : list (list E) :=
  map (fun x => match x with Some (tr, _) => tr | None => [] end) xs.
(** rayon's [for_each] and [try_for_each]: the elements are processed in any order and at the same
    time.  The loop returns when no element is being processed any more.  An element is skipped only
    if some processed element failed.  A panic of any element is rethrown; otherwise the error of
    one of the elements that failed is returned. *)
Definition for_par {A E} (l : list A) (body : A -> prog E) : prog E := fun tr r =>
  exists xs, Forall2 (started body) l xs /\ interleaving (traces_of xs) tr /\
    match r with
    | Ok tt => Forall (fun x => exists t, x = Some (t, Ok tt)) xs
    | Panic => exists t, In (Some (t, Panic)) xs
    | Err e => (exists t, In (Some (t, Err e)) xs) /\ forall t, ~ In (Some (t, Panic)) xs
    end.
