(** The vocabulary of C89: calls that ask for the same in another way. *)
From Coq Require Import String ZArith List Bool.
From Verif Require Import Base Par ChartModel ForecastModel ForecastSpec FetchModel FetchSpec OverlapSpec HistorySpec.
Import ListNotations.
Open Scope Z_scope.

(** One of the calls names the layer (or names none) and the step (or names none). *)
Definition wants (calls : list selection) (t : layer_type) (n : Z) : Prop :=
  exists c, In c calls /\ named (fst c) t /\ (snd c = [] \/ In n (snd c)).
(** Together the calls ask for the same layers and steps. *)
Definition asks_same (calls calls' : list selection) : Prop := forall t n, wants calls t n <-> wants calls' t n.
(** What a call of C83 asks for. *)
Definition asks (c : call) : selection := (ca_vars c, ca_steps c).
(** The names of all layers. *)
Definition all_layers : list string := map variable_name [CloudPrecip; Weather; Wind10m; Temp2m; VerticalCloud; VerticalWind].
