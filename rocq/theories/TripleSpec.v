(** Specification of the three neighbours of a cell (C95). *)
From Coq Require Import ZArith List Reals.
From Verif Require Import Base F32 GeoModel F32Facts GeoSpec.
Import ListNotations.
Open Scope Z_scope.

(** [kept] are three of the entries for which [candidate] holds, or all of them if there are no more than three: each is a
    candidate, none occurs twice, and no candidate that is left out is nearer than one of them. *)
Definition three_nearest (candidate : Z -> f32 -> Prop) (kept : list coord_dist) : Prop :=
  (length kept <= 3)%nat /\ NoDup (map fst kept) /\ (forall i s, In (i, s) kept -> candidate i s) /\
  forall j s, candidate j s -> In (j, s) kept \/ (length kept = 3%nat /\ forall i s', In (i, s') kept -> (xr s' <= xr s)%R).
(** Coordinate number [i] of [cs] is within the maximum distance of the centre of cell (x, y), the squared distance being [s]. *)
Definition in_reach (g : grid) (d : f32) (cs : list lat_lon) (x y : Z) (i : Z) (s : f32) : Prop :=
  0 <= i /\ exists c, nth_error cs (Z.to_nat i) = Some c /\ nearby g d c x y s.
(** Moreover its window covers the cell. *)
Definition offered (chk : bool) (g : grid) (d : f32) (cs : list lat_lon) (x y : Z) (i : Z) (s : f32) : Prop :=
  0 <= i /\ exists c, nth_error cs (Z.to_nat i) = Some c /\ window_covers chk g d c x y /\ nearby g d c x y s.
