(** Model of the lookups of the three neighbours of a cell in /repo/src/geo/grid (the maps themselves are in GeoModel.v). *)
From Coq Require Import ZArith List.
From Verif Require Import Base F32 GeoModel.
Import ListNotations.
Open Scope Z_scope.

(** coord_dist_triple.rs:17-23: the entry of one of the three slots. *)
Definition triple_get (t : triple) (index : Z) : option coord_dist := if index <? 3 then nth (Z.to_nat index) t None else None.
(** unstructured_grid1.rs:48-51 *)
Definition get_coord_dist_triple (u : unstructured triple) (x y : Z) : outcome (option triple) :=
  match index_by_xy (ug_grid u) x y with
  | None => Ok None
  | Some i => omap Some (index_vec (ug_map u) i)
  end.
