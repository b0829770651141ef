(** What it means that the tiles of a map form a pyramid (C100). *)
From Coq Require Import ZArith.
From Verif Require Import Base F32 F32Facts GeoModel TileModel ForecastModel ForecastSpec MapSpec.
Open Scope Z_scope.

(** The maps of the kinds with tiles, and the extent of their data. *)
Definition map_extent (k : kind) (l : k_data k) (e : extent) : Prop := exists make, k_tiles k l = Some (e, make).
(** The tile of a step is there after the rendering into an empty directory. *)
Definition tile_there (k : kind) (run : fc_run) (step_nr : Z) (tr : list effect) (zoom x y : Z) : Prop :=
  exists d, file_after (file_path run step_nr (TileFile (k_type k) zoom x y)) None tr = Some (Png d).
