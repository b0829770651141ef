(** What it means that the map is drawn with north at the top (C97). *)
From Coq Require Import ZArith Reals.
From Verif Require Import Base F32 F32Facts GeoModel GeoSpec MapSpec.
Open Scope Z_scope.

(** The rows of pixels of the whole map are counted from its top through all tiles, so that row i of the tiles y is the row 256 y + i, and
    the columns from its left edge; a zoom level has 256 * 2^zoom of them.  [north_up lat_of lon_of] for the latitudes of the rows and
    the longitudes of the columns: at every zoom level, from each row to each lower one the latitude gets smaller, and from each column to each
    one on its right the longitude gets greater; also from one tile to the next. *)
Definition north_up (lat_of lon_of : Z -> Z -> f32) : Prop :=
  forall zoom, 0 <= zoom <= 10 ->
    (forall b, 0 <= b < 256 * 2 ^ zoom -> fin (lat_of zoom b) /\ fin (lon_of zoom b)) /\
    (forall b b', 0 <= b -> b < b' -> b' < 256 * 2 ^ zoom -> (xr (lat_of zoom b') < xr (lat_of zoom b))%R) /\
    (forall a a', 0 <= a -> a < a' -> a' < 256 * 2 ^ zoom -> (xr (lon_of zoom a) < xr (lon_of zoom a'))%R).

(** Which cells of a grid are shown: row zoom b of the grid in row b of the pixels, col zoom a in column a.  They are the closest cells
    (MapSpec.closest); rows of a grid are counted from south to north, its columns from west to east. *)
Definition shows (e : extent) (w h : Z) (cell : Z -> Z -> option f32 -> Prop) (lat_of lon_of : Z -> Z -> f32) (row col : Z -> Z -> Z) (zoom a b : Z) (o : option f32) : Prop :=
  let p := {| lat := lat_of zoom b; lon := lon_of zoom a |} in
  (~ in_extent e p /\ o = None) \/
  (in_extent e p /\ closest (lon (min_coord e)) (lon (max_coord e)) w (lon p) (col zoom a) /\
    closest (lat (min_coord e)) (lat (max_coord e)) h (lat p) (row zoom b) /\ cell (col zoom a) (row zoom b) o).
(** The cells are shown in their order: no cell is above one farther north or left of one farther west. *)
Definition in_order (e : extent) (lat_of lon_of : Z -> Z -> f32) (row col : Z -> Z -> Z) : Prop :=
  let rows zoom b := (0 <= b < 256 * 2 ^ zoom) /\ (xr (lat (min_coord e)) <= xr (lat_of zoom b) < xr (lat (max_coord e)))%R in
  let cols zoom a := (0 <= a < 256 * 2 ^ zoom) /\ (xr (lon (min_coord e)) <= xr (lon_of zoom a) < xr (lon (max_coord e)))%R in
  forall zoom, 0 <= zoom <= 10 ->
    (forall b b', rows zoom b -> rows zoom b' -> b <= b' -> row zoom b' <= row zoom b) /\
    (forall a a', cols zoom a -> cols zoom a' -> a <= a' -> col zoom a <= col zoom a').
