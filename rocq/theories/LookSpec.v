(** What it means that the map shows the data at a place (C98). *)
From Coq Require Import ZArith Reals.
From Verif Require Import Base F32 F32Facts GeoModel GeoSpec TileSpec MapSpec.
Open Scope Z_scope.
Open Scope R_scope.

(** The place lies in the pixel in column j and row i of the tile x/y of the Web-Mercator map. *)
Definition pixel_of (zoom : Z) (p : lat_lon) (x y j i : Z) : Prop :=
  (0 <= x < 2 ^ zoom)%Z /\ (0 <= y < 2 ^ zoom)%Z /\ (0 <= j < 256)%Z /\ (0 <= i < 256)%Z /\
  column_lon zoom (IZR x + IZR j / 256) <= xr (lon p) < column_lon zoom (IZR x + IZR (j + 1) / 256) /\
  IZR y + IZR i / 256 <= row_at zoom (xr (lat p)) < IZR y + IZR (i + 1) / 256.
(** The width of a pixel in degrees, and how far at most the latitude of what is shown is off: the height of a pixel, the distortion
    within a tile and rounding. *)
Definition off_lon (zoom : Z) : R := 360 / (256 * IZR (2 ^ zoom)).
Definition off_lat (zoom : Z) : R := 360 / (256 * IZR (2 ^ zoom)) + 283 / IZR (4 ^ zoom) + / 4096.
Definition close_by (zoom : Z) (p q : lat_lon) : Prop := Rabs (xr (lon q) - xr (lon p)) <= off_lon zoom /\ Rabs (xr (lat q) - xr (lat p)) <= off_lat zoom.
(** The coordinate of the point i if there are n of them from [mn] up to [mx], and the distance between two. *)
Definition spacing (mn mx : f32) (n : Z) : R := (xr mx - xr mn) / IZR n.
Definition point (mn mx : f32) (n i : Z) : R := xr mn + IZR i * spacing mn mx n.
(** Data of a point of the grid that is at most half a cell farther from the place than [off_lon] and [off_lat]. *)
Definition shown_at (e : extent) (w h : Z) (cell : Z -> Z -> option f32 -> Prop) (zoom : Z) (p : lat_lon) (o : option f32) : Prop :=
  exists i j, (0 <= i)%Z /\ (0 <= j)%Z /\ cell i j o /\
    Rabs (point (lon (min_coord e)) (lon (max_coord e)) w i - xr (lon p)) <= off_lon zoom + (/ 2 + IZR w / 2097152) * spacing (lon (min_coord e)) (lon (max_coord e)) w /\
    Rabs (point (lat (min_coord e)) (lat (max_coord e)) h j - xr (lat p)) <= off_lat zoom + (/ 2 + IZR h / 2097152) * spacing (lat (min_coord e)) (lat (max_coord e)) h.
(** Such data; or nothing, if a place close by is outside of the extent. *)
Definition found_at (e : extent) (w h : Z) (cell : Z -> Z -> option f32 -> Prop) (zoom : Z) (p : lat_lon) (o : option f32) : Prop :=
  (o = None /\ exists q, close_by zoom p q /\ ~ in_extent e q) \/ shown_at e w h cell zoom p o.
(** The place is in the extent, farther from its borders than what is shown may be off by (and 9/400 degrees of latitude more). *)
Definition inside_by (zoom : Z) (e : extent) (p : lat_lon) : Prop :=
  xr (lon (min_coord e)) + off_lon zoom <= xr (lon p) < xr (lon (max_coord e)) - off_lon zoom /\
  xr (lat (min_coord e)) + off_lat zoom + 9 / 400 <= xr (lat p) < xr (lat (max_coord e)) - off_lat zoom - 9 / 400.
