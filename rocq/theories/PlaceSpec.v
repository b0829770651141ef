(** The vocabulary of the property of lookups by place (C73). *)
From Coq Require Import ZArith Reals List.
From Flocq Require Import Core.Core.
From Verif Require Import Base F32 F32Facts GeoModel GeoSpec ChartModel ChartSpec MapSpec.
Import ListNotations.
Open Scope R_scope.

(** A lookup by place: the answer for the cell that the place is closest to, nothing outside of the extent. *)
Definition asked {T} (e : extent) (w h : Z) (cell : Z -> Z -> option T -> Prop) (p : lat_lon) (o : option T) : Prop :=
  (~ in_extent e p /\ o = None) \/
  (in_extent e p /\ exists i j, closest (lon (min_coord e)) (lon (max_coord e)) w (lon p) i /\ closest (lat (min_coord e)) (lat (max_coord e)) h (lat p) j /\ cell i j o).

(** The distance of two places (degrees of longitude count as much as those of latitude). *)
Definition between (c p : lat_lon) : R := dist_euc (xr (lat c)) (xr (lon c)) (xr (lat p)) (xr (lon p)).
(** The size of a cell in one direction, and its diagonal. *)
Definition cell_size (mn mx : f32) (n : Z) : R := (xr mx - xr mn) / IZR n.
Definition diagonal (w h : Z) (e : extent) : R :=
  dist_euc 0 0 (cell_size (lat (min_coord e)) (lat (max_coord e)) h) (cell_size (lon (min_coord e)) (lon (max_coord e)) w).
(** The middle of cell number i in one direction. *)
Definition middle (mn mx : f32) (n i : Z) : R := xr mn + (IZR i + / 2) * cell_size mn mx n.
(** The distance of a place from the middle of a cell. *)
Definition from_middle (w h : Z) (e : extent) (i j : Z) (c : lat_lon) : R :=
  dist_euc (xr (lat c)) (xr (lon c)) (middle (lat (min_coord e)) (lat (max_coord e)) h j) (middle (lon (min_coord e)) (lon (max_coord e)) w i).

(** What the points [cs] with the values [vs] say about cell (i, j): the value of the point nearest to its middle if that is not
    farther than [d], and nothing if no point is that near; up to 1/1000 degree. *)
Definition of_points {T} (w h : Z) (e : extent) (cs : list lat_lon) (vs : list T) (d : f32) (i j : Z) (o : option T) : Prop :=
  (((w <= i)%Z \/ (h <= j)%Z) /\ o = None) \/
  ((0 <= i < w)%Z /\ (0 <= j < h)%Z /\
   ((exists k c, nth_error cs k = Some c /\ o = nth_error vs k /\ from_middle w h e i j c <= xr d + / 1000 /\
       forall c', In c' cs -> from_middle w h e i j c <= from_middle w h e i j c' + / 1000) \/
    (o = None /\ forall c, In c cs -> xr d - / 1000 <= from_middle w h e i j c))).
(** A place of the extent that is not in its last half row or column. *)
Definition well_inside (w h : Z) (e : extent) (p : lat_lon) : Prop :=
  in_extent e p /\ cells_from (lon (min_coord e)) (lon (max_coord e)) w (lon p) < IZR w - / 2 - IZR w / 2097152 /\
  cells_from (lat (min_coord e)) (lat (max_coord e)) h (lat p) < IZR h - / 2 - IZR h / 2097152.
