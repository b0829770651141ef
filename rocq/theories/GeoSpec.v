(** Vocabulary of the statements about grids (GeoProperties.v).  [xr x] is the real number
    denoted by an f32 value (F32Facts.v). *)
From Coq Require Import ZArith Reals List.
From Flocq Require Import Core.Core.
From Verif Require Import Base F32 F32Facts Grib2Model GeoModel.
Import ListNotations.
Open Scope Z_scope.

(** Finite binary32 value. *)
Definition fin (x : f32) : Prop := f32_valid x /\ fis_finite x = true.

(** Not NaN (infinities allowed). *)
Definition num (x : f32) : Prop := f32_valid x /\ fis_nan x = false.

Definition fin_coord (c : lat_lon) : Prop := fin (lat c) /\ fin (lon c).

Definition fin_extent (e : extent) : Prop := fin_coord (min_coord e) /\ fin_coord (max_coord e).

(** A geographic coordinate. *)
Definition fgeo (c : lat_lon) : Prop := fin_coord c /\ (-90 <= xr (lat c) <= 90)%R /\ (-180 <= xr (lon c) < 180)%R.

(** A regular grid with a finite extent of positive size. *)
Definition axis_ok (mn mx : f32) (n : Z) : Prop :=
  fin mn /\ fin mx /\ 1 <= n <= 2 ^ 24 /\
  (bpow radix2 (-100) <= xr mx - xr mn <= bpow radix2 100)%R.

Definition grid_ok (w h : Z) (e : extent) : Prop :=
  axis_ok (lon (min_coord e)) (lon (max_coord e)) w /\ axis_ok (lat (min_coord e)) (lat (max_coord e)) h.

(** One axis of a geographic grid: finite, within +-180 degrees, cells of at least 1/512 degree. *)
Definition axis_geo (mn mx : f32) (n : Z) : Prop :=
  fin mn /\ fin mx /\ 1 <= n /\ (-180 <= xr mn)%R /\ (xr mx <= 180)%R /\ (IZR n * / 512 <= xr mx - xr mn)%R.

Definition geo_grid (w h : Z) (e : extent) : Prop :=
  axis_geo (lon (min_coord e)) (lon (max_coord e)) w /\ axis_geo (lat (min_coord e)) (lat (max_coord e)) h.

Definition clamp255 (r : R) : R := Rmax 0 (Rmin 255 r).

Definition num_dist (cd : coord_dist) : Prop := num (snd cd).

(** Bilinear combination of four corner values. *)
Definition bilinear (t u tl tr bl br : R) : R :=
  ((tl * (1 - t) + tr * t) * (1 - u) + (bl * (1 - t) + br * t) * u)%R.

(** Coordinate [c] is not farther than [d] from the centre of cell (x, y), the squared distance
    being [e]. *)
Definition nearby (g : grid) (d : f32) (c : lat_lon) (x y : Z) (e : f32) : Prop :=
  exists p, cell_centre g x y = Some p /\ e = dist_squared c p /\ fgt e (fmul d d) = false.
(** The search window of coordinate [c] contains cell (x, y). *)
Definition window_covers (chk : bool) (g : grid) (d : f32) (c : lat_lon) (x y : Z) : Prop :=
  skipped g d c = false /\
  exists x0 y0 x1 y1, min_max_xy chk g c d = Ok ((x0, y0), (x1, y1)) /\ x0 <= x <= x1 /\ y0 <= y <= y1.
(** [c] enlarged by [d] does not reach the antimeridian. *)
Definition clear_of_antimeridian (d : f32) (c : lat_lon) : Prop :=
  fin_coord c /\ (Rabs (xr (lat c)) + xr d <= 179)%R /\ (Rabs (xr (lon c)) + xr d <= 179)%R.

(** Three neighbours: the value a neighbour contributes (nothing if it is missing), and the mean of the neighbours
    of a cell weighted by their distances.  (Neighbours come with the square of their distance.) *)
Definition contribution (vals : list f32) (missing : f32) (cd : coord_dist) : R :=
  match nth_error vals (Z.to_nat (fst cd)) with
  | Some v => if feq v missing then 0%R else xr v
  | None => 0%R
  end.
Definition contribution_u8 (vals : list Z) (missing : Z) (cd : coord_dist) : R :=
  match nth_error vals (Z.to_nat (fst cd)) with
  | Some v => if (v =? missing)%Z then 0%R else IZR v
  | None => 0%R
  end.
Definition real_sum (l : list R) : R := fold_right Rplus 0%R l.
Definition distance (cd : coord_dist) : R := sqrt (xr (snd cd)).
Definition weight (ds : list coord_dist) (cd : coord_dist) : R := (distance cd / real_sum (map distance ds))%R.
Definition weighted_mean (ds : list coord_dist) (value : coord_dist -> R) : R :=
  real_sum (map (fun cd => weight ds cd * value cd)%R ds).
(** Distances that are neither zero nor absurd. *)
Definition proper_distance (cd : coord_dist) : Prop :=
  fin (snd cd) /\ (/ 2 ^ 100 <= xr (snd cd) <= 2 ^ 100)%R.
