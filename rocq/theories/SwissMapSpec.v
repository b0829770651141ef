(** The vocabulary of the property that goes from the messages of the Swiss weather service to the published map and data
    files (C72). *)
From Coq Require Import String ZArith Reals List Bool.
From Flocq Require Import Core.Core.
From Verif Require Import Base F32 F32Facts Grib2Model Grib2Spec GeoModel GeoSpec ImagingModel ImagingSpec Par TileModel TileSpec ChartModel ChartSpec MetobinSpec
  ForecastModel ForecastSpec FetchModel FetchSpec SwissModel SwissSpec MapSpec FieldSpec PublishSpec.
Import ListNotations.
Open Scope Z_scope.

(** ** Messages *)

(** A message with its packing. *)
Record bulletin := { bl_wire : wire; bl_reference : Z; bl_binary : Z; bl_decimal : Z }.
Definition packed (chk : bool) (b : bulletin) : Prop :=
  wf_message chk (bl_wire b) /\ exists bits field, w5_tpl (w_5 (bl_wire b)) = W5_0 (bl_reference b) (bl_binary b) (bl_decimal b) bits field.
(** Its number of points, and what it says about point number k: a number, or nothing. *)
Definition points (b : bulletin) : Z := w3_points (w_3 (bl_wire b)).
Definition at_point (powi : f32 -> Z -> f32) (b : bulletin) (k : nat) (o : option f32) : Prop :=
  (points b <= Z.of_nat k /\ o = None) \/
  (Z.of_nat k < points b /\ point_value powi (bl_wire b) (bl_reference b) (bl_binary b) (bl_decimal b) None Some k o).
(** The file that the service gave starts with this message. *)
Definition starts_with (chk : bool) (fetch : fetcher) (url : string) (b : bulletin) : Prop :=
  packed chk b /\ exists rest, fetch url (Ok (message_bytes (bl_wire b) ++ rest)).
(** This is message number k of the file that the service gave, counted from 0. *)
Definition number_of (chk : bool) (fetch : fetcher) (url : string) (k : nat) (b : bulletin) : Prop :=
  packed chk b /\ exists earlier rest, length earlier = k /\ Forall (wf_message chk) earlier /\
    fetch url (Ok (concat (map message_bytes earlier) ++ message_bytes (bl_wire b) ++ rest)).
(** The file has messages for n levels, from number 31 on, and no more; but 49 levels are enough. *)
Definition has_levels (chk : bool) (fetch : fetcher) (url : string) (n : nat) : Prop :=
  (1 <= n <= 49)%nat /\ (forall k, (k < n)%nat -> exists b, number_of chk fetch url (31 + k) b) /\
  ((n < 49)%nat -> forall b, ~ number_of chk fetch url (31 + n) b).

(** ** Stations *)

Section Stations.
  Variables (powi : f32 -> Z -> f32) (clat clon : bulletin).
  (** The points of the model are not on a regular grid: one message has their latitudes, another one their longitudes. *)
  Definition station (i : nat) (la lo : f32) : Prop := at_point powi clat i (Some la) /\ at_point powi clon i (Some lo).
  (** Each point has a place, not too close to the antimeridian. *)
  Definition located : Prop := forall i, Z.of_nat i < points clat -> exists la lo, station i la lo /\
    fin la /\ fin lo /\ (Rabs (xr la) <= 90)%R /\ (Rabs (xr lo) <= 178)%R.

  (** The output has 1851 x 847 cells of 1/100 degree, from 0.81 degrees west and 42.03 degrees north on. *)
  Definition cell_lat (y : Z) : R := (42.03 + (IZR y + / 2) / 100)%R.
  Definition cell_lon (x : Z) : R := (- 0.81 + (IZR x + / 2) / 100)%R.
  (** The distance of a place from the centre of a cell (finding: degrees of longitude count as much as those of latitude). *)
  Definition apart (la lo : f32) (x y : Z) : R := dist_euc (xr la) (xr lo) (cell_lat y) (cell_lon x).
  (** The station is one of those that are nearest to the centre of the cell, up to 1/20000 degree, and not farther than 1/100. *)
  Definition closest_station (x y : Z) (i : nat) : Prop :=
    exists la lo, station i la lo /\ (apart la lo x y <= / 100 + / 40000)%R /\
      forall j la' lo', station j la' lo' -> (apart la lo x y <= apart la' lo' x y + / 20000)%R.
  (** No station is that near. *)
  Definition no_station (x y : Z) : Prop := forall i la lo, station i la lo -> (/ 100 - / 40000 <= apart la lo x y)%R.

  (** What a message says about a cell: that about the closest station; and nothing where there are no cells and no stations. *)
  Definition measured (b : bulletin) (x y : Z) (o : option f32) : Prop :=
    ((1851 <= x \/ 847 <= y) /\ o = None) \/
    (0 <= x < 1851 /\ 0 <= y < 847 /\ ((exists i, closest_station x y i /\ at_point powi b i o) \/ (no_station x y /\ o = None))).
  (** The same, except that the number -1 counts as nothing (finding). *)
  Definition reported (unit : f32 -> f32) (b : bulletin) (x y : Z) (o : option f32) : Prop :=
    exists o', measured b x y o' /\ o = match o' with Some v => if feq (unit v) (f32_of_Z (-1)) then None else Some (unit v) | None => None end.
End Stations.
Definition as_is (v : f32) : f32 := v.
(** Percent. *)
Definition hundredth (v : f32) : f32 := fdiv v (f32_of_Z 100).

(** The area of the output. *)
Definition swiss_area : extent :=
  {| min_coord := {| lat := f32_lit 4203 100; lon := f32_lit (-81) 100 |}; max_coord := {| lat := f32_lit 5050 100; lon := f32_lit 1770 100 |} |}.
(** What data for the cells say about a place: the value of the closest cell, respectively the interpolated value (finding: as
    if the values were for the south-western corners of the cells). *)
Definition swiss_near (cell : Z -> Z -> option f32 -> Prop) : lat_lon -> option f32 -> Prop := nearest swiss_area 1851 847 cell.
Definition swiss_between (cell : Z -> Z -> option f32 -> Prop) : lat_lon -> option f32 -> Prop := interpolated swiss_area 1851 847 cell.
(** A tile of the map with a place of the area well within it. *)
Definition swiss_tile (run : fc_run) (zoom x y : Z) : Prop :=
  tile_number run zoom x y /\ exists p, fin_coord p /\ in_extent swiss_area p /\ well_within zoom x y p.

(** ** Rendering *)

(** A successful rendering of the latest forecast. *)
Definition swiss_succeeded (chk : bool) (powi : f32 -> Z -> f32) (rfc3339 : rfc3339_parser) (sv : service) (m : libm)
  (steps : list Z) (vars : list string) (tr : list effect) : Prop :=
  dated rfc3339 sv /\ steady (sv_fetch sv) /\ (forall url bs, sv_fetch sv url (Ok bs) -> Forall is_byte bs) /\
  (forall b n, f32_valid b -> f32_valid (powi b n)) /\ swiss_render_latest chk powi rfc3339 sv m false steps vars tr (Ok tt).
(** The service gave the places of the stations, the file of the heights, and the reference time of the latest forecast. *)
Definition informed (chk : bool) (rfc3339 : rfc3339_parser) (sv : service) (clat clon : bulletin) (heights : string) (t : datetime) : Prop :=
  exists l hor vert, sv_assets sv (Ok l) /\
    first_asset "horizontal_constants_icon-ch1-eps.grib2" l hor /\
    number_of chk (sv_fetch sv) (as_href hor) 4 clat /\ number_of chk (sv_fetch sv) (as_href hor) 3 clon /\
    first_asset "vertical_constants_icon-ch1-eps.grib2" l vert /\ heights = as_href vert /\ latest rfc3339 sv t.
