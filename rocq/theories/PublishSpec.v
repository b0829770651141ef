(** The vocabulary of the property that goes from the messages of the German weather service to the published map and data
    files (C71). *)
From Coq Require Import String ZArith Reals List Bool.
From Flocq Require Import Core.Core.
From Verif Require Import Base F32 F32Facts Grib2Model Grib2Spec GeoModel GeoSpec ImagingModel ImagingSpec Par TileModel TileSpec ChartModel ChartSpec MetobinSpec
  ForecastModel ForecastSpec FetchModel FetchSpec DwdModel DwdSpec MapSpec FieldSpec.
Import ListNotations.
Open Scope Z_scope.

(** A message with its grid of points and its packing. *)
Record message := { ms_wire : wire; ms_points : wire3_0; ms_reference : Z; ms_binary : Z; ms_decimal : Z }.
(** The file of the run that the service gave starts with this message. *)
Definition served (chk : bool) (fetch : fetcher) (run : fc_run) (file : dwd_file) (ms : message) : Prop :=
  exists url bs bits field rest, url_layout run file url /\ fetch url (Ok bs) /\ wf_message chk (ms_wire ms) /\ bs = message_bytes (ms_wire ms) ++ rest /\
    w3_tpl (w_3 (ms_wire ms)) = W3_0 (ms_points ms) /\ w5_tpl (w_5 (ms_wire ms)) = W5_0 (ms_reference ms) (ms_binary ms) (ms_decimal ms) bits field.
(** Its number of points from west to east and from south to north. *)
Definition columns (ms : message) : Z := w30_ni (ms_points ms).
Definition rows (ms : message) : Z := w30_nj (ms_points ms).
(** What it says about the point in column i and row j: a number, or nothing. *)
Definition raw (powi : f32 -> Z -> f32) (ms : message) (i j : Z) (o : option f32) : Prop :=
  ((columns ms <= i \/ rows ms <= j) /\ o = None) \/
  (0 <= i < columns ms /\ 0 <= j < rows ms /\
   point_value powi (ms_wire ms) (ms_reference ms) (ms_binary ms) (ms_decimal ms) None Some (Z.to_nat (j * columns ms + i)) o).
(** The same, except that the number -1 counts as nothing (finding). *)
Definition told (powi : f32 -> Z -> f32) (ms : message) (i j : Z) (o : option f32) : Prop :=
  exists o', raw powi ms i j o' /\ o = match o' with Some v => if feq v (f32_of_Z (-1)) then None else Some v | None => None end.

(** A message with a point for each column and row, its south-western point first, between 85 degrees south and north. *)
Definition mapped (ms : message) : Prop :=
  let t := ms_points ms in
  w3_points (w_3 (ms_wire ms)) = columns ms * rows ms /\ 1 <= columns ms <= 2 ^ 24 /\ 1 <= rows ms <= 2 ^ 24 /\
  angle_field (w30_lat1 t) /\ angle_field (w30_lon1 t) /\ angle_field (w30_lat2 t) /\ angle_field (w30_lon2 t) /\
  micro (w30_lat1 t) + 400 <= micro (w30_lat2 t) /\ micro (w30_lon1 t) + 400 <= micro (w30_lon2 t) /\
  -85000000 <= micro (w30_lat1 t) /\ micro (w30_lat2 t) <= 85000000.
(** A message with a point for each column and row. *)
Definition gridded (ms : message) : Prop := w3_points (w_3 (ms_wire ms)) = columns ms * rows ms.
(** The levels of the model. *)
Definition level_of (run : fc_run) (level : Z) : Prop := first_level (run_model run) <= level <= last_level (run_model run).
Definition level_count (run : fc_run) : Z := last_level (run_model run) - first_level (run_model run) + 1.
(** The extent from its first to its last point. *)
Definition corners (ms : message) (e : extent) : Prop :=
  let t := ms_points ms in
  degrees_of (w30_lat1 t) (lat (min_coord e)) /\ degrees_of (w30_lon1 t) (lon (min_coord e)) /\
  degrees_of (w30_lat2 t) (lat (max_coord e)) /\ degrees_of (w30_lon2 t) (lon (max_coord e)).
(** What it says about a place: the value of the closest point, respectively the interpolated value (finding of C70: as if
    the points were the south-western corners of as many cells). *)
Definition told_near (powi : f32 -> Z -> f32) (ms : message) (p : lat_lon) (o : option f32) : Prop :=
  exists e, corners ms e /\ nearest e (columns ms) (rows ms) (told powi ms) p o.
Definition told_between (powi : f32 -> Z -> f32) (ms : message) (p : lat_lon) (o : option f32) : Prop :=
  exists e, corners ms e /\ interpolated e (columns ms) (rows ms) (told powi ms) p o.

(** The place is within the field and not closer than 1/11000 degree to its border. *)
Definition in_field (ms : message) (p : lat_lon) : Prop :=
  let t := ms_points ms in
  (IZR (micro (w30_lat1 t)) / 1000000 + / 11000 <= xr (lat p) < IZR (micro (w30_lat2 t)) / 1000000 - / 11000)%R /\
  (IZR (micro (w30_lon1 t)) / 1000000 + / 11000 <= xr (lon p) < IZR (micro (w30_lon2 t)) / 1000000 - / 11000)%R.
(** A tile of the map with a place of the field well within it. *)
Definition tile_with (ms : message) (run : fc_run) (zoom x y : Z) : Prop :=
  tile_number run zoom x y /\ exists p, fin_coord p /\ in_field ms p /\ well_within zoom x y p.

(** The file is there after the rendering, at its place, with this content, whatever was there before. *)
Definition holds (run : fc_run) (step_nr : Z) (f : out_file) (tr : list effect) (c : content) : Prop :=
  exists path, layout run step_nr f path /\ forall before, file_after path before tr = Some c.
(** An image of 256 x 256 pixels, with a colour as said for each pixel and the place the Web-Mercator map has there. *)
Definition painted (zoom x y : Z) (img : drawable) (colour : lat_lon -> color -> Prop) : Prop :=
  d_w img = 256 /\ d_h img = 256 /\ forall j i, inside 256 256 j i -> exists p c, depicts zoom x y j i p /\ pixel img j i = Some c /\ colour p c.

(** A successful rendering of the latest forecast, which is that of [run]. *)
Definition succeeded (chk : bool) (powi : f32 -> Z -> f32) (fetch : fetcher) (m : libm) (head : heads) (today today' : date) (model : fc_model)
  (vars : list string) (steps : list Z) (run : fc_run) (tr : list effect) : Prop :=
  dwd_model model /\ valid_date today /\ valid_date (prev_day today') /\ steady fetch /\
  (forall b n, f32_valid b -> f32_valid (powi b n)) /\ find_latest_run head model today today' = Ok run /\
  dwd_render_latest chk powi fetch m false head today today' model vars steps tr (Ok tt).

(** The files of the run that the layers of the steps are made of. *)
Definition needed (vars : list string) (steps : list Z) (run : fc_run) (file : dwd_file) : Prop :=
  exists n, wanted_nr run steps n /\
    match file with
    | SingleFile T2m k => named vars Temp2m /\ k = n
    | SingleFile U10m k | SingleFile V10m k | SingleFile Vmax10m k => named vars Wind10m /\ k = n
    | SingleFile TotPrec k => named vars CloudPrecip /\ (k = n - 1 \/ k = n)
    | SingleFile ClctMod k | SingleFile Ceiling k | SingleFile Ww k => named vars CloudPrecip /\ k = n
    | LevelFile Clc k level => named vars VerticalCloud /\ k = n /\ level_of run level
    | LevelFile UWind k level | LevelFile VWind k level => named vars VerticalWind /\ k = n /\ level_of run level
    | HeightFile level => (named vars VerticalCloud \/ named vars VerticalWind) /\ level_of run level
    end.

(** ** Bytes of the files of vertical profiles *)

(** The byte for a height in m: hundreds of feet; 0 counts as nothing (finding), which is 255. *)
Definition height_code (o : option f32) (b : Z) : Prop :=
  match o with
  | None => b = 255
  | Some v => num v -> exists k : Z, 0 <= k <= 255 /\ (IZR k - / 16384 <= within 0 255 (in_feet v / 100) < IZR k + 1 + / 16384)%R /\ b = if k =? 0 then 255 else k
  end.
(** The byte for a cloud cover in percent: likewise. *)
Definition cover_code (o : option f32) (b : Z) : Prop :=
  match o with None => b = 255 | Some v => num v -> b = if floor_within (xr v) =? 0 then 255 else floor_within (xr v) end.
(** The bytes for the components of the wind in m/s. *)
Definition level_wind_code (u v : option f32) (rec : bytes) : Prop :=
  match u, v with
  | Some u, Some v => exists a b, rec = [a; b] /\ knots_code 128 u a /\ knots_code 128 v b
  | _, _ => rec = [255; 255]
  end.
