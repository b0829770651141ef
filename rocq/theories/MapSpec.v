(** The vocabulary of the properties of the published map and data files. *)
From Coq Require Import ZArith Reals List Bool.
From Flocq Require Import Core.Core.
From Verif Require Import Base F32 F32Facts GeoModel GeoSpec ImagingModel ImagingSpec TileModel TileSpec ChartModel ChartSpec MetobinSpec ForecastModel ForecastSpec.
Import ListNotations.
Open Scope Z_scope.

(** A regular grid with one binary32 value for each cell. *)
Definition regular (g : fgrid) : Prop :=
  exists vs missing w h e, g = value_grid_new vs missing w h e /\ grid_ok w h e /\ length vs = Z.to_nat (w * h) /\ Forall f32_valid vs.
(** The value of cell (i, j), counted from the south-west corner; there is none outside of the grid, and none if the number
    stored is the one that stands for a missing value. *)
Definition cell_value (g : fgrid) (i j : Z) (o : option f32) : Prop :=
  let (w, h) := dims g in
  (w <= i /\ o = None) \/ (h <= j /\ o = None) \/
  (0 <= i < w /\ 0 <= j < h /\ exists v, nth_error (vg_values g) (Z.to_nat (j * w + i)) = Some v /\
     ((feq v (vg_missing g) = true /\ o = None) \/ (feq v (vg_missing g) = false /\ o = Some v))).

(** A step that is to be rendered, with its data. *)
Definition selected {L} (run : fc_run) (steps : list fc_step) (filter : list Z) (read : fc_step -> outcome L -> Prop) (s : fc_step) (l : L) : Prop :=
  valid_run run /\ Forall (fun s => 0 <= st_nr s) steps /\ NoDup (map st_nr steps) /\ stable read /\ In s steps /\ wanted filter s /\ read s (Ok l).
(** A tile of the map that is published for the model. *)
Definition tile_number (run : fc_run) (zoom x y : Z) : Prop := 0 <= zoom <= last_zoom (run_model run) /\ 0 <= x < 2 ^ zoom /\ 0 <= y < 2 ^ zoom.

Open Scope R_scope.
(** The position belongs to the extent; the upper limits do not. *)
Definition in_extent (e : extent) (p : lat_lon) : Prop :=
  xr (lat (min_coord e)) <= xr (lat p) < xr (lat (max_coord e)) /\ xr (lon (min_coord e)) <= xr (lon p) < xr (lon (max_coord e)).
(** How far, counted in cells, [v] is from [mn] if there are [n] cells up to [mx]. *)
Definition cells_from (mn mx : f32) (n : Z) (v : f32) : R := IZR n * ((xr v - xr mn) / (xr mx - xr mn)).
(** The number of a cell that is not farther than half a cell from there, up to the rounding of the computation. *)
Definition closest (mn mx : f32) (n : Z) (v : f32) (i : Z) : Prop :=
  (0 <= i)%Z /\ Rabs (IZR i - cells_from mn mx n v) <= / 2 + IZR n / 2097152.
(** What data with one value for each of w x h cells of an extent say about a position: the value of the closest cell, nothing
    outside of the extent. *)
Definition nearest (e : extent) (w h : Z) (cell : Z -> Z -> option f32 -> Prop) (p : lat_lon) (o : option f32) : Prop :=
  (~ in_extent e p /\ o = None) \/
  (in_extent e p /\ exists i j, closest (lon (min_coord e)) (lon (max_coord e)) w (lon p) i /\ closest (lat (min_coord e)) (lat (max_coord e)) h (lat p) j /\ cell i j o).
Definition value_near (g : fgrid) : lat_lon -> option f32 -> Prop := nearest (extent_of g) (fst (dims g)) (snd (dims g)) (cell_value g).
(** A value between four values, at the fractions fx and fy of the way from west to east and from south to north: bilinear up
    to 2^-18 of the magnitude of the values, and nothing if one of them is missing. *)
Definition blend (fx fy : R) (sw se nw ne o : option f32) : Prop :=
  match sw, se, nw, ne with
  | Some a, Some b, Some c, Some d => exists v, o = Some v /\ forall mag, 1 <= mag <= bpow radix2 100 ->
      Forall (fun u => fin u /\ Rabs (xr u) <= mag) [a; b; c; d] ->
      fin v /\ Rabs (xr v - bilinear fx fy (xr a) (xr b) (xr c) (xr d)) <= mag * bpow radix2 (-18)
  | _, _, _, _ => o = None
  end.
(** What such data say about a position if the values are interpolated: the blend of the four cells around it; on a line
    through the cells the value of the next cell to the south and to the west (finding of C17). *)
Definition interpolated (e : extent) (w h : Z) (cell : Z -> Z -> option f32 -> Prop) (p : lat_lon) (o : option f32) : Prop :=
  (~ in_extent e p /\ o = None) \/
  (in_extent e p /\ exists i j fx fy, (0 <= i)%Z /\ (0 <= j)%Z /\ 0 <= fx < 1 /\ 0 <= fy < 1 /\
    Rabs (IZR i + fx - cells_from (lon (min_coord e)) (lon (max_coord e)) w (lon p)) <= IZR w / 2097152 /\
    Rabs (IZR j + fy - cells_from (lat (min_coord e)) (lat (max_coord e)) h (lat p)) <= IZR h / 2097152 /\
    (((fx = 0 \/ fy = 0) /\ cell i j o) \/
     (0 < fx /\ 0 < fy /\ exists sw se nw ne, cell i j sw /\ cell (i + 1)%Z j se /\ cell i (j + 1)%Z nw /\ cell (i + 1)%Z (j + 1)%Z ne /\
        blend fx fy sw se nw ne o))).
Definition value_between (g : fgrid) : lat_lon -> option f32 -> Prop := interpolated (extent_of g) (fst (dims g)) (snd (dims g)) (cell_value g).

(** The place that the Web-Mercator map has at column j and row i of a tile: the exact longitude, and the latitude up to
    283 / 4^zoom + 1/4096 degrees. *)
Definition depicts (zoom x y j i : Z) (p : lat_lon) : Prop :=
  fin_coord p /\ xr (lon p) = column_lon zoom (IZR x + IZR j / 256) /\
  Rabs (xr (lat p) - row_lat zoom (IZR y + IZR i / 256)) <= 283 / IZR (4 ^ zoom) + / 4096.

(** An extent within the square map. *)
Definition on_map (e : extent) : Prop :=
  fin_extent e /\ - (851 / 10) <= xr (lat (min_coord e)) /\ xr (lat (min_coord e)) <= xr (lat (max_coord e)) <= 851 / 10 /\
  -180 <= xr (lon (min_coord e)) /\ xr (lon (min_coord e)) <= xr (lon (max_coord e)) <= 180.
(** The place is in tile x/y of the Web-Mercator map, and not too close to its borders. *)
Definition well_within (zoom x y : Z) (p : lat_lon) : Prop :=
  column_lon zoom (IZR x) <= xr (lon p) <= column_lon zoom (IZR x + 1) - / 16384 /\
  IZR y + IZR (2 ^ zoom) / 16384 <= row_at zoom (xr (lat p)) < IZR y + 1 - IZR (2 ^ zoom) / 16384.

(** ** Colours of the three maps *)

(** The colour for what is known about the temperature, in Kelvin. *)
Definition temperature_colour (o : option f32) (c : color) : Prop :=
  match o with
  | None => c = COLOR_TRANSPARENT
  | Some k => if fis_nan k then c = lg_top temp_legend else class_of temp_legend (celsius k) c
  end.
(** The length of a vector, up to 2^-21 and 2^-73. *)
Definition length_of (e n s : f32) : Prop :=
  Rabs (xr s - sqrt (xr e * xr e + xr n * xr n)) <= / IZR (2 ^ 21) * sqrt (xr e * xr e + xr n * xr n) + / IZR (2 ^ 73).
Definition moderate (v : f32) : Prop := fin v /\ Rabs (xr v) <= IZR (2 ^ 60).
(** The colour for the components of the wind in m/s. *)
Definition wind_colour (e n : option f32) (c : color) : Prop :=
  match e, n with
  | Some e, Some n => exists s, shade wind_legend s c /\ (moderate e -> moderate n -> fin s /\ 0 <= xr s /\ length_of e n s)
  | _, _ => c = COLOR_TRANSPARENT
  end.
(** The colour for a cloud cover and the precipitation totals of this step and the previous one. *)
Definition rain_colour (cover before now : option f32) (c : color) : Prop :=
  exists rain cloud, shade rain_legend (fsub (or_zero now) (or_zero before)) rain /\ shade cloud_legend (or_zero cover) cloud /\ composed rain cloud c.

(** ** Bytes of the data files *)

(** The byte for what is known about the temperature, in Kelvin: half degrees Celsius, counted from -64. *)
Definition temperature_code (o : option f32) (b : Z) : Prop :=
  match o with
  | None => b = 255%Z
  | Some k => num k -> (celsius k <= -64.25 -> b = 0%Z) /\ (63.25 <= celsius k -> b = 255%Z) /\
      (-64.25 < celsius k < 63.25 -> (0 <= b <= 254)%Z /\ Rabs ((IZR b - 128) / 2 - celsius k) <= / 4)
  end.
(** The byte for the precipitation of the last step, in mm. *)
Definition rain_code (before now : option f32) (b : Z) : Prop :=
  let p := fsub (or_zero now) (or_zero before) in
  num p -> (xr p < decimal 2 10 -> b = 0%Z) /\ (decimal 2 10 <= xr p < 1 / 2 -> b = 1%Z) /\ (1 / 2 <= xr p -> b = Z.min 255 (Zround (2 * xr p))).
(** The bytes for the components of the wind and for the gusts, in m/s: knots, those of the components counted from -128. *)
Definition knots_code (offset : R) (v : f32) (b : Z) : Prop :=
  (0 <= b <= 254)%Z /\ (num v -> Rabs (IZR b - within 0 254 (in_knots v + offset)) <= / 2 + / 16384).
Definition wind_code (e n gust : option f32) (rec : bytes) : Prop :=
  match e, n with
  | Some e, Some n => exists be bn bg, rec = [be; bn; bg] /\ knots_code 128 e be /\ knots_code 128 n bn /\
      match gust with Some g => knots_code 0 g bg | None => bg = 255%Z end
  | _, _ => rec = [255; 255; 255]%Z
  end.
(** The bytes for the weather code, the cloud cover and the ceiling in m. *)
Definition weather_code (ww cover ceiling : option f32) (rec : bytes) : Prop :=
  exists b c, rec = [b; c] /\
    (forall v, ww = Some v -> num v -> In (floor_within (xr v)) wmo_codes /\ ((4 < floor_within (xr v))%Z -> b = floor_within (xr v))) /\
    ((forall v, ww = Some v -> num v /\ (floor_within (xr v) <= 4)%Z) -> match cover with Some cv => num cv -> sky_code (xr cv) b | None => b = 255%Z end) /\
    match ceiling with Some m => num m -> Rabs (IZR c - within 0 255 (in_feet m / 200)) <= / 2 + / 16384 | None => c = 255%Z end.
(** The cell of a grid that may be absent. *)
Definition cell_value_opt (og : option fgrid) (i j : Z) (o : option f32) : Prop :=
  match og with Some g => cell_value g i j o | None => o = None end.
(** What a level of a profile has in cell (i, j). *)
Definition level_cell (levels : list (value_grid Z)) (level i j : Z) (o : option Z) : Prop :=
  exists g, nth_error levels (Z.to_nat level) = Some g /\
    let (w, h) := dims g in
    (w <= i /\ o = None)%Z \/ (h <= j /\ o = None)%Z \/
    ((0 <= i < w)%Z /\ (0 <= j < h)%Z /\ exists v, nth_error (vg_values g) (Z.to_nat (j * w + i)%Z) = Some v /\
       ((v = vg_missing g /\ o = None) \/ (v <> vg_missing g /\ o = Some v))).
