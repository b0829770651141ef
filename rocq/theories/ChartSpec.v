(** The vocabulary of the properties of charts: legends, composition of colours, equal grids. *)
From Coq Require Import ZArith Reals List Bool.
From Flocq Require Import Core.Core.
From Verif Require Import Base F32 F32Facts GeoModel GeoSpec ImagingModel ImagingSpec.
Import ListNotations.
Open Scope Z_scope.

(** ** Legends *)

(** A legend: the upper limits (not included) of the classes with their colours, and the colour of
    everything above. *)
Record legend := { lg_classes : list (R * color); lg_top : color }.
(** Colour [c] belongs to the class of [r]: the first one whose limit is above [r]. *)
Definition class_of (lg : legend) (r : R) (c : color) : Prop :=
  (exists i limit, nth_error (lg_classes lg) i = Some (limit, c) /\ (r < limit)%R /\
     forall j limit' c', (j < i)%nat -> nth_error (lg_classes lg) j = Some (limit', c') -> (limit' <= r)%R) \/
  (c = lg_top lg /\ forall limit c', In (limit, c') (lg_classes lg) -> (limit <= r)%R).
(** The colour of a float; NaN is in the last class. *)
Definition shade (lg : legend) (x : f32) (c : color) : Prop :=
  if fis_nan x then c = lg_top lg else class_of lg (xr x) c.

(** A decimal number as a float: [rnd] is rounding to nearest. *)
Definition decimal (p q : Z) : R := rnd (IZR p / IZR q).

(** Precipitation in mm. *)
Definition rain_legend : legend :=
  {| lg_classes := [(decimal 1 10, rgba 0 0 0 0); (1%R, rgba 0 192 255 127); (2%R, rgba 0 0 255 191);
       (4%R, rgba 0 127 0 191); (6%R, rgba 0 255 0 191); (10%R, rgba 255 255 0 191);
       (20%R, rgba 255 191 0 191); (40%R, rgba 255 128 0 191); (60%R, rgba 255 0 0 191)];
     lg_top := rgba 163 73 164 191 |}.
(** Cloud cover between 0 and 1. *)
Definition cloud_legend : legend :=
  {| lg_classes := [(decimal 5 100, rgba 0 0 0 127); (decimal 4 10, rgba 255 255 255 127);
       (decimal 5 10, rgba 255 255 255 159); (decimal 6 10, rgba 255 255 255 191);
       (decimal 7 10, rgba 255 255 255 207); (decimal 8 10, rgba 255 255 255 223);
       (decimal 9 10, rgba 255 255 255 239)];
     lg_top := rgba 255 255 255 255 |}.
(** The temperature in degrees Celsius of a temperature in Kelvin. *)
Definition celsius (k : f32) : R := (xr k - decimal 27315 100)%R.
(** Temperature in degrees Celsius. *)
Definition temp_legend : legend :=
  {| lg_classes := map (fun e => (IZR (fst e), match snd e with (r, g, b) => rgba r g b 127 end))
       [(-16, (255, 66, 255)); (-14, (255, 109, 255)); (-12, (255, 153, 255)); (-10, (255, 204, 255));
        (-8, (255, 255, 255)); (-6, (219, 235, 250)); (-4, (0, 212, 245)); (-2, (148, 189, 240));
        (0, (115, 166, 235)); (2, (222, 230, 153)); (4, (166, 212, 115)); (6, (107, 191, 77));
        (8, (51, 171, 38)); (10, (0, 153, 0)); (12, (51, 179, 0)); (14, (102, 204, 0));
        (16, (153, 230, 0)); (18, (204, 255, 0)); (20, (255, 255, 0)); (22, (255, 204, 0));
        (24, (255, 153, 0)); (26, (255, 102, 0)); (28, (255, 51, 0)); (30, (255, 0, 0));
        (32, (255, 0, 255)); (34, (255, 64, 255)); (36, (255, 128, 255)); (38, (255, 191, 255))];
     lg_top := rgba 255 255 255 127 |}.
(** A number of knots in m/s, as computed with the constant 0.514444. *)
Definition knots (k : Z) : R := rnd (IZR k * decimal 514444 1000000).
(** Wind speed in m/s. *)
Definition wind_legend : legend :=
  {| lg_classes := [(knots 5, rgba 0 127 0 255); (knots 10, rgba 0 255 0 255); (knots 15, rgba 255 255 0 255);
       (knots 20, rgba 255 191 0 255); (knots 25, rgba 255 128 0 255); (knots 30, rgba 255 0 0 255);
       (knots 40, rgba 163 73 164 255); (knots 50, rgba 99 112 247 255)];
     lg_top := rgba 0 0 255 255 |}.

(** ** Composition *)

(** Source-over: a colour [s] with opacity [sa] over a colour [d] with opacity [da], on the scale
    0..255; the result is multiplied with its opacity. *)
Definition over (s sa d da : Z) : R :=
  (IZR s * (IZR sa / 255) + IZR d * (IZR da / 255) * (1 - IZR sa / 255))%R.
Definition over_alpha (sa da : Z) : R := (IZR sa + IZR da * (1 - IZR sa / 255))%R.
(** [v] is [r] rounded down, up to [n] roundings. *)
Definition rounded_down (n : Z) (r : R) (v : Z) : Prop := (r - IZR n < IZR v <= r)%R.
Definition byte_color (c : color) : Prop := is_byte (c_r c) /\ is_byte (c_g c) /\ is_byte (c_b c) /\ is_byte (c_a c).

(** [c] is the composition of the colour of the rain over that of the clouds: channels within 0..255,
    neither component shining through more than by itself. *)
Definition composed (rain cloud c : color) : Prop :=
  byte_color c /\ (forall k, In k [c_r; c_g; c_b] -> rounded_down 2 (over (k rain) (c_a rain) (k cloud) (c_a cloud)) (k c)) /\
  rounded_down 1 (over_alpha (c_a rain) (c_a cloud)) (c_a c) /\ c_a rain <= c_a c /\ c_a cloud <= c_a c.

(** ** Grids *)

(** The same number, whatever the sign of zero. *)
Definition same_number (x y : f32) : Prop := fis_nan x = false /\ fis_nan y = false /\ xr x = xr y.
Definition same_coord (a b : lat_lon) : Prop := same_number (lat a) (lat b) /\ same_number (lon a) (lon b).
Definition same_extent (a b : extent) : Prop := same_coord (min_coord a) (min_coord b) /\ same_coord (max_coord a) (max_coord b).
Definition dims {T} (g : value_grid T) : Z * Z := (g_w (vg_grid g), g_h (vg_grid g)).
Definition extent_of {T} (g : value_grid T) : extent := g_extent (vg_grid g).
Definition same_grid {S T} (a : value_grid S) (b : value_grid T) : Prop :=
  dims a = dims b /\ same_extent (extent_of a) (extent_of b).
Definition valid_coord (c : lat_lon) : Prop := f32_valid (lat c) /\ f32_valid (lon c).
(** The coordinates of the extent are binary32 values. *)
Definition valid_grid {T} (g : value_grid T) : Prop :=
  valid_coord (min_coord (extent_of g)) /\ valid_coord (max_coord (extent_of g)).
(** There is a value for each cell (values behind them are never looked at). *)
Definition complete {T} (g : value_grid T) : Prop := fst (dims g) * snd (dims g) <= Z.of_nat (length (vg_values g)).

(** The colour of a cell: that of its value, transparent if there is none. *)
Definition cell_colour {T} (value : Z -> Z -> outcome (option T)) (color_fn : T -> outcome color) (x y : Z) : outcome color :=
  obind (value x y) (fun ov => match ov with Some v => color_fn v | None => Ok COLOR_TRANSPARENT end).

Definition or_zero (o : option f32) : f32 := match o with Some v => v | None => fzero end.
(** What a chart shows, for a size that fits. *)
Definition charted {T} (d : drawable) (w h : Z) (value : Z -> Z -> outcome (option T)) (color_fn : T -> outcome color) : Prop :=
  drawable_ok d /\ d_w d = w /\ d_h d = h /\
  (forall x y, inside w h x y -> exists c, cell_colour value color_fn x y = Ok c /\ pixel d x (h - 1 - y) = Some c).

(** ** Wind directions *)

(** [a] is the angle, in radians, of the vector with the components [e] towards east and [n] towards north: 0 is east, and it
    increases towards north. *)
Definition angle_of (e n a : R) : Prop :=
  (- PI <= a <= PI /\ e = sqrt (e * e + n * n) * cos a /\ n = sqrt (e * e + n * n) * sin a)%R.
(** What is assumed about the library's [atan2], called as [y.atan2(x)]: an error of at most 2^-20. *)
Definition atan2_accurate (f : f32 -> f32 -> f32) : Prop :=
  forall y x, fin y -> fin x -> (xr x <> 0 \/ xr y <> 0)%R ->
  exists a, angle_of (xr x) (xr y) a /\ fin (f y x) /\ (Rabs (xr (f y x) - a) <= / IZR (2 ^ 20))%R.
