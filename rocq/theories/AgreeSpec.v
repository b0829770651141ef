(** The vocabulary of C84: the published map and the published data file of a step tell the same. *)
From Coq Require Import ZArith Reals List Bool.
From Flocq Require Import Core.Core.
From Verif Require Import Base F32 F32Facts GeoModel GeoSpec ImagingModel ImagingSpec TileModel TileSpec ChartModel ChartSpec MetobinSpec ForecastModel ForecastSpec MapSpec.
Import ListNotations.
Open Scope R_scope.

(** A pixel that shows the position [p] has the colour [c], and the data file has w x h records of k bytes: the colour agrees with the record of the cell
    closest to the position; it is transparent if the position is not in the extent or there is no such cell. *)
Definition shown (e : extent) (k w h : Z) (data : bytes) (agrees : bytes -> color -> Prop) (p : lat_lon) (c : color) : Prop :=
  (~ in_extent e p /\ c = COLOR_TRANSPARENT) \/
  (in_extent e p /\ exists i j, closest (lon (min_coord e)) (lon (max_coord e)) w (lon p) i /\ closest (lat (min_coord e)) (lat (max_coord e)) h (lat p) j /\
    (((w <= i \/ h <= j)%Z /\ c = COLOR_TRANSPARENT) \/ ((i < w /\ j < h)%Z /\ agrees (slice data (k * (j * w + i)) k) c))).

(** A byte of the temperature file, half degrees Celsius counted from -64, and a colour: the colour is that of a temperature within a quarter
    of a degree; 0 stands for everything below, 255 for everything above and for no temperature. *)
Definition temperature_agrees (rec : bytes) (c : color) : Prop :=
  exists b, rec = [b] /\ (0 <= b <= 255)%Z /\
    ((b = 255%Z /\ c = COLOR_TRANSPARENT) \/
     exists t, class_of temp_legend t c /\
       ((b = 255%Z /\ 63.25 <= t) \/ ((b < 255)%Z /\ t <= (IZR b - 128) / 2 + / 4 /\ (b = 0%Z \/ (IZR b - 128) / 2 - / 4 <= t)))).
(** The three bytes of the wind file and a colour: the colour is that of a speed [s] in m/s that is within three quarters of a knot of the
    length of the vector of the first two bytes, counted from 128; 0 and 254 also stand for everything below and above. *)
Definition wind_agrees (rec : bytes) (c : color) : Prop :=
  (rec = [255; 255; 255]%Z /\ c = COLOR_TRANSPARENT) \/
  exists be bn bg s, rec = [be; bn; bg] /\ (0 <= be <= 254)%Z /\ (0 <= bn <= 254)%Z /\ class_of wind_legend s c /\
    let speed := s * decimal 194384 100000 in
    let told := sqrt ((IZR be - 128) * (IZR be - 128) + (IZR bn - 128) * (IZR bn - 128)) in
    told - 3 / 4 <= speed /\ ((0 < be < 254)%Z -> (0 < bn < 254)%Z -> speed <= told + 3 / 4).

(** The amount in mm that a byte of the precipitation file stands for. *)
Definition amount_of (b : Z) (a : R) : Prop :=
  (b = 0%Z /\ a < decimal 2 10) \/ (b = 1%Z /\ decimal 2 10 <= a <= 3 / 4) \/ ((2 <= b <= 254)%Z /\ Rabs (a - IZR b / 2) <= / 4) \/ (b = 255%Z /\ 127.25 <= a).
(** Precipitation is interpolated: the amount shown at a position is that between the amounts of the four cells around it, up to 1/100 mm; on
    a line through the cells it is that of the next cell to the south and to the west. There is none outside of the extent and behind the last cells. *)
Definition amount_shown (e : extent) (w h : Z) (data : bytes) (p : lat_lon) (r : R) : Prop :=
  let told i j a := (0 <= i < w /\ 0 <= j < h)%Z /\ exists b, slice data (j * w + i) 1 = [b] /\ amount_of b a in
  (~ in_extent e p /\ r = 0) \/
  (in_extent e p /\ exists i j fx fy, (0 <= i)%Z /\ (0 <= j)%Z /\ 0 <= fx < 1 /\ 0 <= fy < 1 /\
    Rabs (IZR i + fx - cells_from (lon (min_coord e)) (lon (max_coord e)) w (lon p)) <= IZR w / 2097152 /\
    Rabs (IZR j + fy - cells_from (lat (min_coord e)) (lat (max_coord e)) h (lat p)) <= IZR h / 2097152 /\
    (((fx = 0 \/ fy = 0) /\ ((w <= i \/ h <= j)%Z /\ r = 0 \/ told i j r)) \/
     (0 < fx /\ 0 < fy /\ ((w <= i + 1 \/ h <= j + 1)%Z /\ r = 0 \/
        exists sw se nw ne, told i j sw /\ told (i + 1)%Z j se /\ told i (j + 1)%Z nw /\ told (i + 1)%Z (j + 1)%Z ne /\
          Rabs (r - bilinear fx fy sw se nw ne) <= / 100)))).
(** A value of a total that is not missing and not absurd. *)
Definition plain_total (g : fgrid) (v : f32) : Prop := feq v (vg_missing g) = false /\ fin v /\ Rabs (xr v) <= 1024.
