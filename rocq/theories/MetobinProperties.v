(** The properties C40-C45, C56 and C57, about meteobin files and unit conversions. *)
From Coq Require Import ZArith Reals List Bool Lia Lra.
From Coq Require Import Floats.SpecFloat.
From Flocq Require Import Core.Core.
From Verif Require Import Base F32 F32Facts Grib2Model Grib2Spec Grib2FloatProofs Grib2Samples GeoModel GeoSpec GeoProofs GeoValueProofs
  PhysicsModel ChartModel ChartSpec ChartProofs MetobinModel MetobinSpec MetobinProofs.
Import ListNotations.
Open Scope Z_scope.

(** ** C40: layout *)

(** C40.  For layers with complete grids the files have k bytes per cell, row by row, and each record
    holds the bytes of its cell. *)
Theorem C40_precip : forall l w h, dims (cp_cloud l) = (w, h) -> 0 <= w -> 0 <= h ->
  complete (cp_cloud l) -> complete (cp_precip0 l) -> complete (cp_precip1 l) ->
  exists data, precip_bin l = Ok data /\
    laid_out 1 w h data (fun x y b => exists v, cloud_and_precip_by_xy l x y = Ok v /\ b = [precip_byte v]).
Proof. exact c40_precip_proof. Qed.
Print Assumptions C40_precip.
Theorem C40_temp : forall l w h, dims l = (w, h) -> 0 <= w -> 0 <= h -> complete l ->
  exists data, temp_bin l = Ok data /\
    laid_out 1 w h data (fun x y b => exists v, temp_by_xy l x y = Ok v /\ b = [temp_byte v]).
Proof. exact c40_temp_proof. Qed.
Print Assumptions C40_temp.
Theorem C40_wind : forall l w h, dims (wl_zonal l) = (w, h) -> 0 <= w -> 0 <= h ->
  complete (wl_zonal l) -> complete (wl_meridional l) -> (forall g, wl_gusts l = Some g -> complete g) ->
  exists data, wind_bin l = Ok data /\
    laid_out 3 w h data (fun x y b => exists e_n g, wind_e_n_by_xy l x y = Ok e_n /\ gusts_by_xy l x y = Ok g /\
      b = match e_n with Some (e, n) => [speed_byte e; speed_byte n; gust_byte g] | None => [255; 255; 255] end).
Proof. exact c40_wind_proof. Qed.
Print Assumptions C40_wind.
(** C40.  A weather file can only fail because of an unknown weather code. *)
Theorem C40_weather : forall l w h, dims (we_clct l) = (w, h) -> 0 <= w -> 0 <= h -> complete (we_clct l) -> complete (we_ceiling l) ->
  match weather_bin l with
  | Ok data => laid_out 2 w h data (fun x y b => exists ww clct ceiling, ww_by_xy l x y = Ok ww /\ clct_by_xy l x y = Ok clct /\
      ceiling_by_xy l x y = Ok ceiling /\ b = [ww_byte ww clct; ceiling_byte ceiling])
  | Err e => False
  | Panic => exists x y, 0 <= x < w /\ 0 <= y < h /\ ww_by_xy l x y = Panic
  end.
Proof. exact c40_weather_proof. Qed.
Print Assumptions C40_weather.
(** C40.  The files of vertical profiles: the records of the levels follow each other within the
    record of a cell. *)
Theorem C40_vertical_cloud : forall hhl clc l g w h n, vertical_cloud_new hhl clc = Ok l -> hd_error clc = Some g -> dims g = (w, h) -> 0 <= w -> 0 <= h ->
  n = Z.of_nat (length clc) -> Forall complete hhl -> Forall complete clc ->
  exists data, vertical_cloud_bin l = Ok data /\
    laid_out (2 * n) w h data (fun x y rec => forall level, 0 <= level < n -> exists a b,
      level_value hhl x y level = Ok a /\ level_value clc x y level = Ok b /\ slice rec (2 * level) 2 = [unwrap_or a 255; unwrap_or b 255]).
Proof. exact c40_vertical_cloud_proof. Qed.
Print Assumptions C40_vertical_cloud.
Theorem C40_vertical_wind : forall hhl u v l g w h n, vertical_wind_new hhl u v = Ok l -> hd_error u = Some g -> dims g = (w, h) -> 0 <= w -> 0 <= h ->
  n = Z.of_nat (length u) -> Forall complete hhl -> Forall complete u -> Forall complete v ->
  exists data, vertical_wind_bin l = Ok data /\
    laid_out (3 * n) w h data (fun x y rec => forall level, 0 <= level < n -> exists a b c,
      level_value hhl x y level = Ok a /\ level_value u x y level = Ok b /\ level_value v x y level = Ok c /\
      slice rec (3 * level) 3 = unwrap_or a 255 :: match b, c with Some b', Some c' => [b'; c'] | _, _ => [255; 255] end).
Proof. exact c40_vertical_wind_proof. Qed.
Print Assumptions C40_vertical_wind.

Definition box : extent :=
  {| min_coord := {| lat := f32_of_Z 40; lon := f32_of_Z 5 |}; max_coord := {| lat := f32_of_Z 50; lon := f32_of_Z 15 |} |}.
(** A grid of 3 x 2 cells; -1 is missing. *)
Definition cells (vs : list Z) : fgrid := value_grid_new (map f32_of_Z vs) (f32_of_Z (-1)) 3 2 box.
Definition levels (vs : list Z) : bgrid := value_grid_new vs 255 3 2 box.
(** The second row follows the first; the missing cell (1,1) is 255. *)
Example C40_sample : temp_bin (cells [273; 274; 275; 283; -1; 293]) = Ok [128; 130; 132; 148; 255; 168] /\
  complete (cells [273; 274; 275; 283; -1; 293]) /\ dims (cells [273; 274; 275; 283; -1; 293]) = (3, 2).
Proof. split; [vm_compute; reflexivity|]. split; [vm_compute; discriminate|reflexivity]. Qed.
Example C40_sample_wind :
  obind (wind_new (cells [10; 0; -10; -1; 5; 0]) (cells [0; 20; 0; 3; -20; 0]) (Some (cells [12; -1; 20; 20; 20; 2]))) wind_bin
  = Ok [147; 128; 23; 128; 167; 255; 109; 128; 39; 255; 255; 255; 138; 89; 39; 128; 128; 4].
Proof. vm_compute. reflexivity. Qed.
Example C40_sample_vertical :
  obind (vertical_cloud_new [levels [10; 11; 12; 13; 14; 15]; levels [20; 21; 22; 23; 24; 255]] [levels [1; 2; 3; 4; 5; 6]; levels [0; 255; 0; 100; 0; 50]]) vertical_cloud_bin
  = Ok [10; 1; 20; 0; 11; 2; 21; 255; 12; 3; 22; 0; 13; 4; 23; 100; 14; 5; 24; 0; 15; 6; 255; 50].
Proof. vm_compute. reflexivity. Qed.

(** ** C41: temperature *)

(** C41.  Between -64.25 and 63.25 degrees Celsius the byte decodes to within a quarter of a degree. *)
Theorem C41_accurate : forall k, num k -> (-64.25 < celsius k < 63.25)%R ->
  0 <= temp_byte (Some k) <= 254 /\ (Rabs ((IZR (temp_byte (Some k)) - 128) / 2 - celsius k) <= / 4)%R.
Proof. exact c41_accurate_proof. Qed.
Print Assumptions C41_accurate.
Theorem C41_monotone : forall k k', num k -> num k' -> (xr k <= xr k')%R -> temp_byte (Some k) <= temp_byte (Some k').
Proof. exact c41_monotone_proof. Qed.
Print Assumptions C41_monotone.
(** C41.  Below, the byte is 0. *)
Theorem C41_cold : forall k, num k -> (celsius k <= -64.25)%R -> temp_byte (Some k) = 0.
Proof. exact c41_cold_proof. Qed.
Print Assumptions C41_cold.
(** C41, with a finding: the byte is 255, which stands for missing, iff there is no temperature or it
    is at least 63.25 degrees Celsius. *)
Theorem C41_missing : forall v, (forall k, v = Some k -> f32_valid k) ->
  (temp_byte v = 255 <-> v = None \/ exists k, v = Some k /\ num k /\ (63.25 <= celsius k)%R).
Proof. exact c41_missing_proof. Qed.
Print Assumptions C41_missing.
Example C41_sample : temp_byte (Some (f32_lit 28340 100)) = 149 /\ temp_byte (Some (f32_of_Z 200)) = 0 /\ temp_byte None = 255 /\
  num (f32_lit 28340 100) /\ (-64.25 < celsius (f32_lit 28340 100) < 63.25)%R.
Proof.
  split; [vm_compute; reflexivity|]. split; [vm_compute; reflexivity|]. split; [reflexivity|]. split; [apply lit_spec; lia|].
  unfold celsius. assert (f32_lit 28340 100 = S754_finite false 9286451 (-15)) as -> by (vm_compute; reflexivity). rewrite xr_F2R, F2R_neg_exp by lia.
  assert (D : decimal 27315 100 = (8950579 / 32768)%R) by (rewrite <- (proj2 (lit_spec 27315 100 ltac:(lia) ltac:(lia))); apply zero_celsius). rewrite D. cbn. lra.
Qed.
(** Findings: 63.5 degrees is stored as missing, and NaN as -64 degrees. *)
Example C41_hot : temp_byte (Some (fadd (f32_lit 27315 100) (f32_lit 635 10))) = 255 /\ temp_byte (Some fnan) = 0.
Proof. vm_compute. auto. Qed.

(** ** C42: precipitation *)

(** C42.  Below the float nearest to 0.2 the byte is 0, from there to 0.5 it is 1, above it is the
    number of half millimetres. *)
Theorem C42_classes : forall c p, num p ->
  ((xr p < decimal 2 10)%R -> precip_byte (Some (c, p)) = 0) /\
  ((decimal 2 10 <= xr p < 1 / 2)%R -> precip_byte (Some (c, p)) = 1) /\
  ((1 / 2 <= xr p)%R -> precip_byte (Some (c, p)) = Z.min 255 (Zround (2 * xr p)) /\ 1 <= precip_byte (Some (c, p))).
Proof. exact c42_spec_proof. Qed.
Print Assumptions C42_classes.
Theorem C42_monotone : forall c c' p p', num p -> num p' -> (xr p <= xr p')%R -> precip_byte (Some (c, p)) <= precip_byte (Some (c', p')).
Proof. exact c42_monotone_proof. Qed.
Print Assumptions C42_monotone.
(** C42, with a finding: the byte is 255 iff there is no value or it is at least 127.25 mm. *)
Theorem C42_missing : forall v, (forall c p, v = Some (c, p) -> f32_valid p) ->
  (precip_byte v = 255 <-> v = None \/ exists c p, v = Some (c, p) /\ num p /\ (127.25 <= xr p)%R).
Proof. exact c42_missing_proof. Qed.
Print Assumptions C42_missing.
Example C42_sample : map (fun p => precip_byte (Some (fzero, p))) [f32_lit 1 10; f32_lit 2 10; f32_lit 49 100; f32_lit 5 10; f32_lit 74 100; f32_lit 75 100; f32_of_Z 10; f32_of_Z (-3); fnan]
  = [0; 1; 1; 1; 1; 2; 20; 0; 0].
Proof. vm_compute. reflexivity. Qed.
(** Finding: 130 mm is stored as missing. *)
Example C42_heavy : precip_byte (Some (fzero, f32_of_Z 130)) = 255.
Proof. vm_compute. reflexivity. Qed.

(** ** C43: wind *)

(** C43.  The byte of a component is within half a knot, plus the rounding of the floats, of the
    speed in knots plus 128, held within 0 and 254. *)
Theorem C43_component : forall v, num v -> (Rabs (IZR (speed_byte v) - within 0 254 (in_knots v + 128)) <= / 2 + / 16384)%R.
Proof. exact c43_component_proof. Qed.
Print Assumptions C43_component.
Theorem C43_gust : forall v, num v -> (Rabs (IZR (gust_byte (Some v)) - within 0 254 (in_knots v)) <= / 2 + / 16384)%R.
Proof. exact c43_gust_proof. Qed.
Print Assumptions C43_gust.
Theorem C43_monotone : forall v v', num v -> num v' -> (xr v <= xr v')%R ->
  speed_byte v <= speed_byte v' /\ gust_byte (Some v) <= gust_byte (Some v').
Proof. exact c43_monotone_proof. Qed.
Print Assumptions C43_monotone.
(** C43.  For all floats, NaN and infinities included: no byte of a present value is 255. *)
Theorem C43_missing : forall e_n gust,
  (forall e n, e_n = Some (e, n) -> f32_valid e /\ f32_valid n) -> (forall g, gust = Some g -> f32_valid g) ->
  length (wind_bytes e_n gust) = 3%nat /\
  (e_n = None -> wind_bytes e_n gust = [255; 255; 255]) /\
  (forall e n, e_n = Some (e, n) -> exists be bn bg, wind_bytes e_n gust = [be; bn; bg] /\
     0 <= be <= 254 /\ 0 <= bn <= 254 /\ (gust = None /\ bg = 255 \/ gust <> None /\ 0 <= bg <= 254)).
Proof. exact c43_missing_proof. Qed.
Print Assumptions C43_missing.
Example C43_sample : wind_bytes (Some (f32_of_Z 10, f32_of_Z (-100))) (Some (f32_of_Z 200)) = [147; 0; 254] /\
  wind_bytes (Some (S754_infinity true, S754_infinity false)) None = [0; 254; 255].
Proof. vm_compute. auto. Qed.
(** Finding: NaN is stored as the highest speed. *)
Example C43_nan : wind_bytes (Some (fnan, fnan)) (Some fnan) = [254; 254; 254].
Proof. vm_compute. reflexivity. Qed.

(** ** C44: weather *)

(** C44.  A weather code above 4 is stored as it is. *)
Theorem C44_significant : forall w cover, 4 < weather_to_value w -> ww_byte (Some w) cover = weather_to_value w.
Proof. exact c44_significant_proof. Qed.
Print Assumptions C44_significant.
(** C44.  Otherwise the byte is the code of the cloud cover. *)
Theorem C44_sky : forall ww cover, (forall w, ww = Some w -> weather_to_value w <= 4) -> num cover -> sky_code (xr cover) (ww_byte ww (Some cover)).
Proof. exact c44_sky_proof. Qed.
Print Assumptions C44_sky.
Theorem C44_none : forall ww, (forall w, ww = Some w -> weather_to_value w <= 4) -> ww_byte ww None = 255.
Proof. exact c44_none_proof. Qed.
Print Assumptions C44_none.
Theorem C44_present : forall ww cover, ww_byte ww (Some cover) <> 255.
Proof. exact c44_never_missing_proof. Qed.
Print Assumptions C44_present.
(** C44.  The ceiling byte is within half a unit, plus the rounding of the floats, of the ceiling in
    units of 200 ft held within 0 and 255. *)
Theorem C44_ceiling : forall m, num m -> (Rabs (IZR (ceiling_byte (Some m)) - within 0 255 (in_feet m / 200)) <= / 2 + / 16384)%R.
Proof. exact c44_ceiling_proof. Qed.
Print Assumptions C44_ceiling.
Theorem C44_ceiling_monotone : forall m m', num m -> num m' -> (xr m <= xr m')%R -> ceiling_byte (Some m) <= ceiling_byte (Some m').
Proof. exact c44_ceiling_monotone_proof. Qed.
Print Assumptions C44_ceiling_monotone.
(** C44.  It is 255 iff there is no ceiling or it rounds to at least 255 units. *)
Theorem C44_ceiling_missing : forall v, (forall m, v = Some m -> f32_valid m) ->
  (ceiling_byte v = 255 <-> v = None \/ exists m, v = Some m /\ num m /\ (254.5 <= xr (fdiv (meters_to_feet m) (f32_of_Z 200)))%R).
Proof. exact c44_ceiling_missing_proof. Qed.
Print Assumptions C44_ceiling_missing.
Example C44_sample : ww_byte (Some SlightRainNotFreezing) (Some (f32_of_Z 1)) = 61 /\ ww_byte (Some Overcast) (Some (f32_lit 1 10)) = 1 /\
  ww_byte None (Some (f32_lit 625 10000)) = 0 /\ ww_byte None None = 255 /\
  ceiling_byte (Some (f32_of_Z 1000)) = 16 /\ ceiling_byte (Some (f32_of_Z 15515)) = 255 /\ ceiling_byte (Some (f32_of_Z 15514)) = 254.
Proof. vm_compute. repeat split. Qed.
(** Finding: a ceiling of NaN is stored as 254 units. *)
Example C44_nan : ceiling_byte (Some fnan) = 254 /\ ww_byte None (Some fnan) = 3.
Proof. vm_compute. auto. Qed.

(** ** C45: weather codes *)

(** C45.  The interpretation of a code, and the code of an interpretation, are those of the table. *)
Theorem C45_table : forall v w, (weather_from_value v = Ok w <-> In (v, w) wmo_table) /\ (weather_to_value w = v <-> In (v, w) wmo_table).
Proof. exact c45_table_proof. Qed.
Print Assumptions C45_table.
(** C45.  So the weather interpretations are in bijection with the list of codes. *)
Theorem C45_to_from : forall w, weather_from_value (weather_to_value w) = Ok w /\ In (weather_to_value w) wmo_codes.
Proof. exact c45_to_from_proof. Qed.
Print Assumptions C45_to_from.
Theorem C45_from_to : forall v w, weather_from_value v = Ok w -> weather_to_value w = v.
Proof. exact c45_from_to_proof. Qed.
Print Assumptions C45_from_to.
(** C45.  Every other byte panics, *)
Theorem C45_domain : forall v, In v wmo_codes /\ (exists w, weather_from_value v = Ok w) \/ ~ In v wmo_codes /\ weather_from_value v = Panic.
Proof. exact c45_domain_proof. Qed.
Print Assumptions C45_domain.
(** and so does the weather file of a layer that contains one. *)
Theorem C45_abort : forall l w h g x y v, dims (we_clct l) = (w, h) -> 0 <= w -> 0 <= h -> complete (we_clct l) -> complete (we_ceiling l) ->
  we_ww l = Some g -> 0 <= x < w -> 0 <= y < h -> value_by_xy f32_type g x y = Ok (Some v) -> ~ In (f_to_u8 v) wmo_codes -> weather_bin l = Panic.
Proof. exact c45_abort_proof. Qed.
Print Assumptions C45_abort.
Example C45_codes : length wmo_codes = 28%nat /\ NoDup wmo_codes.
Proof. split; [reflexivity|]. repeat constructor; cbn; lia. Qed.
(** Finding: code 4 is not known although the byte from the cloud cover is used for codes up to 4. *)
Example C45_sample : weather_from_value 95 = Ok ThunderstormSlightOrModerate /\ weather_from_value 4 = Panic /\
  obind (weather_new (cells [0; 0; 0; 0; 0; 0]) (cells [0; 0; 0; 0; 0; 0]) (Some (cells [0; 0; 4; 0; 0; 0]))) weather_bin = Panic.
Proof. split; [reflexivity|]. split; [reflexivity|]. vm_compute. reflexivity. Qed.

(** ** C56: unit conversions *)

Theorem C56_monotone : forall conv, In conv [meters_to_feet; feet_to_meters; mps_to_knots; knots_to_mps; kelvin_to_celsius; celsius_to_kelvin] ->
  forall x y, num x -> num y -> (xr x <= xr y)%R -> (xr (conv x) <= xr (conv y))%R.
Proof. exact c56_monotone_proof. Qed.
Print Assumptions C56_monotone.
(** C56.  Each conversion is one rounding of the exact result with the constant used, *)
Theorem C56_rounding : forall x, fin x ->
  rounds_to (meters_to_feet x) (xr x * decimal 328084 100000) /\ rounds_to (feet_to_meters x) (xr x / decimal 328084 100000) /\
  rounds_to (mps_to_knots x) (xr x * decimal 194384 100000) /\ rounds_to (knots_to_mps x) (xr x / decimal 194384 100000) /\
  rounds_to (kelvin_to_celsius x) (xr x - decimal 27315 100) /\ rounds_to (celsius_to_kelvin x) (xr x + decimal 27315 100).
Proof. exact c56_rounding_proof. Qed.
Print Assumptions C56_rounding.
(** which is within a relative 2^-24 of it. *)
Theorem C56_accurate : forall z r, rounds_to z r -> (Rabs r <= bpow radix2 127)%R ->
  fin z /\ (Rabs (xr z - r) <= / IZR (2 ^ 24) * Rabs r + bpow radix2 (-150))%R.
Proof. exact c56_accurate_proof. Qed.
Print Assumptions C56_accurate.
(** C56.  Conversion there and back. *)
Theorem C56_round_trip : forall x, fin x -> (Rabs (xr x) <= bpow radix2 120)%R ->
  (Rabs (xr (feet_to_meters (meters_to_feet x)) - xr x) <= / IZR (2 ^ 22) * Rabs (xr x) + bpow radix2 (-148))%R /\
  (Rabs (xr (knots_to_mps (mps_to_knots x)) - xr x) <= / IZR (2 ^ 22) * Rabs (xr x) + bpow radix2 (-148))%R.
Proof. exact c56_round_trip_proof. Qed.
Print Assumptions C56_round_trip.
Theorem C56_round_trip_back : forall x, fin x -> (Rabs (xr x) <= bpow radix2 120)%R ->
  (Rabs (xr (meters_to_feet (feet_to_meters x)) - xr x) <= / IZR (2 ^ 22) * Rabs (xr x) + bpow radix2 (-147))%R /\
  (Rabs (xr (mps_to_knots (knots_to_mps x)) - xr x) <= / IZR (2 ^ 22) * Rabs (xr x) + bpow radix2 (-147))%R.
Proof. exact c56_round_trip_back_proof. Qed.
Print Assumptions C56_round_trip_back.
(** C56.  For temperatures the error is relative to the larger of the numbers on the way, so that small ones may lose digits. *)
Theorem C56_round_trip_temperature : forall x, fin x -> (Rabs (xr x) <= bpow radix2 120)%R ->
  (Rabs (xr (celsius_to_kelvin (kelvin_to_celsius x)) - xr x) <= / IZR (2 ^ 22) * (Rabs (xr x) + 274))%R /\
  (Rabs (xr (kelvin_to_celsius (celsius_to_kelvin x)) - xr x) <= / IZR (2 ^ 22) * (Rabs (xr x) + 274))%R.
Proof. exact c56_round_trip_temperature_proof. Qed.
Print Assumptions C56_round_trip_temperature.
Example C56_sample : mps_to_knots (f32_of_Z 8) = f32_lit 1555072 100000 /\ fin (f32_of_Z 1000) /\ (Rabs (xr (f32_of_Z 1000)) <= bpow radix2 120)%R.
Proof.
  split; [vm_compute; reflexivity|]. destruct (fin_Z 1000 ltac:(lia)) as [F E]. split; [exact F|]. rewrite E, Rabs_pos_eq by lra.
  apply Rle_trans with (bpow radix2 10); [cbn; lra|apply bpow_le; lia].
Qed.

(** ** C57: vertical levels *)

(** C57.  The byte of a height is its number of full hundreds of feet, up to the rounding of the
    floats, held within 0 and 255; *)
Theorem C57_height : forall m, num m ->
  (IZR (hhl_transform m) - / 16384 <= within 0 255 (in_feet m / 100) < IZR (hhl_transform m) + 1 + / 16384)%R.
Proof. exact c57_height_proof. Qed.
Print Assumptions C57_height.
(** that of a cloud cover its integer part; *)
Theorem C57_cover : forall v, num v -> clc_transform v = floor_within (xr v).
Proof. exact c57_cover_proof. Qed.
Print Assumptions C57_cover.
(** that of a wind component as in the wind files, and none of these is taken for missing. *)
Theorem C57_wind : forall v, num v -> (Rabs (IZR (u_v_transform v) - within 0 254 (in_knots v + 128)) <= / 2 + / 16384)%R.
Proof. exact c57_wind_proof. Qed.
Print Assumptions C57_wind.
Theorem C57_wind_kept : forall raw, (forall v, raw = Some v -> f32_valid v) -> stored 255 u_v_transform raw = option_map u_v_transform raw.
Proof. exact c57_wind_kept_proof. Qed.
Print Assumptions C57_wind_kept.
(** C57.  From the documents of regular grids, one per level, to the file: the byte of a cell and level
    is that of the value of the document there, or 255 if there is none, or (finding) if its byte is
    the number used for missing values. *)
Theorem C57_cloud_file : forall powi w h n hhl_docs clc_docs hhl clc heights covers,
  0 <= w -> 0 <= h -> 0 < n -> Z.of_nat (length hhl_docs) = n -> Z.of_nat (length clc_docs) = n ->
  levels_of (fun d => regular_create_and_transform powi d HHL_MISSING hhl_transform) (fun d => calculate_data_points powi d None Some) w h hhl_docs hhl heights ->
  levels_of (fun d => regular_create_and_transform powi d CLC_MISSING clc_transform) (fun d => calculate_data_points powi d None Some) w h clc_docs clc covers ->
  exists layer data, vertical_cloud_new hhl clc = Ok layer /\ vertical_cloud_bin layer = Ok data /\
    laid_out (2 * n) w h data (fun x y rec => forall level, 0 <= level < n ->
      slice rec (2 * level) 2 = [file_byte (stored 0 hhl_transform (raw_at heights w x y level)); file_byte (stored 0 clc_transform (raw_at covers w x y level))]).
Proof. exact c57_cloud_file_proof. Qed.
Print Assumptions C57_cloud_file.
Theorem C57_wind_file : forall powi w h n hhl_docs u_docs v_docs hhl u v heights us vs,
  0 <= w -> 0 <= h -> 0 < n -> Z.of_nat (length hhl_docs) = n -> Z.of_nat (length u_docs) = n -> Z.of_nat (length v_docs) = n ->
  levels_of (fun d => regular_create_and_transform powi d HHL_MISSING hhl_transform) (fun d => calculate_data_points powi d None Some) w h hhl_docs hhl heights ->
  levels_of (fun d => regular_create_and_transform powi d U_V_MISSING u_v_transform) (fun d => calculate_data_points powi d None Some) w h u_docs u us ->
  levels_of (fun d => regular_create_and_transform powi d U_V_MISSING u_v_transform) (fun d => calculate_data_points powi d None Some) w h v_docs v vs ->
  exists layer data, vertical_wind_new hhl u v = Ok layer /\ vertical_wind_bin layer = Ok data /\
    laid_out (3 * n) w h data (fun x y rec => forall level, 0 <= level < n ->
      slice rec (3 * level) 3 = file_byte (stored 0 hhl_transform (raw_at heights w x y level)) ::
        match stored 255 u_v_transform (raw_at us w x y level), stored 255 u_v_transform (raw_at vs w x y level) with
        | Some a, Some b => [a; b] | _, _ => [255; 255] end).
Proof. exact c57_wind_file_proof. Qed.
Print Assumptions C57_wind_file.

(** Documents of 3 x 2 cells, two of them without values. *)
Definition doc_of (w : wire) : outcome document := omap fst (read_single_doc true (message_bytes w)).
Definition heights_wire : wire := sample.
Definition covers_wire : wire :=
  {| w_0 := w_0 sample; w_1 := w_1 sample; w_2 := w_2 sample; w_3 := w_3 sample; w_4 := w_4 sample;
     w_5 := {| w5_length := 21; w5_points := 3; w5_tpl := W5_0 0 0 0 16 0 |}; w_6 := w_6 sample;
     w_7 := {| w7_length := 11; w7_data := [0; 50; 100] |} |}.
Definition heights_raw : list (option f32) := [Some (f32_of_Z 300); None; Some (f32_lit 9601 32); Some (f32_lit 75135 32); None; None].
Definition covers_raw : list (option f32) := [Some (f32_of_Z 0); None; Some (f32_of_Z 50); Some (f32_of_Z 100); None; None].
Example C57_sample : exists hd cd hhl clc, doc_of heights_wire = Ok hd /\ doc_of covers_wire = Ok cd /\
  levels_of (fun d => regular_create_and_transform powi_rt d HHL_MISSING hhl_transform) (fun d => calculate_data_points powi_rt d None Some) 3 2 [hd] [hhl] [heights_raw] /\
  levels_of (fun d => regular_create_and_transform powi_rt d CLC_MISSING clc_transform) (fun d => calculate_data_points powi_rt d None Some) 3 2 [cd] [clc] [covers_raw] /\
  obind (vertical_cloud_new [hhl] [clc]) vertical_cloud_bin = Ok [9; 255; 255; 255; 9; 50; 77; 100; 255; 255; 255; 255].
Proof.
  do 4 eexists. split; [vm_compute; reflexivity|]. split; [vm_compute; reflexivity|].
  split; [split; (apply Forall2_cons; [split; vm_compute; reflexivity|apply Forall2_nil])|].
  split; [split; (apply Forall2_cons; [split; vm_compute; reflexivity|apply Forall2_nil])|]. vm_compute. reflexivity.
Qed.
(** Finding: a cloud cover of 0 % (the first cell above) and a height below 100 ft are stored as
    missing; 255 then reads as 255 % and 25500 ft. *)
Example C57_zero : file_byte (stored 0 clc_transform (Some (f32_of_Z 0))) = 255 /\ file_byte (stored 0 hhl_transform (Some (f32_of_Z 30))) = 255 /\
  file_byte (stored 0 hhl_transform (Some (f32_of_Z 31))) = 1.
Proof. vm_compute. auto. Qed.
