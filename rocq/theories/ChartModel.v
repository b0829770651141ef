(** Model of /repo/src/meteo_chart: layers, colour scales and the rendering of full charts.
    The forecast renderers, which loop over the steps of a run, are in ForecastModel.v. *)
From Coq Require Import ZArith List Bool.
From Coq Require Import Floats.SpecFloat.
From Verif Require Import Base F32 GeoModel ImagingModel TileModel PhysicsModel.
Import ListNotations.
Open Scope Z_scope.

(** ** meteo_layer: the grids behind a chart *)

(** A grid of floats. *)
Definition fgrid : Type := value_grid f32.
(** lat_lon_value_grid.rs:33-40: [get_grid_dimensions] and [get_grid_lat_lon_extent]. *)
Definition dims_eqb {S T} (a : value_grid S) (b : value_grid T) : bool :=
  (g_w (vg_grid a) =? g_w (vg_grid b)) && (g_h (vg_grid a) =? g_h (vg_grid b)).
(** lat_lon_extent.rs:79-83 *)
Definition extent_eqb (a b : extent) : bool :=
  lat_lon_eqb (min_coord a) (min_coord b) && lat_lon_eqb (max_coord a) (max_coord b).
Definition extents_eqb {S T} (a : value_grid S) (b : value_grid T) : bool :=
  extent_eqb (g_extent (vg_grid a)) (g_extent (vg_grid b)).
(** [Option::unwrap_or] *)
Definition unwrap_or {T} (o : option T) (d : T) : T := match o with Some v => v | None => d end.

(** meteo_cloud_precip_layer.rs:9-14; the layer type is a constant of each layer. *)
Record cloud_precip_layer := { cp_cloud : fgrid; cp_precip0 : fgrid; cp_precip1 : fgrid }.
(** meteo_cloud_precip_layer.rs:18-41 *)
Definition cloud_precip_new (cloud precip0 precip1 : fgrid) : outcome cloud_precip_layer :=
  if negb (dims_eqb cloud precip0) || negb (dims_eqb precip0 precip1) then Err EInvalid
  else if negb (extents_eqb cloud precip0) || negb (extents_eqb precip0 precip1) then Err EInvalid
  else Ok {| cp_cloud := cloud; cp_precip0 := precip0; cp_precip1 := precip1 |}.
(** meteo_cloud_precip_layer.rs:59-66, 69-76: the two differ only in the function [get] that looks
    a value up in a grid. *)
Definition cloud_and_precip (get : fgrid -> outcome (option f32)) (l : cloud_precip_layer)
  : outcome (option (f32 * f32)) :=
  obind (get (cp_cloud l)) (fun c => obind (get (cp_precip0 l)) (fun p0 => obind (get (cp_precip1 l)) (fun p1 =>
    Ok (Some (unwrap_or c fzero, fsub (unwrap_or p1 fzero) (unwrap_or p0 fzero)))))).
(** meteo_cloud_precip_layer.rs:59-66 *)
Definition cloud_and_precip_by_xy (l : cloud_precip_layer) (x y : Z) : outcome (option (f32 * f32)) :=
  cloud_and_precip (fun g => value_by_xy f32_type g x y) l.
(** meteo_cloud_precip_layer.rs:69-76 *)
Definition cloud_and_precip_by_lat_lon (l : cloud_precip_layer) (p : lat_lon) : outcome (option (f32 * f32)) :=
  cloud_and_precip (fun g => interpolate f32_type g p) l.

(** meteo_wind_10m_layer.rs:8-13 *)
Record wind_layer := { wl_zonal : fgrid; wl_meridional : fgrid; wl_gusts : option fgrid }.
(** meteo_wind_10m_layer.rs:17-48 *)
Definition wind_new (zonal meridional : fgrid) (gusts : option fgrid) : outcome wind_layer :=
  if negb (dims_eqb zonal meridional) then Err EInvalid
  else if negb (extents_eqb zonal meridional) then Err EInvalid
  else match gusts with
  | Some g => if negb (dims_eqb g zonal) then Err EInvalid
              else if negb (extents_eqb g zonal) then Err EInvalid
              else Ok {| wl_zonal := zonal; wl_meridional := meridional; wl_gusts := gusts |}
  | None => Ok {| wl_zonal := zonal; wl_meridional := meridional; wl_gusts := gusts |}
  end.
(** meteo_wind_10m_layer.rs:66-74, 77-85, with the lookup function as a parameter. *)
Definition wind_e_n (get : fgrid -> outcome (option f32)) (l : wind_layer) : outcome (option (f32 * f32)) :=
  obind (get (wl_zonal l)) (fun e => obind (get (wl_meridional l)) (fun n =>
    Ok (match e, n with Some ve, Some vn => Some (ve, vn) | _, _ => None end))).
(** meteo_wind_10m_layer.rs:66-74 *)
Definition wind_e_n_by_xy (l : wind_layer) (x y : Z) := wind_e_n (fun g => value_by_xy f32_type g x y) l.
(** meteo_wind_10m_layer.rs:77-85 *)
Definition wind_e_n_by_lat_lon (l : wind_layer) (p : lat_lon) := wind_e_n (fun g => value_by_lat_lon f32_type g p) l.
(** meteo_wind_10m_layer.rs:90, 96, 103 *)
Definition wind_speed (e n : f32) : f32 := fsqrt (fadd (fmul e e) (fmul n n)).
(** meteo_wind_10m_layer.rs:88-91 *)
Definition wind_tot_by_xy (l : wind_layer) (x y : Z) : outcome (option f32) :=
  omap (option_map (fun v => wind_speed (fst v) (snd v))) (wind_e_n_by_xy l x y).
(** meteo_wind_10m_layer.rs:94-97 *)
Definition wind_tot_by_lat_lon (l : wind_layer) (p : lat_lon) : outcome (option f32) :=
  omap (option_map (fun v => wind_speed (fst v) (snd v))) (wind_e_n_by_lat_lon l p).
(** meteo_wind_10m_layer.rs:100-106; [atan2] is that of the mathematics library. *)
Definition wind_speed_dir_by_xy (atan2 : f32 -> f32 -> f32) (l : wind_layer) (x y : Z) : outcome (option (f32 * f32)) :=
  omap (option_map (fun v => (wind_speed (fst v) (snd v), to_degrees (atan2 (snd v) (fst v))))) (wind_e_n_by_xy l x y).
(** meteo_wind_10m_layer.rs:109-114, 117-122, with the lookup function as a parameter. *)
Definition gusts (get : fgrid -> outcome (option f32)) (l : wind_layer) : outcome (option f32) :=
  match wl_gusts l with Some g => get g | None => Ok None end.
(** meteo_wind_10m_layer.rs:109-114 *)
Definition gusts_by_xy (l : wind_layer) (x y : Z) := gusts (fun g => value_by_xy f32_type g x y) l.
(** meteo_wind_10m_layer.rs:117-122 *)
Definition gusts_by_lat_lon (l : wind_layer) (p : lat_lon) := gusts (fun g => value_by_lat_lon f32_type g p) l.

(** meteo_temp_2m_layer.rs:7-23; likewise the layers of meteo_cloud_layer.rs, meteo_precip_layer.rs
    and meteo_hhl_layer.rs are one grid without any check. *)
Definition temp_layer : Type := fgrid.
(** meteo_temp_2m_layer.rs:41-43 *)
Definition temp_by_xy (l : temp_layer) (x y : Z) := value_by_xy f32_type l x y.
(** meteo_temp_2m_layer.rs:46-48 *)
Definition temp_by_lat_lon (l : temp_layer) (p : lat_lon) := value_by_lat_lon f32_type l p.

(** weather_interpretation.rs:1-31 *)
Inductive weather :=
  | ClearSky | MainlyClearSky | PartlyCloudy | Overcast | Fog | FogDepositingRime | SlightDrizzle
  | ModerateDrizzle | HeavyDrizzle | DrizzleFreezingSlight | DrizzleFreezingModerateOrHeavy
  | SlightRainNotFreezing | ModerateRainNotFreezing | HeavyRainNotFreezing | RainFreezingSlight
  | RainFreezingModerateOrHeavy | SlightFallOfSnowflakes | ModerateFallOfSnowflakes
  | HeavyFallOfSnowflakes | SnowGrains | RainShowerSlight | RainShowerModerateOrHeavy
  | RainShowerViolent | SnowShowerSlight | SnowShowerModerateOrHeavy | ThunderstormSlightOrModerate
  | ThunderstormWithHailOrHeavyThunderstorm | ThunderstormWithHeavyRain.
(** weather_interpretation.rs:35-67 *)
Definition weather_from_value (v : Z) : outcome weather :=
  match v with
  | 0 => Ok ClearSky
  | 1 => Ok MainlyClearSky
  | 2 => Ok PartlyCloudy
  | 3 => Ok Overcast
  | 45 => Ok Fog
  | 48 => Ok FogDepositingRime
  | 51 => Ok SlightDrizzle
  | 53 => Ok ModerateDrizzle
  | 55 => Ok HeavyDrizzle
  | 56 => Ok DrizzleFreezingSlight
  | 57 => Ok DrizzleFreezingModerateOrHeavy
  | 61 => Ok SlightRainNotFreezing
  | 63 => Ok ModerateRainNotFreezing
  | 65 => Ok HeavyRainNotFreezing
  | 66 => Ok RainFreezingSlight
  | 67 => Ok RainFreezingModerateOrHeavy
  | 71 => Ok SlightFallOfSnowflakes
  | 73 => Ok ModerateFallOfSnowflakes
  | 75 => Ok HeavyFallOfSnowflakes
  | 77 => Ok SnowGrains
  | 80 => Ok RainShowerSlight
  | 81 => Ok RainShowerModerateOrHeavy
  | 82 => Ok RainShowerViolent
  | 85 => Ok SnowShowerSlight
  | 86 => Ok SnowShowerModerateOrHeavy
  | 95 => Ok ThunderstormSlightOrModerate
  | 96 => Ok ThunderstormWithHailOrHeavyThunderstorm
  | 99 => Ok ThunderstormWithHeavyRain
  | _ => Panic
  end.
(** weather_interpretation.rs:70-101 *)
Definition weather_to_value (w : weather) : Z :=
  match w with
  | ClearSky => 0
  | MainlyClearSky => 1
  | PartlyCloudy => 2
  | Overcast => 3
  | Fog => 45
  | FogDepositingRime => 48
  | SlightDrizzle => 51
  | ModerateDrizzle => 53
  | HeavyDrizzle => 55
  | DrizzleFreezingSlight => 56
  | DrizzleFreezingModerateOrHeavy => 57
  | SlightRainNotFreezing => 61
  | ModerateRainNotFreezing => 63
  | HeavyRainNotFreezing => 65
  | RainFreezingSlight => 66
  | RainFreezingModerateOrHeavy => 67
  | SlightFallOfSnowflakes => 71
  | ModerateFallOfSnowflakes => 73
  | HeavyFallOfSnowflakes => 75
  | SnowGrains => 77
  | RainShowerSlight => 80
  | RainShowerModerateOrHeavy => 81
  | RainShowerViolent => 82
  | SnowShowerSlight => 85
  | SnowShowerModerateOrHeavy => 86
  | ThunderstormSlightOrModerate => 95
  | ThunderstormWithHailOrHeavyThunderstorm => 96
  | ThunderstormWithHeavyRain => 99
  end.

(** weather_layer.rs:9-14 *)
Record weather_layer := { we_clct : fgrid; we_ceiling : fgrid; we_ww : option fgrid }.
(** weather_layer.rs:18-39 *)
Definition weather_new (clct ceiling : fgrid) (ww : option fgrid) : outcome weather_layer :=
  if negb (dims_eqb clct ceiling) then Err EInvalid
  else if negb (extents_eqb clct ceiling) then Err EInvalid
  else Ok {| we_clct := clct; we_ceiling := ceiling; we_ww := ww |}.
(** weather_layer.rs:57-59 *)
Definition ceiling_by_xy (l : weather_layer) (x y : Z) := value_by_xy f32_type (we_ceiling l) x y.
(** weather_layer.rs:67-69 *)
Definition clct_by_xy (l : weather_layer) (x y : Z) := value_by_xy f32_type (we_clct l) x y.
(** weather_layer.rs:77-84 *)
Definition ww_by_xy (l : weather_layer) (x y : Z) : outcome (option weather) :=
  match we_ww l with
  | None => Ok None
  | Some g => obind (value_by_xy f32_type g x y) (fun ov =>
      match ov with Some v => omap Some (weather_from_value (f_to_u8 v)) | None => Ok None end)
  end.

(** A grid of bytes. *)
Definition bgrid : Type := value_grid Z.
(** [Vec::len] *)
Definition len {T} (l : list T) : Z := Z.of_nat (length l).
(** meteo_vertical_cloud_layer.rs:6-10 *)
Record vertical_cloud_layer := { vc_hhl : list bgrid; vc_clc : list bgrid }.
(** meteo_vertical_cloud_layer.rs:14-32 *)
Definition vertical_cloud_new (hhl clc : list bgrid) : outcome vertical_cloud_layer :=
  if (len hhl =? 0) || (len clc =? 0) then Panic
  else if negb (len hhl =? len clc) then Panic
  else Ok {| vc_hhl := hhl; vc_clc := clc |}.
(** [get(0).unwrap()] *)
Definition first_grid (l : list bgrid) : outcome bgrid := index_vec l 0.
(** meteo_vertical_cloud_layer.rs:40-45 *)
Definition vertical_cloud_dims (l : vertical_cloud_layer) : outcome (Z * Z * Z) :=
  omap (fun g => (g_w (vg_grid g), g_h (vg_grid g), len (vc_clc l))) (first_grid (vc_clc l)).
(** [grids[level].get_value_by_xy(x, y)] *)
Definition level_value (grids : list bgrid) (x y level : Z) : outcome (option Z) :=
  obind (index_vec grids level) (fun g => value_by_xy u8_type g x y).
(** meteo_vertical_cloud_layer.rs:53-55 *)
Definition vc_hhl_value (l : vertical_cloud_layer) (x y level : Z) := level_value (vc_hhl l) x y level.
(** meteo_vertical_cloud_layer.rs:58-60 *)
Definition vc_clc_value (l : vertical_cloud_layer) (x y level : Z) := level_value (vc_clc l) x y level.

(** meteo_vertical_wind_layer.rs:6-11 *)
Record vertical_wind_layer := { vw_hhl : list bgrid; vw_u : list bgrid; vw_v : list bgrid }.
(** meteo_vertical_wind_layer.rs:15-35 *)
Definition vertical_wind_new (hhl u v : list bgrid) : outcome vertical_wind_layer :=
  if (len hhl =? 0) || (len u =? 0) || (len v =? 0) then Panic
  else if negb (len hhl =? len u) || negb (len hhl =? len v) then Panic
  else Ok {| vw_hhl := hhl; vw_u := u; vw_v := v |}.
(** meteo_vertical_wind_layer.rs:43-48 *)
Definition vertical_wind_dims (l : vertical_wind_layer) : outcome (Z * Z * Z) :=
  omap (fun g => (g_w (vg_grid g), g_h (vg_grid g), len (vw_u l))) (first_grid (vw_u l)).
(** meteo_vertical_wind_layer.rs:56-58 *)
Definition vw_hhl_value (l : vertical_wind_layer) (x y level : Z) := level_value (vw_hhl l) x y level.
(** meteo_vertical_wind_layer.rs:61-70 *)
Definition vw_u_v_values (l : vertical_wind_layer) (x y level : Z) : outcome (option (Z * Z)) :=
  obind (level_value (vw_u l) x y level) (fun u => obind (level_value (vw_v l) x y level) (fun v =>
    Ok (match u, v with Some a, Some b => Some (a, b) | _, _ => None end))).

(** ** forecast_renderer: colour scales *)

(** cloud_precip_chart_renderer.rs:72-94 *)
Definition rain_color (v : f32) : color :=
  if flt v (f32_lit 1 10) then rgba 0 0 0 0
  else if flt v (f32_of_Z 1) then rgba 0 192 255 127
  else if flt v (f32_of_Z 2) then rgba 0 0 255 191
  else if flt v (f32_of_Z 4) then rgba 0 127 0 191
  else if flt v (f32_of_Z 6) then rgba 0 255 0 191
  else if flt v (f32_of_Z 10) then rgba 255 255 0 191
  else if flt v (f32_of_Z 20) then rgba 255 191 0 191
  else if flt v (f32_of_Z 40) then rgba 255 128 0 191
  else if flt v (f32_of_Z 60) then rgba 255 0 0 191
  else rgba 163 73 164 191.
(** cloud_precip_chart_renderer.rs:97-130 *)
Definition cloud_color (v : f32) : color :=
  if flt v (f32_lit 5 100) then rgba 0 0 0 127
  else if flt v (f32_lit 1 10) then rgba 255 255 255 127
  else if flt v (f32_lit 2 10) then rgba 255 255 255 127
  else if flt v (f32_lit 3 10) then rgba 255 255 255 127
  else if flt v (f32_lit 4 10) then rgba 255 255 255 127
  else if flt v (f32_lit 5 10) then rgba 255 255 255 159
  else if flt v (f32_lit 6 10) then rgba 255 255 255 191
  else if flt v (f32_lit 7 10) then rgba 255 255 255 207
  else if flt v (f32_lit 8 10) then rgba 255 255 255 223
  else if flt v (f32_lit 9 10) then rgba 255 255 255 239
  else rgba 255 255 255 255.
(** u32 multiplication and addition. *)
Definition mul32 (chk : bool) (a b : Z) : outcome Z := uwrap chk 32 (a * b).
Definition add32 (chk : bool) (a b : Z) : outcome Z := uwrap chk 32 (a + b).
(** [x as u8] of a u32. *)
Definition as_u8 (x : Z) : Z := x mod 256.
(** cloud_precip_chart_renderer.rs:57-59: a colour channel; [r], [ra] are the rain's colour and
    alpha, [c], [ca] the cloud's. *)
Definition compose_channel (chk : bool) (r ra c ca : Z) : outcome Z :=
  obind (mul32 chk r ra) (fun a =>
  obind (mul32 chk c ca) (fun b => obind (usub chk 32 255 ra) (fun k => obind (mul32 chk b k) (fun b' =>
  obind (add32 chk (a / 255) (b' / 255 / 255)) (fun s => Ok (as_u8 s)))))).
(** cloud_precip_chart_renderer.rs:60 *)
Definition compose_alpha (chk : bool) (ra ca : Z) : outcome Z :=
  obind (usub chk 32 255 ra) (fun k => obind (mul32 chk ca k) (fun b =>
  obind (add32 chk ra (b / 255)) (fun s => Ok (as_u8 s)))).
(** cloud_precip_chart_renderer.rs:56-61 *)
Definition compose (chk : bool) (rain cloud : color) : outcome color :=
  obind (compose_channel chk (c_r rain) (c_a rain) (c_r cloud) (c_a cloud)) (fun r =>
  obind (compose_channel chk (c_g rain) (c_a rain) (c_g cloud) (c_a cloud)) (fun g =>
  obind (compose_channel chk (c_b rain) (c_a rain) (c_b cloud) (c_a cloud)) (fun b =>
  obind (compose_alpha chk (c_a rain) (c_a cloud)) (fun a => Ok (rgba r g b a))))).
(** cloud_precip_chart_renderer.rs:49-69 *)
Definition cloud_precip_color (chk : bool) (v : f32 * f32) : outcome color :=
  if feq (fst v) fzero && feq (snd v) fzero then Ok (rgba 0 0 0 127)
  else compose chk (rain_color (snd v)) (cloud_color (fst v)).

(** temp_2m_chart_renderer.rs:51 *)
Definition TRANSPARENCY : Z := 127.
(** temp_2m_chart_renderer.rs:50-115 *)
Definition temp_color (value_k : f32) : color :=
  let value_c := kelvin_to_celsius value_k in
  if flt value_c (f32_of_Z (-16)) then rgba 255 66 255 TRANSPARENCY
  else if flt value_c (f32_of_Z (-14)) then rgba 255 109 255 TRANSPARENCY
  else if flt value_c (f32_of_Z (-12)) then rgba 255 153 255 TRANSPARENCY
  else if flt value_c (f32_of_Z (-10)) then rgba 255 204 255 TRANSPARENCY
  else if flt value_c (f32_of_Z (-8)) then rgba 255 255 255 TRANSPARENCY
  else if flt value_c (f32_of_Z (-6)) then rgba 219 235 250 TRANSPARENCY
  else if flt value_c (f32_of_Z (-4)) then rgba 0 212 245 TRANSPARENCY
  else if flt value_c (f32_of_Z (-2)) then rgba 148 189 240 TRANSPARENCY
  else if flt value_c (f32_of_Z 0) then rgba 115 166 235 TRANSPARENCY
  else if flt value_c (f32_of_Z 2) then rgba 222 230 153 TRANSPARENCY
  else if flt value_c (f32_of_Z 4) then rgba 166 212 115 TRANSPARENCY
  else if flt value_c (f32_of_Z 6) then rgba 107 191 77 TRANSPARENCY
  else if flt value_c (f32_of_Z 8) then rgba 51 171 38 TRANSPARENCY
  else if flt value_c (f32_of_Z 10) then rgba 0 153 0 TRANSPARENCY
  else if flt value_c (f32_of_Z 12) then rgba 51 179 0 TRANSPARENCY
  else if flt value_c (f32_of_Z 14) then rgba 102 204 0 TRANSPARENCY
  else if flt value_c (f32_of_Z 16) then rgba 153 230 0 TRANSPARENCY
  else if flt value_c (f32_of_Z 18) then rgba 204 255 0 TRANSPARENCY
  else if flt value_c (f32_of_Z 20) then rgba 255 255 0 TRANSPARENCY
  else if flt value_c (f32_of_Z 22) then rgba 255 204 0 TRANSPARENCY
  else if flt value_c (f32_of_Z 24) then rgba 255 153 0 TRANSPARENCY
  else if flt value_c (f32_of_Z 26) then rgba 255 102 0 TRANSPARENCY
  else if flt value_c (f32_of_Z 28) then rgba 255 51 0 TRANSPARENCY
  else if flt value_c (f32_of_Z 30) then rgba 255 0 0 TRANSPARENCY
  else if flt value_c (f32_of_Z 32) then rgba 255 0 255 TRANSPARENCY
  else if flt value_c (f32_of_Z 34) then rgba 255 64 255 TRANSPARENCY
  else if flt value_c (f32_of_Z 36) then rgba 255 128 255 TRANSPARENCY
  else if flt value_c (f32_of_Z 38) then rgba 255 191 255 TRANSPARENCY
  else rgba 255 255 255 TRANSPARENCY.

(** wind_10m_chart_renderer.rs:14: 0.514444 *)
Definition KNOTS_TO_MPS : f32 := f32_lit 514444 1000000.
(** wind_10m_chart_renderer.rs:52-74 *)
Definition wind_color (v : f32) : color :=
  if flt v (fmul (f32_of_Z 5) KNOTS_TO_MPS) then rgba 0 127 0 255
  else if flt v (fmul (f32_of_Z 10) KNOTS_TO_MPS) then rgba 0 255 0 255
  else if flt v (fmul (f32_of_Z 15) KNOTS_TO_MPS) then rgba 255 255 0 255
  else if flt v (fmul (f32_of_Z 20) KNOTS_TO_MPS) then rgba 255 191 0 255
  else if flt v (fmul (f32_of_Z 25) KNOTS_TO_MPS) then rgba 255 128 0 255
  else if flt v (fmul (f32_of_Z 30) KNOTS_TO_MPS) then rgba 255 0 0 255
  else if flt v (fmul (f32_of_Z 40) KNOTS_TO_MPS) then rgba 163 73 164 255
  else if flt v (fmul (f32_of_Z 50) KNOTS_TO_MPS) then rgba 99 112 247 255
  else rgba 0 0 255 255.

(** ** forecast_renderer/single_chart_renderer.rs *)

(** single_chart_renderer.rs:18-28: row [i] of the grid from column j on.  [height - i - 1] cannot
    underflow because i < height. *)
Fixpoint chart_row {T} (chk : bool) (value : Z -> Z -> outcome (option T)) (color_fn : T -> outcome color)
  (h i : Z) (d : drawable) (js : list Z) : outcome drawable :=
  match js with
  | [] => Ok d
  | j :: rest =>
      obind (value j i) (fun ov =>
      obind (match ov with Some v => obind (color_fn v) (draw_point chk d j (h - i - 1)) | None => Ok d end) (fun d' =>
        chart_row chk value color_fn h i d' rest))
  end.
(** single_chart_renderer.rs:17-29 *)
Fixpoint chart_rows {T} (chk : bool) (value : Z -> Z -> outcome (option T)) (color_fn : T -> outcome color)
  (w h : Z) (d : drawable) (is : list Z) : outcome drawable :=
  match is with
  | [] => Ok d
  | i :: rest =>
      obind (chart_row chk value color_fn h i d (map Z.of_nat (seq 0 (Z.to_nat w)))) (fun d' =>
        chart_rows chk value color_fn w h d' rest)
  end.
(** single_chart_renderer.rs:9-32 *)
Definition render_chart {T} (chk : bool) (w h : Z) (value : Z -> Z -> outcome (option T))
  (color_fn : T -> outcome color) : outcome drawable :=
  obind (create_empty chk w h) (fun d =>
    chart_rows chk value color_fn w h d (map Z.of_nat (seq 0 (Z.to_nat h)))).

(** [x as u32] of a usize. *)
Definition as_u32 (x : Z) : Z := x mod 2 ^ 32.
(** cloud_precip_chart_renderer.rs:14-24 *)
Definition cloud_precip_chart (chk : bool) (l : cloud_precip_layer) : outcome drawable :=
  render_chart chk (as_u32 (g_w (vg_grid (cp_cloud l)))) (as_u32 (g_h (vg_grid (cp_cloud l))))
    (cloud_and_precip_by_xy l) (cloud_precip_color chk).
(** temp_2m_chart_renderer.rs:15-25 *)
Definition temp_chart (chk : bool) (l : temp_layer) : outcome drawable :=
  render_chart chk (as_u32 (g_w (vg_grid l))) (as_u32 (g_h (vg_grid l)))
    (temp_by_xy l) (fun v => Ok (temp_color v)).
(** wind_10m_chart_renderer.rs:17-27 *)
Definition wind_chart (chk : bool) (l : wind_layer) : outcome drawable :=
  render_chart chk (as_u32 (g_w (vg_grid (wl_zonal l)))) (as_u32 (g_h (vg_grid (wl_zonal l))))
    (wind_tot_by_xy l) (fun v => Ok (wind_color v)).
