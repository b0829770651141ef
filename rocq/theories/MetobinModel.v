(** Model of /repo/src/metobin: the byte files for the web client.  The names and the writing of the
    files are in ForecastModel.v.  Also the functions by which the readers of vertical levels turn
    floats into bytes. *)
From Coq Require Import ZArith List Bool.
From Verif Require Import Base F32 GeoModel PhysicsModel ChartModel.
Import ListNotations.
Open Scope Z_scope.

(** precip_metobin.rs:14, temp_metobin.rs:14, weather_metobin.rs:16, wind_metobin.rs:15,
    vertical_cloud_metobin.rs:16, vertical_wind_metobin.rs:16 *)
Definition NONE_BIN_VALUE : Z := 255.

(** A loop [for i in is { out.push(...) }]: the bytes pushed by each iteration, in order; a panic
    ends the loop. *)
Fixpoint push_all (body : Z -> outcome bytes) (is : list Z) : outcome bytes :=
  match is with
  | [] => Ok []
  | i :: rest => obind (body i) (fun b => omap (app b) (push_all body rest))
  end.
(** [0..n] *)
Definition upto (n : Z) : list Z := map Z.of_nat (seq 0 (Z.to_nat n)).
(** The two loops of each [create_bin_values], e.g. temp_metobin.rs:38-48. *)
Definition bin_values (w h : Z) (cell : Z -> Z -> outcome bytes) : outcome bytes :=
  push_all (fun y => push_all (fun x => cell x y) (upto w)) (upto h).

(** precip_metobin.rs:52-63 *)
Definition precip_byte (v : option (f32 * f32)) : Z :=
  match v with
  | Some (_, p) => if fge p (f32_lit 2 10) && flt p (f32_lit 5 10) then 1
                   else f_to_u8 (fround (fmul p (f32_of_Z 2)))
  | None => NONE_BIN_VALUE
  end.
(** precip_metobin.rs:36-49 *)
Definition precip_bin (l : cloud_precip_layer) : outcome bytes :=
  bin_values (g_w (vg_grid (cp_cloud l))) (g_h (vg_grid (cp_cloud l))) (fun x y =>
    omap (fun v => [precip_byte v]) (cloud_and_precip_by_xy l x y)).

(** temp_metobin.rs:52-57 *)
Definition temp_byte (v : option f32) : Z :=
  match v with
  | Some k => f_to_u8 (fadd (fround (fmul (kelvin_to_celsius k) (f32_of_Z 2))) (f32_of_Z 128))
  | None => NONE_BIN_VALUE
  end.
(** temp_metobin.rs:36-49 *)
Definition temp_bin (l : temp_layer) : outcome bytes :=
  bin_values (g_w (vg_grid l)) (g_h (vg_grid l)) (fun x y => omap (fun v => [temp_byte v]) (temp_by_xy l x y)).

(** [x.min(254.0).max(0.0) as u8] *)
Definition clamp_byte (x : f32) : Z := f_to_u8 (fmax (fmin x (f32_of_Z 254)) (f32_of_Z 0)).
(** wind_metobin.rs:63-65 *)
Definition speed_byte (v : f32) : Z := clamp_byte (fround (fadd (mps_to_knots v) (f32_of_Z 128))).
(** wind_metobin.rs:68-73 *)
Definition gust_byte (v : option f32) : Z :=
  match v with None => NONE_BIN_VALUE | Some g => clamp_byte (fround (mps_to_knots g)) end.
(** wind_metobin.rs:44-51 *)
Definition wind_bytes (e_n : option (f32 * f32)) (gust : option f32) : bytes :=
  match e_n with
  | Some (e, n) => [speed_byte e; speed_byte n; gust_byte gust]
  | None => [NONE_BIN_VALUE; NONE_BIN_VALUE; NONE_BIN_VALUE]
  end.
(** wind_metobin.rs:37-60 *)
Definition wind_bin (l : wind_layer) : outcome bytes :=
  bin_values (g_w (vg_grid (wl_zonal l))) (g_h (vg_grid (wl_zonal l))) (fun x y =>
    obind (wind_e_n_by_xy l x y) (fun e_n => omap (wind_bytes e_n) (gusts_by_xy l x y))).

(** weather_metobin.rs:76-88 *)
Definition weather_from_clct (v : option f32) : option weather :=
  match v with
  | None => None
  | Some c => Some (if fle c (fdiv (f32_lit 625 100) (f32_of_Z 100)) then ClearSky
                    else if fle c (fdiv (f32_lit 4375 100) (f32_of_Z 100)) then MainlyClearSky
                    else if fle c (fdiv (f32_lit 8125 100) (f32_of_Z 100)) then PartlyCloudy
                    else Overcast)
  end.
(** weather_metobin.rs:67-70 *)
Definition ww_byte_from_clct (v : option f32) : Z :=
  match weather_from_clct v with Some w => weather_to_value w | None => NONE_BIN_VALUE end.
(** weather_metobin.rs:58-73 *)
Definition ww_byte (ww : option weather) (clct : option f32) : Z :=
  match ww with
  | Some w => if 4 <? weather_to_value w then weather_to_value w else ww_byte_from_clct clct
  | None => ww_byte_from_clct clct
  end.
(** weather_metobin.rs:94, 95 *)
Definition ceiling_units (m : f32) : f32 := fround (fdiv (meters_to_feet m) (f32_of_Z 200)).
(** weather_metobin.rs:91-97 *)
Definition ceiling_byte (v : option f32) : Z :=
  match v with
  | None => NONE_BIN_VALUE
  | Some m => if fge (ceiling_units m) (f32_of_Z 255) then NONE_BIN_VALUE else clamp_byte (ceiling_units m)
  end.
(** weather_metobin.rs:38-55 *)
Definition weather_bin (l : weather_layer) : outcome bytes :=
  bin_values (g_w (vg_grid (we_clct l))) (g_h (vg_grid (we_clct l))) (fun x y =>
    obind (ww_by_xy l x y) (fun ww => obind (clct_by_xy l x y) (fun clct => obind (ceiling_by_xy l x y) (fun ceiling =>
      Ok [ww_byte ww clct; ceiling_byte ceiling])))).

(** vertical_cloud_metobin.rs:43-67 *)
Definition vertical_cloud_bin (l : vertical_cloud_layer) : outcome bytes :=
  obind (vertical_cloud_dims l) (fun '(w, h, levels) =>
    bin_values w h (fun x y => push_all (fun level =>
      obind (vc_hhl_value l x y level) (fun hhl => obind (vc_clc_value l x y level) (fun clc =>
        Ok [unwrap_or hhl NONE_BIN_VALUE; unwrap_or clc NONE_BIN_VALUE]))) (upto levels))).
(** vertical_wind_metobin.rs:43-69 *)
Definition vertical_wind_bin (l : vertical_wind_layer) : outcome bytes :=
  obind (vertical_wind_dims l) (fun '(w, h, levels) =>
    bin_values w h (fun x y => push_all (fun level =>
      obind (vw_hhl_value l x y level) (fun hhl => obind (vw_u_v_values l x y level) (fun u_v =>
        Ok (unwrap_or hhl NONE_BIN_VALUE ::
            match u_v with Some (u, v) => [u; v] | None => [NONE_BIN_VALUE; NONE_BIN_VALUE] end)))) (upto levels))).

(** ** Bytes of vertical levels, as computed by the readers *)

(** dwd_icon_hhl_reader.rs:29, icon_ch_hhl_reader.rs:38-40 *)
Definition hhl_transform (m : f32) : Z := f_to_u8 (fdiv (meters_to_feet m) (f32_of_Z 100)).
(** dwd_icon_clc_reader.rs:30, icon_ch_clc_reader.rs:56-58 *)
Definition clc_transform (v : f32) : Z := f_to_u8 v.
(** dwd_icon_u_reader.rs:30-35, dwd_icon_v_reader.rs:31, icon_ch_u_reader.rs:38-43, icon_ch_v_reader.rs:38-43 *)
Definition u_v_transform (v : f32) : Z := clamp_byte (fround (fadd (mps_to_knots v) (f32_of_Z 128))).
(** dwd_icon_hhl_reader.rs:22, icon_ch_hhl_reader.rs:14 *)
Definition HHL_MISSING : Z := 0.
(** dwd_icon_clc_reader.rs:22, icon_ch_clc_reader.rs:16 *)
Definition CLC_MISSING : Z := 0.
(** dwd_icon_u_reader.rs:22, dwd_icon_v_reader.rs:23, icon_ch_u_reader.rs:14, icon_ch_v_reader.rs:14 *)
Definition U_V_MISSING : Z := 255.
