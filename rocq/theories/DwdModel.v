(** Model of /repo/src/dwd: the files of the German weather service (DWD), their readers, the search for the latest run and the
    rendering of its forecast. *)
From Coq Require Import String ZArith List Bool.
From Verif Require Import Base F32 Grib2Model GeoModel Par TileModel ChartModel MetobinModel Text ForecastModel FetchModel.
Import ListNotations.
Open Scope Z_scope.
Local Open Scope string_scope.

(** ** File URLs *)

(** dwd_icon_file.rs:94-100, with the constants of 8-9 *)
Definition base_url (m : fc_model) : outcome string :=
  match m with
  | IconD2 => Ok "https://opendata.dwd.de/weather/nwp/icon-d2/grib/"
  | IconEu => Ok "https://opendata.dwd.de/weather/nwp/icon-eu/grib/"
  | _ => Panic
  end.
(** dwd_icon_file.rs:14-35 *)
Definition single_level_url (prefix suffix : string) (run : fc_run) (s : fc_step) : outcome string :=
  omap (fun base => base ++ run_name run ++ prefix ++ date_text (run_date run) ++ run_name run ++ "_" ++ dec_pad 3 (st_nr s) ++ suffix)
    (base_url (run_model run)).
(** dwd_icon_file.rs:38-61 *)
Definition multi_level_url (prefix suffix : string) (level : Z) (run : fc_run) (s : fc_step) : outcome string :=
  omap (fun base => base ++ run_name run ++ prefix ++ date_text (run_date run) ++ run_name run ++ "_" ++ dec_pad 3 (st_nr s) ++ "_" ++ dec level ++ suffix)
    (base_url (run_model run)).
(** dwd_icon_file.rs:64-91 *)
Definition time_invariant_url (prefix suffix : string) (level : Z) (run : fc_run) : outcome string :=
  obind (base_url (run_model run)) (fun base =>
  obind (match run_model run with IconD2 => Ok "000_" | IconEu => Ok "" | _ => Panic end) (fun step =>
    Ok (base ++ run_name run ++ prefix ++ date_text (run_date run) ++ run_name run ++ "_" ++ step ++ dec level ++ suffix))).

(** The eight readers of single-level files. *)
Inductive single_var := Ceiling | ClctMod | TotPrec | Ww | U10m | V10m | Vmax10m | T2m.
Definition single_name (v : single_var) : string :=
  match v with
  | Ceiling => "ceiling" | ClctMod => "clct_mod" | TotPrec => "tot_prec" | Ww => "ww" | U10m => "u_10m" | V10m => "v_10m"
  | Vmax10m => "vmax_10m" | T2m => "t_2m"
  end.
Definition single_name_upper (v : single_var) : string :=
  match v with
  | Ceiling => "CEILING" | ClctMod => "CLCT_MOD" | TotPrec => "TOT_PREC" | Ww => "WW" | U10m => "U_10M" | V10m => "V_10M"
  | Vmax10m => "VMAX_10M" | T2m => "T_2M"
  end.
(** get_file_prefix_suffix and the constants at the top of dwd_icon_ceiling_reader.rs, dwd_icon_clct_mod_reader.rs,
    dwd_icon_tot_prec_reader.rs, dwd_icon_ww_reader.rs, dwd_icon_u_10m_reader.rs, dwd_icon_v_10m_reader.rs,
    dwd_icon_vmax_10m_reader.rs, dwd_icon_t_2m_reader.rs (the same but for the name). *)
Definition single_prefix_suffix (v : single_var) (m : fc_model) : outcome (string * string) :=
  match m with
  | IconD2 => Ok ("/" ++ single_name v ++ "/icon-d2_germany_regular-lat-lon_single-level_", "_2d_" ++ single_name v ++ ".grib2.bz2")
  | IconEu => Ok ("/" ++ single_name v ++ "/icon-eu_europe_regular-lat-lon_single-level_", "_" ++ single_name_upper v ++ ".grib2.bz2")
  | _ => Panic
  end.
(** get_file_url of these files, e.g. dwd_icon_t_2m_reader.rs:36-48 *)
Definition single_url (v : single_var) (run : fc_run) (s : fc_step) : outcome string :=
  obind (single_prefix_suffix v (run_model run)) (fun '(prefix, suffix) => single_level_url prefix suffix run s).
(** The three readers of files with a model level. *)
Inductive level_var := Clc | UWind | VWind.
Definition level_name (v : level_var) : string := match v with Clc => "clc" | UWind => "u" | VWind => "v" end.
Definition level_name_upper (v : level_var) : string := match v with Clc => "CLC" | UWind => "U" | VWind => "V" end.
(** dwd_icon_clc_reader.rs:18-21, 71-77; dwd_icon_u_reader.rs:18-21, 77-83; dwd_icon_v_reader.rs:19-22, 68-74 *)
Definition level_prefix_suffix (v : level_var) (m : fc_model) : outcome (string * string) :=
  match m with
  | IconD2 => Ok ("/" ++ level_name v ++ "/icon-d2_germany_regular-lat-lon_model-level_", "_" ++ level_name v ++ ".grib2.bz2")
  | IconEu => Ok ("/" ++ level_name v ++ "/icon-eu_europe_regular-lat-lon_model-level_", "_" ++ level_name_upper v ++ ".grib2.bz2")
  | _ => Panic
  end.
(** dwd_icon_clc_reader.rs:54-68, dwd_icon_u_reader.rs:60-74, dwd_icon_v_reader.rs:51-65 *)
Definition level_url (v : level_var) (run : fc_run) (s : fc_step) (level : Z) : outcome string :=
  obind (level_prefix_suffix v (run_model run)) (fun '(prefix, suffix) => multi_level_url prefix suffix level run s).
(** dwd_icon_hhl_reader.rs:18-21, 61-67 *)
Definition hhl_prefix_suffix (m : fc_model) : outcome (string * string) :=
  match m with
  | IconD2 => Ok ("/hhl/icon-d2_germany_regular-lat-lon_time-invariant_", "_hhl.grib2.bz2")
  | IconEu => Ok ("/hhl/icon-eu_europe_regular-lat-lon_time-invariant_", "_HHL.grib2.bz2")
  | _ => Panic
  end.
(** dwd_icon_hhl_reader.rs:49-58 *)
Definition hhl_url (run : fc_run) (level : Z) : outcome string :=
  obind (hhl_prefix_suffix (run_model run)) (fun '(prefix, suffix) => time_invariant_url prefix suffix level run).

(** ** Search for the latest run: dwd_icon_forecast_run_finder.rs *)

(** forecast_run/icon_d2_eu_forecast_run_name.rs:15-48 *)
Definition run_names : list string := ["00"; "03"; "06"; "09"; "12"; "15"; "18"; "21"].
Definition run_names_reversed : list string := rev run_names.
(** A list of computations that may panic, in order. *)
Fixpoint all_ok {A} (l : list (outcome A)) : outcome (list A) :=
  match l with [] => Ok [] | o :: r => obind o (fun a => omap (cons a) (all_ok r)) end.
(** 67-80 *)
Definition probe_urls (run : fc_run) (s : fc_step) : outcome (list string) :=
  all_ok [single_url ClctMod run s; single_url TotPrec run s; single_url Ceiling run s; single_url Ww run s; single_url U10m run s;
          single_url V10m run s; single_url Vmax10m run s; single_url T2m run s; level_url Clc run s 65%Z; level_url UWind run s 65%Z].
(** [head n url]: the status of the answer to a HEAD request for the URL that is the n-th request altogether; None: no answer. *)
Definition heads : Type := nat -> string -> option Z.
(** 36-53; also the number of the next request. *)
Fixpoint all_found (head : heads) (n : nat) (urls : list string) : bool * nat :=
  match urls with
  | [] => (true, n)
  | u :: rest => match head n u with
                 | Some status => if Z.eqb status 200 then all_found head (S n) rest else (false, S n)
                 | None => (false, S n)
                 end
  end.
(** 30-57 *)
Fixpoint find_run (head : heads) (n : nat) (m : fc_model) (today : date) (names : list string) : outcome (option fc_run) :=
  match names with
  | [] => Ok None
  | name :: rest =>
      let run := {| run_model := m; run_date := today; run_name := name |} in
      let s := {| st_nr := snd (step_range m); st_url := "" |} in
      obind (probe_urls run s) (fun urls =>
        let (found, n') := all_found head n urls in
        if found then Ok (Some run) else find_run head n' m today rest)
  end.
(** 25-64; [today'] is the date at the second reading of the clock. *)
Definition find_latest_run (head : heads) (m : fc_model) (today today' : date) : outcome fc_run :=
  omap (fun found => match found with
                     | Some run => run
                     | None => {| run_model := IconD2; run_date := prev_day today'; run_name := "21" |}
                     end) (find_run head 0 m today run_names_reversed).

(** ** Readers *)

Section Readers.
  Variables (chk : bool) (powi : f32 -> Z -> f32) (fetch : fetcher).
  (** MISSING_VALUE of all readers of single-level files *)
  Definition SINGLE_MISSING : f32 := f32_of_Z (-1).
  (** read_grid_from_file of the single-level readers, e.g. dwd_icon_ceiling_reader.rs:21-32 *)
  Definition read_single (v : single_var) (run : fc_run) (s : fc_step) : result fgrid :=
    r_bind (r_of (single_url v run s)) (fun url => fetch_regular chk powi fetch url SINGLE_MISSING (fun x => x)).
  (** dwd_icon_t_2m_reader.rs:21-33 *)
  Definition read_temp (run : fc_run) (s : fc_step) : result temp_layer := read_single T2m run s.
  (** dwd_icon_wind_10m_reader.rs:14-25 *)
  Definition read_wind (run : fc_run) (s : fc_step) : result wind_layer :=
    r_bind (read_single U10m run s) (fun u => r_bind (read_single V10m run s) (fun v => r_bind (read_single Vmax10m run s) (fun g =>
      r_of (wind_new u v (Some g))))).
  (** dwd_icon_cloud_precip_reader.rs:13-31 *)
  Definition read_cloud_precip (run : fc_run) (s : fc_step) (clct_steps prec_steps : list fc_step) : result cloud_precip_layer :=
    r_bind (r_of (unwrap (step_by_nr clct_steps (st_nr s)))) (fun clct_step =>
    r_bind (r_of (usub chk 64 (st_nr s) 1)) (fun before =>
    r_bind (r_of (unwrap (step_by_nr prec_steps before))) (fun prec0_step =>
    r_bind (r_of (unwrap (step_by_nr prec_steps (st_nr s)))) (fun prec1_step =>
    r_bind (read_single ClctMod run clct_step) (fun clct =>
    r_bind (read_single TotPrec run prec0_step) (fun prec0 =>
    r_bind (read_single TotPrec run prec1_step) (fun prec1 =>
      r_of (cloud_precip_new clct prec0 prec1)))))))).
  (** dwd_icon_weather_reader.rs:14-25 *)
  Definition read_weather (run : fc_run) (s : fc_step) : result weather_layer :=
    r_bind (read_single ClctMod run s) (fun clct => r_bind (read_single Ceiling run s) (fun ceiling => r_bind (read_single Ww run s) (fun ww =>
      r_of (weather_new clct ceiling (Some ww))))).
  (** dwd_icon_clc_reader.rs:25-51, dwd_icon_u_reader.rs:25-57, dwd_icon_v_reader.rs:26-48 *)
  Definition read_levels (v : level_var) (missing : Z) (transform : f32 -> Z) (run : fc_run) (s : fc_step) (levels : Z * Z) : result (list bgrid) :=
    r_collect (fun level => r_bind (r_of (level_url v run s level)) (fun url => fetch_regular chk powi fetch url missing transform))
      (range (fst levels) (snd levels)).
  Definition read_clc (run : fc_run) (s : fc_step) (levels : Z * Z) := read_levels Clc CLC_MISSING clc_transform run s levels.
  Definition read_u (run : fc_run) (s : fc_step) (levels : Z * Z) := read_levels UWind U_V_MISSING u_v_transform run s levels.
  Definition read_v (run : fc_run) (s : fc_step) (levels : Z * Z) := read_levels VWind U_V_MISSING u_v_transform run s levels.
  (** dwd_icon_hhl_reader.rs:25-46 *)
  Definition read_hhl (run : fc_run) (levels : Z * Z) : result (list bgrid) :=
    r_collect (fun level => r_bind (r_of (hhl_url run level)) (fun url => fetch_regular chk powi fetch url HHL_MISSING hhl_transform))
      (range (fst levels) (snd levels)).
  (** The closure of dwd_icon_forecast_renderer.rs:87-97 *)
  Definition read_cloud_precip_weather (run : fc_run) (s : fc_step) : result (cloud_precip_layer * weather_layer) :=
    r_bind (read_cloud_precip run s (forecast_steps (run_model run)) (forecast_diff_steps (run_model run))) (fun cp =>
    r_bind (read_weather run s) (fun we => r_of (Ok (cp, we)))).
  (** The closure of dwd_icon_forecast_renderer.rs:142-147 *)
  Definition read_vertical_cloud (run : fc_run) (levels : Z * Z) (hhl : list bgrid) (s : fc_step) : result vertical_cloud_layer :=
    r_bind (read_clc run s levels) (fun clc => r_of (vertical_cloud_new hhl clc)).
  (** The closure of dwd_icon_forecast_renderer.rs:167-173; dwd_icon_vertical_wind_reader.rs does the same and is not used. *)
  Definition read_vertical_wind (run : fc_run) (levels : Z * Z) (hhl : list bgrid) (s : fc_step) : result vertical_wind_layer :=
    r_bind (read_u run s levels) (fun u => r_bind (read_v run s levels) (fun v => r_of (vertical_wind_new hhl u v))).

  (** ** Rendering: dwd_icon_forecast_renderer.rs *)

  Variables (m : libm) (faulty : bool).
  (** 81-102 *)
  Definition dwd_cloud_precip (steps : list Z) (run : fc_run) : prog effect :=
    cloud_precip_render chk m faulty run (forecast_steps (run_model run)) steps (read_cloud_precip_weather run).
  (** 105-117 *)
  Definition dwd_wind (steps : list Z) (run : fc_run) : prog effect :=
    wind_render chk m faulty run (forecast_steps (run_model run)) steps (read_wind run).
  (** 120-132 *)
  Definition dwd_temp (steps : list Z) (run : fc_run) : prog effect :=
    temp_render chk m faulty run (forecast_steps (run_model run)) steps (read_temp run).
  (** 135-157 *)
  Definition dwd_vertical_cloud (steps : list Z) (levels : Z * Z) (run : fc_run) (hhl : list bgrid) : prog effect :=
    vertical_cloud_render faulty run (forecast_steps (run_model run)) steps (read_vertical_cloud run levels hhl).
  (** 160-183 *)
  Definition dwd_vertical_wind (steps : list Z) (levels : Z * Z) (run : fc_run) (hhl : list bgrid) : prog effect :=
    vertical_wind_render faulty run (forecast_steps (run_model run)) steps (read_vertical_wind run levels hhl).
  (** 31-78 *)
  Definition dwd_render_latest (head : heads) (today today' : date) (model : fc_model) (variables : list string) (steps : list Z) : prog effect :=
    p_let (find_latest_run head model today today') (fun run =>
      let levels := vertical_level_range (run_model run) in
      render_selected variables (dwd_cloud_precip steps run) (dwd_wind steps run) (dwd_temp steps run) (read_hhl run levels)
        (dwd_vertical_cloud steps levels run) (dwd_vertical_wind steps levels run)).
End Readers.
