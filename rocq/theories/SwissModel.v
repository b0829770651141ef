(** Model of /repo/src/meteo_swiss: the search for the files of MeteoSwiss, their readers and the rendering of the latest forecast. *)
From Coq Require Import Ascii String ZArith List Bool.
From Verif Require Import Base F32 Grib2Model GeoModel Par TileModel ChartModel MetobinModel Text ForecastModel FetchModel.
Import ListNotations.
Open Scope Z_scope.
Local Open Scope string_scope.

(** ** Forecast horizon: forecast_run/icon_ch_forecast_horizon.rs *)

(** 4-7; both numbers are u8. *)
Record horizon := { hz_days : Z; hz_hours : Z }.
(** 16-18 *)
Definition horizon_zero : horizon := {| hz_days := 0; hz_hours := 0 |}.
(** The string without its first character. *)
Definition tail (s : string) : string := match s with String _ r => r | EmptyString => EmptyString end.
Definition or_invalid {A} (o : option A) : outcome A := match o with Some a => Ok a | None => Err EInvalid end.
(** 21-49 *)
Definition horizon_from_str (s : string) : outcome horizon :=
  if negb (starts_with "P" s) || negb (contains "D" s) || negb (contains "T" s) || negb (contains "H" s) then Err EInvalid
  else match split_on "T" (tail s) with
       | (day_part, [time_part]) =>
           obind (or_invalid (parse_u8 (trim_end "D" day_part))) (fun days =>
           obind (or_invalid (parse_u8 (fst (split_on "H" time_part)))) (fun hours =>
             Ok {| hz_days := days; hz_hours := hours |}))
       | _ => Err EInvalid
       end.
(** 52-56 *)
Definition horizon_from_step (step : Z) : horizon := {| hz_days := step / 24; hz_hours := step mod 24 |}.
(** 59-61 *)
Definition horizon_step (chk : bool) (h : horizon) : outcome Z :=
  obind (uwrap chk 8 (hz_days h * 24)) (fun d => uwrap chk 8 (d + hz_hours h)).
(** 64-67 *)
Definition horizon_name (h : horizon) : string := "P" ++ dec (hz_days h) ++ "DT" ++ dec_pad 2 (hz_hours h) ++ "H00M00S".

(** ** Reference time: forecast_run/icon_ch_forecast_reference_datetime.rs *)

(** A chrono DateTime, in the time zone it is given in. *)
Record datetime := { dt_date : date; dt_hour : Z; dt_minute : Z; dt_second : Z; dt_nano : Z }.
(** 12-25; none of the unwraps can fail. *)
Definition ref_latest (t : datetime) : datetime :=
  {| dt_date := dt_date t; dt_hour := dt_hour t - dt_hour t mod 3; dt_minute := 0; dt_second := 0; dt_nano := 0 |}.
(** chrono's [with_timezone(&Utc)] for a local time that is [offset] seconds (less than a day) ahead of UTC. *)
Definition to_utc (t : datetime) (offset : Z) : datetime :=
  let s := dt_hour t * 3600 + dt_minute t * 60 + dt_second t - offset in
  let s' := s mod 86400 in
  {| dt_date := if (s <? 0)%Z then prev_day (dt_date t) else if (86400 <=? s)%Z then next_day (dt_date t) else dt_date t;
     dt_hour := s' / 3600; dt_minute := s' / 60 mod 60; dt_second := s' mod 60; dt_nano := dt_nano t |}.
(** chrono's [parse_from_rfc3339]: the local time and its offset in seconds, or nothing if the text is not in that format.
    Which texts it accepts is the subject of RfcModel.v; here it may be any function. *)
Definition rfc3339_parser : Type := string -> option (datetime * Z).
(** 28-38 *)
Definition ref_from_str (rfc3339 : rfc3339_parser) (s : string) : outcome datetime :=
  match rfc3339 s with
  | None => Err EInvalid
  | Some (t, offset) =>
      if negb (dt_minute t =? 0)%Z || negb (dt_second t =? 0)%Z || negb (dt_hour t mod 3 =? 0)%Z then Err EInvalid else Ok (to_utc t offset)
  end.
(** 42-45: chrono's [to_rfc3339_opts(Secs, true)]; without leap seconds, for the years 0 to 9999. *)
Definition ref_name (t : datetime) : string :=
  dec_pad 4 (year (dt_date t)) ++ "-" ++ dec_pad 2 (month (dt_date t)) ++ "-" ++ dec_pad 2 (day (dt_date t)) ++ "T" ++
  dec_pad 2 (dt_hour t) ++ ":" ++ dec_pad 2 (dt_minute t) ++ ":" ++ dec_pad 2 (dt_second t) ++ "Z".
(** forecast_run/icon_ch_forecast_run_name.rs:19-47: create_from_datetime and get_name. *)
Definition swiss_run_name (t : datetime) : outcome string :=
  let h := dt_hour t in
  if (h =? 0)%Z then Ok "00" else if (h =? 3)%Z then Ok "03" else if (h =? 6)%Z then Ok "06" else if (h =? 9)%Z then Ok "09"
  else if (h =? 12)%Z then Ok "12" else if (h =? 15)%Z then Ok "15" else if (h =? 18)%Z then Ok "18" else if (h =? 21)%Z then Ok "21" else Err EInvalid.

(** ** Search: /repo/src/meteo_swiss/data_geo_admin_ch *)

(** forecast_run/icon_ch_forecast_variable.rs:3-32 *)
Inductive swiss_var := SCeiling | SClc | SClct | SHhl | ST2m | STotPrec | SU | SU10m | SV | SV10m | SVmax10m.
Definition swiss_var_name (v : swiss_var) : string :=
  match v with
  | SCeiling => "CEILING" | SClc => "CLC" | SClct => "CLCT" | SHhl => "HHL" | ST2m => "T_2M" | STotPrec => "TOT_PREC"
  | SU => "U" | SU10m => "U_10M" | SV => "V" | SV10m => "V_10M" | SVmax10m => "VMAX_10M"
  end.
(** forecast_run/icon_ch_forecast_model.rs:17-22, the model IconCh1 (the other one is not used). *)
Definition swiss_collection : string := "ch.meteoschweiz.ogd-forecasting-icon-ch1".
(** icon_ch_forecast_request.rs:10-27 *)
Record request := { rq_collections : list string; rq_ref : option string; rq_horizon : option string; rq_var : option string; rq_perturbed : bool }.
(** icon_ch_forecast_response.rs:14-45, what is used of it; [ft_hrefs] are the hrefs of the assets in the order in which
    the HashMap is iterated, which may differ between two runs of the program. *)
Record feature := { ft_title : string; ft_ref : string; ft_horizon : string; ft_hrefs : list string }.
(** icon_ch_assets_response.rs:32-36, what is used of it *)
Record asset := { as_id : string; as_href : string }.
(** What the service can answer, already decoded from JSON; each call may give something else. *)
Record service := {
  sv_search : request -> result (list feature);  (* icon_ch_forecast_search_service.rs:17-31 *)
  sv_assets : result (list asset);               (* icon_ch_assets_service.rs:10-21 *)
  sv_fetch : fetcher
}.
(** icon_ch_assets_response.rs:15-17 with 10-11, 20-27 *)
Definition find_asset (id : string) (l : list asset) : option asset := find (fun a => String.eqb (as_id a) id) l.
Definition HOR_CONSTS_ID : string := "horizontal_constants_icon-ch1-eps.grib2".
Definition VERT_CONSTS_ID : string := "vertical_constants_icon-ch1-eps.grib2".
(** icon_ch_forecast_step.rs:5-9 *)
Record swiss_step := { ss_title : string; ss_horizon : horizon; ss_href : string }.
(** icon_ch_forecast_search_service.rs:96-102 *)
Definition first_href (hrefs : list string) : outcome string := match hrefs with h :: _ => Ok h | [] => Err EInvalid end.
(** 86-93 *)
Definition step_of_feature (f : feature) : outcome swiss_step :=
  obind (horizon_from_str (ft_horizon f)) (fun h => omap (fun href => {| ss_title := ft_title f; ss_horizon := h; ss_href := href |}) (first_href (ft_hrefs f))).
(** [iter().map(f).collect::<Result<Vec<_>, _>>()] *)
Fixpoint try_map {A B} (f : A -> outcome B) (l : list A) : outcome (list B) :=
  match l with [] => Ok [] | a :: r => obind (f a) (fun b => omap (cons b) (try_map f r)) end.
(** [slice::sort_by_key]: a stable sort.  (Its result is determined by this, so the algorithm does not matter.) *)
Fixpoint insert_by {A} (x : Z * A) (l : list (Z * A)) : list (Z * A) :=
  match l with [] => [x] | y :: r => if (fst x <=? fst y)%Z then x :: l else y :: insert_by x r end.
Definition sort_pairs {A} (l : list (Z * A)) : list (Z * A) := fold_right insert_by [] l.
(** The keys are only computed if there are at least two elements, and then each at least once. *)
Definition sort_by_key {A} (key : A -> outcome Z) (l : list A) : outcome (list A) :=
  match l with
  | [] | [_] => Ok l
  | _ => omap (fun ks => map snd (sort_pairs (combine ks l))) (try_map key l)
  end.

(** A request of icon_ch_forecast_request.rs:62-117 for icon-ch1 (build never fails: the model is always set). *)
Definition swiss_request (ref hor var : option string) : request :=
  {| rq_collections := [swiss_collection]; rq_ref := ref; rq_horizon := hor; rq_var := var; rq_perturbed := false |}.
(** The last element of a non-empty list. *)
Fixpoint last_of {A} (a : A) (l : list A) : A := match l with [] => a | b :: r => last_of b r end.
Section Search.
  Variables (chk : bool) (rfc3339 : rfc3339_parser) (sv : service).
  (** icon_ch_forecast_search_service.rs:34-56 *)
  Definition find_latest_ref : result datetime :=
    r_bind (sv_search sv (swiss_request None (Some (horizon_name horizon_zero)) (Some (swiss_var_name ST2m)))) (fun features =>
      r_of (match features with [] => Err EInvalid | f :: r => ref_from_str rfc3339 (ft_ref (last_of f r)) end)).
  (** 59-83 *)
  Definition find_files (v : swiss_var) (t : datetime) : result (list swiss_step) :=
    r_bind (sv_search sv (swiss_request (Some (ref_name t)) None (Some (swiss_var_name v)))) (fun features =>
      r_of (obind (try_map step_of_feature features) (sort_by_key (fun s => horizon_step chk (ss_horizon s))))).
  (** Numbering with [enumerate]. *)
  Definition number_steps (skip_first : bool) (l : list swiss_step) : list fc_step :=
    flat_map (fun '(i, s) => if negb skip_first || Nat.leb 1 i then [{| st_nr := Z.of_nat i; st_url := ss_href s |}] else [])
      (combine (seq 0 (length l)) l).
  (** forecast_renderer/icon_ch1_forecast_renderer.rs:214-234 *)
  Definition swiss_steps (v : swiss_var) (t : datetime) (skip_first : bool) : result (list fc_step) :=
    r_bind (find_files v t) (fun l => r_of (Ok (number_steps skip_first l))).
End Search.
(** icon_ch1_forecast_renderer.rs:203-211 *)
Definition swiss_run (t : datetime) : outcome fc_run :=
  omap (fun name => {| run_model := IconCh1; run_date := dt_date t; run_name := name |}) (swiss_run_name t).

(** ** Readers: /repo/src/meteo_swiss/file_reader *)

(** icon_ch_hor_const_reader.rs:13-18, 25-28 *)
Definition SWISS_W : Z := 1851.
Definition SWISS_H : Z := 847.
Definition SWISS_DIST : f32 := f32_lit 1 100.
Definition swiss_extent : outcome extent :=
  extent_new (lat_lon_new (f32_lit 4203 100) (f32_lit (-81) 100)) (lat_lon_new (f32_lit 5050 100) (f32_lit 1770 100)).
(** common/icon_ch1_model_config.rs:7-9 *)
Definition SWISS_LEVELS : Z * Z := (31, 79).
(** MISSING_VALUE of all readers of single grids *)
Definition SWISS_MISSING : f32 := f32_of_Z (-1).
(** icon_ch_clct_reader.rs:25-27 *)
Definition clct_transform (v : f32) : f32 := fdiv v (f32_of_Z 100).
Notation ugrid := (unstructured (option coord_dist)).

Section Readers.
  Variables (chk : bool) (powi : f32 -> Z -> f32) (fetch : fetcher).
  (** icon_ch_hor_const_reader.rs:21-34 *)
  Definition read_hor_consts (url : string) : result ugrid :=
    r_bind (fetch_docs chk fetch url) (fun docs => r_of (
      obind (index_vec docs 4) (fun clat =>
      obind (index_vec docs 3) (fun clon =>
      obind swiss_extent (fun e =>
      obind (coordinates_from_docs powi clat clon) (fun cs =>
        calc_coord_dist_lookup_map chk (unstructured_new None SWISS_W SWISS_H e cs) SWISS_DIST)))))).
  (** read_grid_from_file of icon_ch_ceiling_reader.rs:13-27, icon_ch_t_2m_reader.rs:31-45, icon_ch_tot_prec_reader.rs:13-27,
      icon_ch_wind_u_10m_reader.rs:13-27, icon_ch_wind_v_10m_reader.rs:13-27, icon_ch_wind_vmax_10m_reader.rs:13-27 *)
  Definition swiss_single (u : ugrid) (url : string) : result fgrid := fetch_unstructured chk powi fetch url SWISS_MISSING (fun x => x) u.
  (** icon_ch_clct_reader.rs:13-27 *)
  Definition swiss_clct (u : ugrid) (url : string) : result fgrid := fetch_unstructured chk powi fetch url SWISS_MISSING clct_transform u.
  (** icon_ch_t_2m_reader.rs:16-28 *)
  Definition swiss_read_temp (t2m : list fc_step) (u : ugrid) (s : fc_step) : result temp_layer :=
    r_bind (r_of (unwrap (step_by_nr t2m (st_nr s)))) (fun t2m_step => swiss_single u (st_url t2m_step)).
  (** icon_ch_wind_10m_reader.rs:14-33 *)
  Definition swiss_read_wind (us vs gs : list fc_step) (u : ugrid) (s : fc_step) : result wind_layer :=
    r_bind (r_of (step_by_nr us (st_nr s))) (fun su =>
    r_bind (r_of (step_by_nr vs (st_nr s))) (fun s_v =>
    r_bind (r_of (step_by_nr gs (st_nr s))) (fun sg =>
    r_bind (swiss_single u (st_url su)) (fun grid_u =>
    r_bind (swiss_single u (st_url s_v)) (fun grid_v =>
    r_bind (swiss_single u (st_url sg)) (fun grid_gusts =>
      r_of (wind_new grid_u grid_v (Some grid_gusts)))))))).
  (** icon_ch_cloud_precip_reader.rs:13-31 *)
  Definition swiss_read_cloud_precip (clct prec : list fc_step) (u : ugrid) (s : fc_step) : result cloud_precip_layer :=
    r_bind (r_of (unwrap (step_by_nr clct (st_nr s)))) (fun clct_step =>
    r_bind (r_of (usub chk 64 (st_nr s) 1)) (fun before =>
    r_bind (r_of (unwrap (step_by_nr prec before))) (fun prec0_step =>
    r_bind (r_of (unwrap (step_by_nr prec (st_nr s)))) (fun prec1_step =>
    r_bind (swiss_clct u (st_url clct_step)) (fun clct_grid =>
    r_bind (swiss_single u (st_url prec0_step)) (fun prec0 =>
    r_bind (swiss_single u (st_url prec1_step)) (fun prec1 =>
      r_of (cloud_precip_new clct_grid prec0 prec1)))))))).
  (** icon_ch_ww_reader.rs:13-31 *)
  Definition swiss_read_weather (clct ceiling : list fc_step) (u : ugrid) (s : fc_step) : result weather_layer :=
    r_bind (r_of (unwrap (step_by_nr clct (st_nr s)))) (fun clct_step =>
    r_bind (r_of (unwrap (step_by_nr ceiling (st_nr s)))) (fun ceiling_step =>
    r_bind (swiss_clct u (st_url clct_step)) (fun clct_grid =>
    r_bind (swiss_single u (st_url ceiling_step)) (fun ceiling_grid =>
      r_of (weather_new clct_grid ceiling_grid None))))).
  (** The closure of icon_ch1_forecast_renderer.rs:107-112 *)
  Definition swiss_read_cloud_precip_weather (clct prec ceiling : list fc_step) (u : ugrid) (s : fc_step) : result (cloud_precip_layer * weather_layer) :=
    r_bind (swiss_read_cloud_precip clct prec u s) (fun cp => r_bind (swiss_read_weather clct ceiling u s) (fun we => r_of (Ok (cp, we)))).
  (** icon_ch_hhl_reader.rs:17-40 *)
  Definition swiss_read_hhl (u : ugrid) (url : string) : result (list bgrid) :=
    fetch_multi_unstructured chk powi fetch url HHL_MISSING hhl_transform u (Some SWISS_LEVELS).
  (** icon_ch_clc_reader.rs:35-58 *)
  Definition swiss_clc (u : ugrid) (url : string) : result (list bgrid) :=
    fetch_multi_unstructured chk powi fetch url CLC_MISSING clc_transform u (Some SWISS_LEVELS).
  (** icon_ch_u_reader.rs:17-43, icon_ch_v_reader.rs:17-43 *)
  Definition swiss_u_v (u : ugrid) (url : string) : result (list bgrid) :=
    fetch_multi_unstructured chk powi fetch url U_V_MISSING u_v_transform u (Some SWISS_LEVELS).
  (** icon_ch_clc_reader.rs:19-32 *)
  Definition swiss_read_vertical_cloud (clc : list fc_step) (u : ugrid) (hhl : list bgrid) (s : fc_step) : result vertical_cloud_layer :=
    r_bind (r_of (unwrap (step_by_nr clc (st_nr s)))) (fun clc_step =>
    r_bind (swiss_clc u (st_url clc_step)) (fun clc_grids => r_of (vertical_cloud_new hhl clc_grids))).
  (** icon_ch_vertical_wind_reader.rs:15-33 *)
  Definition swiss_read_vertical_wind (us vs : list fc_step) (u : ugrid) (hhl : list bgrid) (s : fc_step) : result vertical_wind_layer :=
    r_bind (r_of (unwrap (step_by_nr us (st_nr s)))) (fun u_step =>
    r_bind (r_of (unwrap (step_by_nr vs (st_nr s)))) (fun v_step =>
    r_bind (swiss_u_v u (st_url u_step)) (fun u_grids =>
    r_bind (swiss_u_v u (st_url v_step)) (fun v_grids => r_of (vertical_wind_new hhl u_grids v_grids))))).
End Readers.

(** ** Rendering: forecast_renderer/icon_ch1_forecast_renderer.rs *)

Section Rendering.
  Variables (chk : bool) (powi : f32 -> Z -> f32) (rfc3339 : rfc3339_parser) (sv : service) (m : libm) (faulty : bool) (steps : list Z).
  (** 98-117 *)
  Definition swiss_cloud_precip (u : ugrid) (t : datetime) : prog effect :=
    p_let (swiss_run t) (fun run =>
    p_call (swiss_steps chk sv SClct t true) (fun clct =>
    p_call (swiss_steps chk sv STotPrec t false) (fun prec =>
    p_call (swiss_steps chk sv SCeiling t false) (fun ceiling =>
      cloud_precip_render chk m faulty run clct steps (swiss_read_cloud_precip_weather chk powi (sv_fetch sv) clct prec ceiling u))))).
  (** 120-136 *)
  Definition swiss_wind (u : ugrid) (t : datetime) : prog effect :=
    p_let (swiss_run t) (fun run =>
    p_call (swiss_steps chk sv SU10m t false) (fun us =>
    p_call (swiss_steps chk sv SV10m t false) (fun vs =>
    p_call (swiss_steps chk sv SVmax10m t false) (fun gs =>
      wind_render chk m faulty run us steps (swiss_read_wind chk powi (sv_fetch sv) us vs gs u))))).
  (** 139-153 *)
  Definition swiss_temp (u : ugrid) (t : datetime) : prog effect :=
    p_let (swiss_run t) (fun run =>
    p_call (swiss_steps chk sv ST2m t false) (fun t2m =>
      temp_render chk m faulty run t2m steps (swiss_read_temp chk powi (sv_fetch sv) t2m u))).
  (** 156-176 *)
  Definition swiss_vertical_cloud (u : ugrid) (t : datetime) (hhl : list bgrid) : prog effect :=
    p_let (swiss_run t) (fun run =>
    p_call (swiss_steps chk sv SClc t false) (fun clc =>
      vertical_cloud_render faulty run clc steps (swiss_read_vertical_cloud chk powi (sv_fetch sv) clc u hhl))).
  (** 179-200 *)
  Definition swiss_vertical_wind (u : ugrid) (t : datetime) (hhl : list bgrid) : prog effect :=
    p_let (swiss_run t) (fun run =>
    p_call (swiss_steps chk sv SU t false) (fun us =>
    p_call (swiss_steps chk sv SV t false) (fun vs =>
      vertical_wind_render faulty run us steps (swiss_read_vertical_wind chk powi (sv_fetch sv) us vs u hhl)))).
  (** [.unwrap()] of an Option *)
  Definition expect {A} (o : option A) : outcome A := match o with Some a => Ok a | None => Panic end.
  (** 38-95 *)
  Definition swiss_render_latest (variables : list string) : prog effect :=
    p_call (sv_assets sv) (fun assets =>
    p_let (expect (find_asset HOR_CONSTS_ID assets)) (fun hor =>
    p_call (read_hor_consts chk powi (sv_fetch sv) (as_href hor)) (fun u =>
    p_let (expect (find_asset VERT_CONSTS_ID assets)) (fun vert =>
    p_call (find_latest_ref rfc3339 sv) (fun t =>
      render_selected variables (swiss_cloud_precip u t) (swiss_wind u t) (swiss_temp u t) (swiss_read_hhl chk powi (sv_fetch sv) u (as_href vert))
        (swiss_vertical_cloud u t) (swiss_vertical_wind u t)))))).
End Rendering.
