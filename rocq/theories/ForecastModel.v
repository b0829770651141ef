(** Model of /repo/src/meteo_common, of the forecast renderers of /repo/src/meteo_chart/forecast_renderer and of the
    writing of files by /repo/src/metobin: models, runs, steps, output paths, and the rendering of the steps of a forecast. *)
From Coq Require Import String ZArith List Bool.
From Verif Require Import Base F32 GeoModel ImagingModel Par TileModel ChartModel MetobinModel Text.
Import ListNotations.
Open Scope Z_scope.

(** ** Dates (chrono) *)

(** chrono::NaiveDate.  Only the years 0 to 9999 are modelled (others are formatted with a sign). *)
Record date := { year : Z; month : Z; day : Z }.
Definition is_leap (y : Z) : bool := (y mod 4 =? 0) && (negb (y mod 100 =? 0) || (y mod 400 =? 0)).
Definition days_in_month (y m : Z) : Z :=
  if m =? 2 then (if is_leap y then 29 else 28)
  else if (m =? 4) || (m =? 6) || (m =? 9) || (m =? 11) then 30 else 31.
(** [date.add(Duration::days(-1))] and the next day. *)
Definition prev_day (d : date) : date :=
  if 1 <? day d then {| year := year d; month := month d; day := day d - 1 |}
  else if 1 <? month d then {| year := year d; month := month d - 1; day := days_in_month (year d) (month d - 1) |}
  else {| year := year d - 1; month := 12; day := 31 |}.
Definition next_day (d : date) : date :=
  if day d <? days_in_month (year d) (month d) then {| year := year d; month := month d; day := day d + 1 |}
  else if month d <? 12 then {| year := year d; month := month d + 1; day := 1 |}
  else {| year := year d + 1; month := 1; day := 1 |}.
(** [date.format("%Y%m%d")] *)
Definition date_text (d : date) : string := (dec_pad 4 (year d) ++ dec_pad 2 (month d) ++ dec_pad 2 (day d))%string.

(** ** Models, runs and steps: /repo/src/meteo_common *)

(** meteo_forecast_model.rs:8-13 *)
Inductive fc_model := IconGlobal | IconEu | IconD2 | IconCh1.
(** meteo_forecast_model.rs:24-31 *)
Definition model_name (m : fc_model) : string :=
  match m with IconGlobal => "icon-global" | IconEu => "icon-eu" | IconD2 => "icon-d2" | IconCh1 => "icon-ch1" end.
(** meteo_forecast_run_step.rs:6-9 *)
Record fc_step := { st_nr : Z; st_url : string }.
(** meteo_forecast_model.rs:45-52; an inclusive range is given by its bounds. *)
Definition step_range (m : fc_model) : Z * Z :=
  match m with IconGlobal => (2, 78) | IconEu => (2, 78) | IconD2 => (2, 48) | IconCh1 => (2, 33) end.
(** meteo_forecast_model.rs:66-71 (no underflow: the ranges start at 2). *)
Definition diff_step_range (m : fc_model) : Z * Z := (fst (step_range m) - 1, snd (step_range m) - 0).
Definition steps_of_range (r : Z * Z) : list fc_step := map (fun n => {| st_nr := n; st_url := EmptyString |}) (range (fst r) (snd r)).
(** meteo_forecast_model.rs:34-42 (never fails) *)
Definition forecast_steps (m : fc_model) : list fc_step := steps_of_range (step_range m).
(** meteo_forecast_model.rs:55-63 (never fails) *)
Definition forecast_diff_steps (m : fc_model) : list fc_step := steps_of_range (diff_step_range m).
(** meteo_forecast_model.rs:74-81 *)
Definition zoom_range (m : fc_model) : Z * Z :=
  match m with IconGlobal => (0, 5) | IconEu => (0, 6) | IconD2 => (0, 7) | IconCh1 => (0, 8) end.
(** meteo_forecast_model.rs:87-94 *)
Definition vertical_level_range (m : fc_model) : Z * Z :=
  match m with IconGlobal => (25, 90) | IconEu => (25, 74) | IconD2 => (25, 65) | IconCh1 => (31, 79) end.
(** meteo_forecast_run_step.rs:35-44 *)
Definition step_by_nr (steps : list fc_step) (n : Z) : outcome fc_step :=
  match find (fun s => st_nr s =? n) steps with Some s => Ok s | None => Err EInvalid end.
(** meteo_forecast_run.rs:7-11 *)
Record fc_run := { run_model : fc_model; run_date : date; run_name : string }.

(** meteo_layer_type.rs:2-9 *)
Inductive layer_type := CloudPrecip | Weather | Wind10m | Temp2m | VerticalCloud | VerticalWind.
(** meteo_layer_type.rs:13-22 *)
Definition layer_name (t : layer_type) : string :=
  match t with
  | CloudPrecip => "cloud_precip" | Weather => "weather" | Wind10m => "wind_10m" | Temp2m => "temp_2m"
  | VerticalCloud => "vertical_cloud" | VerticalWind => "vertical_wind"
  end.
(** meteo_layer_type.rs:25-34 *)
Definition output_subdir (t : layer_type) : string :=
  match t with
  | CloudPrecip => "clct_precip" | Weather => "clct_precip" | Wind10m => "wind" | Temp2m => "temp"
  | VerticalCloud => "vertical_clouds" | VerticalWind => "vertical_wind"
  end.
(** meteo_forecast_renderer_helper.rs:8-27 *)
Definition output_path (run : fc_run) (step_nr : Z) (t : layer_type) : string :=
  ("./output/" ++ model_name (run_model run) ++ "/" ++ date_text (run_date run) ++ run_name run ++ "/"
    ++ dec_pad 3 step_nr ++ "/" ++ output_subdir t ++ "/")%string.
(** metobin/meteobin_type.rs:2-22 *)
Inductive bin_type := BinPrecip | BinTemp | BinVerticalClouds | BinVerticalWind | BinWind | BinWeather.
Definition bin_file (t : bin_type) : string :=
  match t with
  | BinPrecip => "PRECIP.meteobin" | BinTemp => "TEMP.meteobin" | BinVerticalClouds => "VERTICAL_CLOUDS.meteobin"
  | BinVerticalWind => "VERTICAL_WIND.meteobin" | BinWind => "WIND.meteobin" | BinWeather => "WW.meteobin"
  end.

(** ** Effects *)

(** What the rendering does to the world.  The reading of files from the network has no effect; a call of the
    function that reads a step's layer, and the reading of the height grids, are recorded (both write a log line). *)
Inductive effect :=
| ERead (s : fc_step)                   (* a step's layer is read *)
| EHeights                              (* the height grids are read *)
| EDir (path : string)                  (* a directory is created, with its parents *)
| EPart (path : string) (d : drawable)  (* an image file is created, or an existing one emptied, and a beginning of the PNG (maybe nothing) written *)
| EImage (path : string) (d : drawable) (* the rest of the PNG of an image is written *)
| ECreate (path : string)               (* a file is created, or an existing one emptied *)
| EWrite (path : string) (data : bytes). (* the content of a created file *)

(** [faulty = true]: any operation on the disk may fail, and a write may lose data at the end.
    [faulty = false]: none fails. *)
Definition p_disk (faulty : bool) (e : effect) : prog effect := fun tr r =>
  (tr = [e] /\ r = Ok tt) \/ (faulty = true /\ tr = [] /\ r = Err EIo).
(** [write_all] to a BufWriter and the flush when it is dropped, whose result is lost. *)
Definition p_write (faulty : bool) (path : string) (data : bytes) : prog effect := fun tr r =>
  (tr = [EWrite path data] /\ r = Ok tt) \/
  (faulty = true /\ exists n, tr = [EWrite path (firstn n data)] /\ (r = Ok tt \/ r = Err EIo)).
(** [.unwrap()] and [.expect(..)] *)
Definition p_unwrap (p : prog effect) : prog effect := fun tr r =>
  exists r', p tr r' /\ r = match r' with Ok tt => Ok tt | _ => Panic end.
(** [let x = f()?; q x] for a function [f] whose possible results are given by a relation. *)
Definition p_call {A E} (f : outcome A -> Prop) (q : A -> prog E) : prog E := fun tr r => exists o, f o /\ p_let o q tr r.

(** map_tile_file_helper.rs:11-30; Drawable::safe_image is image::save_buffer, which creates the file and then writes the PNG,
    in as many pieces as it likes: one effect stands for all but the last piece. *)
Definition save_tile_step (faulty : bool) (t : layer_type) (run : fc_run) (step_nr : Z) (d : drawable) (zoom x y : Z) : prog effect :=
  let path := (output_path run step_nr t ++ dec zoom ++ "/" ++ dec x)%string in
  p_then (p_unwrap (p_disk faulty (EDir path)))
    (p_ignore (p_then (p_disk faulty (EPart (path ++ "/" ++ dec y ++ ".png")%string d))
                      (p_disk faulty (EImage (path ++ "/" ++ dec y ++ ".png")%string d)))).
(** precip_metobin.rs:18-34, temp_metobin.rs:17-33, wind_metobin.rs:18-34, weather_metobin.rs:19-35 *)
Definition write_bin (faulty : bool) (bin : outcome bytes) (t : layer_type) (b : bin_type) (run : fc_run) (step_nr : Z) : prog effect :=
  let path := (output_path run step_nr t ++ bin_file b)%string in
  p_let bin (fun data => p_then (p_unwrap (p_disk faulty (ECreate path))) (p_ignore (p_write faulty path data))).
(** vertical_cloud_metobin.rs:19-40, vertical_wind_metobin.rs:19-40 *)
Definition write_vertical_bin (faulty : bool) (bin : outcome bytes) (t : layer_type) (b : bin_type) (run : fc_run) (step_nr : Z) : prog effect :=
  let dir := output_path run step_nr t in
  let path := (dir ++ bin_file b)%string in
  p_let bin (fun data => p_then (p_disk faulty (EDir dir))
    (p_then (p_unwrap (p_disk faulty (ECreate path))) (p_write faulty path data))).

(** ** Map tiles of a layer *)

(** The extent of a layer's main grid: get_lat_lon_extent of meteo_cloud_precip_layer.rs:54-56,
    meteo_wind_10m_layer.rs:61-63, meteo_temp_2m_layer.rs:36-38. *)
Definition layer_extent (g : fgrid) : extent := g_extent (vg_grid g).
(** cloud_precip_chart_renderer.rs:27-46 *)
Definition cloud_precip_tiles (chk : bool) (m : libm) (faulty : bool) (l : cloud_precip_layer) (run : fc_run) (step_nr : Z) : prog effect :=
  create_all_tiles chk m (layer_extent (cp_cloud l)) (zoom_range (run_model run)) (cloud_and_precip_by_lat_lon l) (cloud_precip_color chk)
    (save_tile_step faulty CloudPrecip run step_nr).
(** wind_10m_chart_renderer.rs:30-49 *)
Definition wind_tiles (chk : bool) (m : libm) (faulty : bool) (l : wind_layer) (run : fc_run) (step_nr : Z) : prog effect :=
  create_all_tiles chk m (layer_extent (wl_zonal l)) (zoom_range (run_model run)) (wind_tot_by_lat_lon l) (fun v => Ok (wind_color v))
    (save_tile_step faulty Wind10m run step_nr).
(** temp_2m_chart_renderer.rs:28-47 *)
Definition temp_tiles (chk : bool) (m : libm) (faulty : bool) (l : temp_layer) (run : fc_run) (step_nr : Z) : prog effect :=
  create_all_tiles chk m (layer_extent l) (zoom_range (run_model run)) (temp_by_lat_lon l) (fun v => Ok (temp_color v))
    (save_tile_step faulty Temp2m run step_nr).

(** ** Forecast renderers *)

(** [!step_filter.is_empty() && !step_filter.contains(&nr)] *)
Definition skipped (filter : list Z) (s : fc_step) : bool :=
  negb (match filter with [] => true | _ => false end) && negb (existsb (Z.eqb (st_nr s)) filter).
(** The loop of all five renderers: [par_iter().try_for_each] with the filter and the reading of the layer; [body] is
    what follows.  (with_max_len only limits how rayon splits the work.) *)
Definition render_steps {L} (filter : list Z) (steps : list fc_step) (read : fc_step -> outcome L -> Prop) (body : L -> fc_step -> prog effect) : prog effect :=
  for_par steps (fun s =>
    if skipped filter s then p_end (Ok tt)
    else p_then (p_emit (ERead s)) (p_call (read s) (fun l => body l s))).
(** cloud_precip_forecast_renderer.rs:17-45 *)
Definition cloud_precip_render (chk : bool) (m : libm) (faulty : bool) (run : fc_run) (steps : list fc_step) (filter : list Z)
  (read : fc_step -> outcome (cloud_precip_layer * weather_layer) -> Prop) : prog effect :=
  render_steps filter steps read (fun l s =>
    p_then (p_ignore (cloud_precip_tiles chk m faulty (fst l) run (st_nr s)))
   (p_then (write_bin faulty (precip_bin (fst l)) CloudPrecip BinPrecip run (st_nr s))
           (write_bin faulty (weather_bin (snd l)) Weather BinWeather run (st_nr s)))).
(** wind_10m_forecast_renderer.rs:15-42; render_all_steps and render_single_step (46-85) are not called by
    anything and do the same. *)
Definition wind_render (chk : bool) (m : libm) (faulty : bool) (run : fc_run) (steps : list fc_step) (filter : list Z)
  (read : fc_step -> outcome wind_layer -> Prop) : prog effect :=
  render_steps filter steps read (fun l s =>
    p_then (p_ignore (wind_tiles chk m faulty l run (st_nr s)))
           (write_bin faulty (wind_bin l) Wind10m BinWind run (st_nr s))).
(** temp_2m_forecast_renderer.rs:16-43 *)
Definition temp_render (chk : bool) (m : libm) (faulty : bool) (run : fc_run) (steps : list fc_step) (filter : list Z)
  (read : fc_step -> outcome temp_layer -> Prop) : prog effect :=
  render_steps filter steps read (fun l s =>
    p_then (p_ignore (temp_tiles chk m faulty l run (st_nr s)))
           (write_bin faulty (temp_bin l) Temp2m BinTemp run (st_nr s))).
(** vertical_clouds_forecast_renderer.rs:18-43 *)
Definition vertical_cloud_render (faulty : bool) (run : fc_run) (steps : list fc_step) (filter : list Z)
  (read : fc_step -> outcome vertical_cloud_layer -> Prop) : prog effect :=
  render_steps filter steps read (fun l s =>
    p_ignore (write_vertical_bin faulty (vertical_cloud_bin l) VerticalCloud BinVerticalClouds run (st_nr s))).
(** vertical_wind_forecast_renderer.rs:18-43 *)
Definition vertical_wind_render (faulty : bool) (run : fc_run) (steps : list fc_step) (filter : list Z)
  (read : fc_step -> outcome vertical_wind_layer -> Prop) : prog effect :=
  render_steps filter steps read (fun l s =>
    p_ignore (write_vertical_bin faulty (vertical_wind_bin l) VerticalWind BinVerticalWind run (st_nr s))).
