(** Model of the requests that the program sends to the services, and when: the functions of FetchModel.v, DwdModel.v and SwissModel.v
    that use the network, once more with a record of the requests.  ReqProofs.v shows that without the record they are the same.
    A request is one call of ureq; redirections and connections are not modelled. *)
From Coq Require Import String ZArith List Bool.
From Verif Require Import Base F32 Grib2Model GeoModel Par TileModel ChartModel MetobinModel Text ForecastModel FetchModel DwdModel SwissModel CliModel.
Import ListNotations.
Open Scope Z_scope.

Inductive ask :=
| AskHead (url : string)   (* dwd_icon_forecast_run_finder.rs:38 *)
| AskFile (url : string)   (* system/file_helper.rs:16; a local file if it is no URL (file_to_grid_converter.rs:27, 41) *)
| AskSearch (q : request)  (* icon_ch_forecast_search_service.rs:24 *)
| AskAssets.               (* icon_ch_assets_service.rs:14 *)

(** ** Computations with requests *)

(** [p qs o]: the computation can send exactly the requests [qs] in this order and then end with [o]. *)
Definition logged (A : Type) : Type := list ask -> outcome A -> Prop.
Definition l_of {A} (o : outcome A) : logged A := fun qs r => qs = [] /\ r = o.
Definition l_quiet {A} (f : result A) : logged A := fun qs r => qs = [] /\ f r.
Definition l_ask {A} (q : ask) (answers : result A) : logged A := fun qs r => qs = [q] /\ answers r.
(** [let x = p?; q x] *)
Definition l_bind {A B} (p : logged A) (q : A -> logged B) : logged B := fun qs r =>
  exists q1 o, p q1 o /\ match o with
    | Ok a => exists q2, q a q2 r /\ qs = q1 ++ q2
    | Err e => qs = q1 /\ r = Err e
    | Panic => qs = q1 /\ r = Panic
    end.
(** rayon's [into_par_iter().map(f).collect::<Result<Vec<_>, _>>()], as [Par.for_par] and [FetchModel.r_collect] *)
Definition l_collect {A B} (f : A -> logged B) (l : list A) : logged (list B) := fun qs r =>
  exists xs, Forall2 (fun a x => match x with Some (q, o) => f a q o | None => True end) l xs /\
    interleaving (map (fun x => match x with Some (q, _) => q | None => [] end) xs) qs /\
    match r with
    | Ok ys => Forall2 (fun x y => exists q, x = Some (q, Ok y)) xs ys
    | Err e => (exists q, In (Some (q, Err e)) xs) /\ forall q, ~ In (Some (q, Panic)) xs
    | Panic => exists q, In (Some (q, Panic)) xs
    end.

(** ** Programs with requests *)

Inductive event := Did (e : effect) | Asked (q : ask).
Definition quiet (p : prog effect) : prog event := fun tr r => exists t, p t r /\ tr = map Did t.
(** [let x = f()?; q x] *)
Definition l_call {A} (f : logged A) (q : A -> prog event) : prog event := fun tr r =>
  exists qs o t, f qs o /\ p_let o q t r /\ tr = map Asked qs ++ t.

(** ** Files: file_to_grid_converter.rs *)

Section Fetch.
  Variables (chk : bool) (powi : f32 -> Z -> f32) (fetch : fetcher).
  (** 21-32 *)
  Definition l_fetch_doc (url : string) : logged document :=
    l_bind (l_ask (AskFile url) (fetch url)) (fun bs => l_of (omap fst (read_single_doc chk bs))).
  (** 35-46 *)
  Definition l_fetch_docs (url : string) : logged (list document) :=
    l_bind (l_ask (AskFile url) (fetch url)) (fun bs => l_of (match read_multi_doc chk bs with Some o => o | None => Panic end)).
  (** 60-69 *)
  Definition l_regular {T} (url : string) (missing : T) (transform : f32 -> T) : logged (value_grid T) :=
    l_bind (l_fetch_doc url) (fun d => l_of (regular_create_and_transform powi d missing transform)).
  (** 72-84 *)
  Definition l_unstructured {T} (url : string) (missing : T) (transform : f32 -> T) (u : unstructured (option coord_dist)) : logged (value_grid T) :=
    l_bind (l_fetch_doc url) (fun d => l_of (regrid_doc powi missing transform u d)).
  (** 87-114 *)
  Definition l_multi {T} (url : string) (missing : T) (transform : f32 -> T) (u : unstructured (option coord_dist)) (range : option (Z * Z)) : logged (list (value_grid T)) :=
    l_bind (l_fetch_docs url) (fun docs => l_quiet (multi_unstructured powi missing transform u range docs)).
End Fetch.

(** ** Forecast renderers: the loop that they have in common (ForecastModel.render_steps), and what they do with a step *)

Definition l_steps {L} (filter : list Z) (steps : list fc_step) (read : fc_step -> logged L) (body : L -> fc_step -> prog effect) : prog event :=
  for_par steps (fun s =>
    if skipped filter s then p_end (Ok tt)
    else p_then (p_emit (Did (ERead s))) (l_call (read s) (fun l => quiet (body l s)))).
(** cloud_precip_forecast_renderer.rs:36-41 *)
Definition cloud_precip_body (chk : bool) (m : libm) (faulty : bool) (run : fc_run) (l : cloud_precip_layer * weather_layer) (s : fc_step) : prog effect :=
  p_then (p_ignore (cloud_precip_tiles chk m faulty (fst l) run (st_nr s)))
 (p_then (write_bin faulty (precip_bin (fst l)) CloudPrecip BinPrecip run (st_nr s))
         (write_bin faulty (weather_bin (snd l)) Weather BinWeather run (st_nr s))).
(** wind_10m_forecast_renderer.rs:15-42, after the reading *)
Definition wind_body (chk : bool) (m : libm) (faulty : bool) (run : fc_run) (l : wind_layer) (s : fc_step) : prog effect :=
  p_then (p_ignore (wind_tiles chk m faulty l run (st_nr s))) (write_bin faulty (wind_bin l) Wind10m BinWind run (st_nr s)).
(** temp_2m_forecast_renderer.rs:16-43, after the reading *)
Definition temp_body (chk : bool) (m : libm) (faulty : bool) (run : fc_run) (l : temp_layer) (s : fc_step) : prog effect :=
  p_then (p_ignore (temp_tiles chk m faulty l run (st_nr s))) (write_bin faulty (temp_bin l) Temp2m BinTemp run (st_nr s)).
(** vertical_clouds_forecast_renderer.rs:38-39 *)
Definition vertical_cloud_body (faulty : bool) (run : fc_run) (l : vertical_cloud_layer) (s : fc_step) : prog effect :=
  p_ignore (write_vertical_bin faulty (vertical_cloud_bin l) VerticalCloud BinVerticalClouds run (st_nr s)).
(** vertical_wind_forecast_renderer.rs:18-43, after the reading *)
Definition vertical_wind_body (faulty : bool) (run : fc_run) (l : vertical_wind_layer) (s : fc_step) : prog effect :=
  p_ignore (write_vertical_bin faulty (vertical_wind_bin l) VerticalWind BinVerticalWind run (st_nr s)).
(** FetchModel.render_selected *)
Definition l_selected (filter : list string) (cloud_precip wind temp : prog event) (heights : logged (list bgrid))
  (vertical_cloud vertical_wind : list bgrid -> prog event) : prog event :=
  p_then (p_if (selected filter CloudPrecip) cloud_precip)
 (p_then (p_if (selected filter Wind10m) wind)
 (p_then (p_if (selected filter Temp2m) temp)
 (p_if (selected filter VerticalCloud || selected filter VerticalWind)
   (p_then (p_emit (Did EHeights)) (l_call heights (fun hhl =>
      p_then (p_if (selected filter VerticalCloud) (vertical_cloud hhl))
             (p_if (selected filter VerticalWind) (vertical_wind hhl)))))))).

(** ** German service: DwdModel.v *)

(** dwd_icon_forecast_run_finder.rs:36-53: the URLs asked for. *)
Fixpoint l_found (head : heads) (n : nat) (urls : list string) : list ask :=
  match urls with
  | [] => []
  | u :: rest => AskHead u :: match head n u with
                              | Some status => if Z.eqb status 200 then l_found head (S n) rest else []
                              | None => []
                              end
  end.
(** 30-57 *)
Fixpoint l_find_run (head : heads) (n : nat) (m : fc_model) (today : date) (names : list string) : list ask * outcome (option fc_run) :=
  match names with
  | [] => ([], Ok None)
  | name :: rest =>
      let run := {| run_model := m; run_date := today; run_name := name |} in
      let s := {| st_nr := snd (step_range m); st_url := "" |} in
      match probe_urls run s with
      | Ok urls =>
          let (found, n') := all_found head n urls in
          if found then (l_found head n urls, Ok (Some run))
          else let (qs, o) := l_find_run head n' m today rest in (l_found head n urls ++ qs, o)
      | Err e => ([], Err e)
      | Panic => ([], Panic)
      end
  end.
(** 25-64 *)
Definition l_latest_run (head : heads) (m : fc_model) (today today' : date) : logged fc_run := fun qs r =>
  qs = fst (l_find_run head 0 m today run_names_reversed) /\
  r = omap (fun found => match found with
                         | Some run => run
                         | None => {| run_model := IconD2; run_date := prev_day today'; run_name := "21" |}
                         end) (snd (l_find_run head 0 m today run_names_reversed)).

Section Dwd.
  Variables (chk : bool) (powi : f32 -> Z -> f32) (fetch : fetcher).
  (** e.g. dwd_icon_ceiling_reader.rs:21-32 *)
  Definition l_single (v : single_var) (run : fc_run) (s : fc_step) : logged fgrid :=
    l_bind (l_of (single_url v run s)) (fun url => l_regular chk powi fetch url SINGLE_MISSING (fun x => x)).
  (** dwd_icon_wind_10m_reader.rs:14-25 *)
  Definition l_wind (run : fc_run) (s : fc_step) : logged wind_layer :=
    l_bind (l_single U10m run s) (fun u => l_bind (l_single V10m run s) (fun v => l_bind (l_single Vmax10m run s) (fun g =>
      l_of (wind_new u v (Some g))))).
  (** dwd_icon_cloud_precip_reader.rs:13-31 *)
  Definition l_cloud_precip (run : fc_run) (s : fc_step) (clct_steps prec_steps : list fc_step) : logged cloud_precip_layer :=
    l_bind (l_of (unwrap (step_by_nr clct_steps (st_nr s)))) (fun clct_step =>
    l_bind (l_of (usub chk 64 (st_nr s) 1)) (fun before =>
    l_bind (l_of (unwrap (step_by_nr prec_steps before))) (fun prec0_step =>
    l_bind (l_of (unwrap (step_by_nr prec_steps (st_nr s)))) (fun prec1_step =>
    l_bind (l_single ClctMod run clct_step) (fun clct =>
    l_bind (l_single TotPrec run prec0_step) (fun prec0 =>
    l_bind (l_single TotPrec run prec1_step) (fun prec1 =>
      l_of (cloud_precip_new clct prec0 prec1)))))))).
  (** dwd_icon_weather_reader.rs:14-25 *)
  Definition l_weather (run : fc_run) (s : fc_step) : logged weather_layer :=
    l_bind (l_single ClctMod run s) (fun clct => l_bind (l_single Ceiling run s) (fun ceiling => l_bind (l_single Ww run s) (fun ww =>
      l_of (weather_new clct ceiling (Some ww))))).
  (** dwd_icon_clc_reader.rs:25-51, dwd_icon_u_reader.rs:25-57, dwd_icon_v_reader.rs:26-48 *)
  Definition l_levels (v : level_var) (missing : Z) (transform : f32 -> Z) (run : fc_run) (s : fc_step) (levels : Z * Z) : logged (list bgrid) :=
    l_collect (fun level => l_bind (l_of (level_url v run s level)) (fun url => l_regular chk powi fetch url missing transform))
      (range (fst levels) (snd levels)).
  (** dwd_icon_hhl_reader.rs:25-46 *)
  Definition l_hhl (run : fc_run) (levels : Z * Z) : logged (list bgrid) :=
    l_collect (fun level => l_bind (l_of (hhl_url run level)) (fun url => l_regular chk powi fetch url HHL_MISSING hhl_transform))
      (range (fst levels) (snd levels)).
  (** dwd_icon_forecast_renderer.rs:87-97 *)
  Definition l_cloud_precip_weather (run : fc_run) (s : fc_step) : logged (cloud_precip_layer * weather_layer) :=
    l_bind (l_cloud_precip run s (forecast_steps (run_model run)) (forecast_diff_steps (run_model run))) (fun cp =>
    l_bind (l_weather run s) (fun we => l_of (Ok (cp, we)))).
  (** 142-147 *)
  Definition l_vertical_cloud (run : fc_run) (levels : Z * Z) (hhl : list bgrid) (s : fc_step) : logged vertical_cloud_layer :=
    l_bind (l_levels Clc CLC_MISSING clc_transform run s levels) (fun clc => l_of (vertical_cloud_new hhl clc)).
  (** 167-173 *)
  Definition l_vertical_wind (run : fc_run) (levels : Z * Z) (hhl : list bgrid) (s : fc_step) : logged vertical_wind_layer :=
    l_bind (l_levels UWind U_V_MISSING u_v_transform run s levels) (fun u =>
    l_bind (l_levels VWind U_V_MISSING u_v_transform run s levels) (fun v => l_of (vertical_wind_new hhl u v))).

  Variables (m : libm) (faulty : bool).
  (** 31-78 with 81-183 *)
  Definition l_dwd_render (head : heads) (today today' : date) (model : fc_model) (variables : list string) (steps : list Z) : prog event :=
    l_call (l_latest_run head model today today') (fun run =>
      let levels := vertical_level_range (run_model run) in
      let all := forecast_steps (run_model run) in
      l_selected variables
        (l_steps steps all (l_cloud_precip_weather run) (cloud_precip_body chk m faulty run))
        (l_steps steps all (l_wind run) (wind_body chk m faulty run))
        (l_steps steps all (l_single T2m run) (temp_body chk m faulty run))
        (l_hhl run levels)
        (fun hhl => l_steps steps all (l_vertical_cloud run levels hhl) (vertical_cloud_body faulty run))
        (fun hhl => l_steps steps all (l_vertical_wind run levels hhl) (vertical_wind_body faulty run))).
End Dwd.

(** ** Swiss service: SwissModel.v *)

Notation ugrid := (unstructured (option coord_dist)).
Section Swiss.
  Variables (chk : bool) (powi : f32 -> Z -> f32) (rfc3339 : rfc3339_parser) (sv : service).
  (** icon_ch_forecast_search_service.rs:34-56 *)
  Definition l_latest_ref : logged datetime :=
    let q := swiss_request None (Some (horizon_name horizon_zero)) (Some (swiss_var_name ST2m)) in
    l_bind (l_ask (AskSearch q) (sv_search sv q)) (fun features =>
      l_of (match features with [] => Err EInvalid | f :: r => ref_from_str rfc3339 (ft_ref (last_of f r)) end)).
  (** 59-83 *)
  Definition l_find_files (v : swiss_var) (t : datetime) : logged (list swiss_step) :=
    let q := swiss_request (Some (ref_name t)) None (Some (swiss_var_name v)) in
    l_bind (l_ask (AskSearch q) (sv_search sv q)) (fun features =>
      l_of (obind (try_map step_of_feature features) (sort_by_key (fun s => horizon_step chk (ss_horizon s))))).
  (** icon_ch1_forecast_renderer.rs:214-234 *)
  Definition l_swiss_steps (v : swiss_var) (t : datetime) (skip_first : bool) : logged (list fc_step) :=
    l_bind (l_find_files v t) (fun l => l_of (Ok (number_steps skip_first l))).
  (** icon_ch_hor_const_reader.rs:21-34 *)
  Definition l_hor_consts (url : string) : logged ugrid :=
    l_bind (l_fetch_docs chk (sv_fetch sv) url) (fun docs => l_of (
      obind (index_vec docs 4) (fun clat =>
      obind (index_vec docs 3) (fun clon =>
      obind swiss_extent (fun e =>
      obind (coordinates_from_docs powi clat clon) (fun cs =>
        calc_coord_dist_lookup_map chk (unstructured_new None SWISS_W SWISS_H e cs) SWISS_DIST)))))).
  (** read_grid_from_file of the readers, e.g. icon_ch_ceiling_reader.rs:13-27; icon_ch_clct_reader.rs:13-27 *)
  Definition l_swiss_single (u : ugrid) (url : string) : logged fgrid := l_unstructured chk powi (sv_fetch sv) url SWISS_MISSING (fun x => x) u.
  Definition l_swiss_clct (u : ugrid) (url : string) : logged fgrid := l_unstructured chk powi (sv_fetch sv) url SWISS_MISSING clct_transform u.
  (** icon_ch_t_2m_reader.rs:16-28 *)
  Definition l_swiss_temp (t2m : list fc_step) (u : ugrid) (s : fc_step) : logged temp_layer :=
    l_bind (l_of (unwrap (step_by_nr t2m (st_nr s)))) (fun t2m_step => l_swiss_single u (st_url t2m_step)).
  (** icon_ch_wind_10m_reader.rs:14-33 *)
  Definition l_swiss_wind (us vs gs : list fc_step) (u : ugrid) (s : fc_step) : logged wind_layer :=
    l_bind (l_of (step_by_nr us (st_nr s))) (fun su =>
    l_bind (l_of (step_by_nr vs (st_nr s))) (fun s_v =>
    l_bind (l_of (step_by_nr gs (st_nr s))) (fun sg =>
    l_bind (l_swiss_single u (st_url su)) (fun grid_u =>
    l_bind (l_swiss_single u (st_url s_v)) (fun grid_v =>
    l_bind (l_swiss_single u (st_url sg)) (fun grid_gusts =>
      l_of (wind_new grid_u grid_v (Some grid_gusts)))))))).
  (** icon_ch_cloud_precip_reader.rs:13-31 *)
  Definition l_swiss_cloud_precip (clct prec : list fc_step) (u : ugrid) (s : fc_step) : logged cloud_precip_layer :=
    l_bind (l_of (unwrap (step_by_nr clct (st_nr s)))) (fun clct_step =>
    l_bind (l_of (usub chk 64 (st_nr s) 1)) (fun before =>
    l_bind (l_of (unwrap (step_by_nr prec before))) (fun prec0_step =>
    l_bind (l_of (unwrap (step_by_nr prec (st_nr s)))) (fun prec1_step =>
    l_bind (l_swiss_clct u (st_url clct_step)) (fun clct_grid =>
    l_bind (l_swiss_single u (st_url prec0_step)) (fun prec0 =>
    l_bind (l_swiss_single u (st_url prec1_step)) (fun prec1 =>
      l_of (cloud_precip_new clct_grid prec0 prec1)))))))).
  (** icon_ch_ww_reader.rs:13-31 *)
  Definition l_swiss_weather (clct ceiling : list fc_step) (u : ugrid) (s : fc_step) : logged weather_layer :=
    l_bind (l_of (unwrap (step_by_nr clct (st_nr s)))) (fun clct_step =>
    l_bind (l_of (unwrap (step_by_nr ceiling (st_nr s)))) (fun ceiling_step =>
    l_bind (l_swiss_clct u (st_url clct_step)) (fun clct_grid =>
    l_bind (l_swiss_single u (st_url ceiling_step)) (fun ceiling_grid =>
      l_of (weather_new clct_grid ceiling_grid None))))).
  (** icon_ch1_forecast_renderer.rs:107-112 *)
  Definition l_swiss_cloud_precip_weather (clct prec ceiling : list fc_step) (u : ugrid) (s : fc_step) : logged (cloud_precip_layer * weather_layer) :=
    l_bind (l_swiss_cloud_precip clct prec u s) (fun cp => l_bind (l_swiss_weather clct ceiling u s) (fun we => l_of (Ok (cp, we)))).
  (** icon_ch_hhl_reader.rs:17-40, icon_ch_clc_reader.rs:35-58, icon_ch_u_reader.rs:17-43, icon_ch_v_reader.rs:17-43 *)
  Definition l_swiss_multi (missing : Z) (transform : f32 -> Z) (u : ugrid) (url : string) : logged (list bgrid) :=
    l_multi chk powi (sv_fetch sv) url missing transform u (Some SWISS_LEVELS).
  (** icon_ch_clc_reader.rs:19-32 *)
  Definition l_swiss_vertical_cloud (clc : list fc_step) (u : ugrid) (hhl : list bgrid) (s : fc_step) : logged vertical_cloud_layer :=
    l_bind (l_of (unwrap (step_by_nr clc (st_nr s)))) (fun clc_step =>
    l_bind (l_swiss_multi CLC_MISSING clc_transform u (st_url clc_step)) (fun clc_grids => l_of (vertical_cloud_new hhl clc_grids))).
  (** icon_ch_vertical_wind_reader.rs:15-33 *)
  Definition l_swiss_vertical_wind (us vs : list fc_step) (u : ugrid) (hhl : list bgrid) (s : fc_step) : logged vertical_wind_layer :=
    l_bind (l_of (unwrap (step_by_nr us (st_nr s)))) (fun u_step =>
    l_bind (l_of (unwrap (step_by_nr vs (st_nr s)))) (fun v_step =>
    l_bind (l_swiss_multi U_V_MISSING u_v_transform u (st_url u_step)) (fun u_grids =>
    l_bind (l_swiss_multi U_V_MISSING u_v_transform u (st_url v_step)) (fun v_grids => l_of (vertical_wind_new hhl u_grids v_grids))))).

  Variables (m : libm) (faulty : bool) (steps : list Z).
  (** icon_ch1_forecast_renderer.rs:98-117 *)
  Definition l_render_cloud_precip (u : ugrid) (t : datetime) : prog event :=
    p_let (swiss_run t) (fun run =>
    l_call (l_swiss_steps SClct t true) (fun clct =>
    l_call (l_swiss_steps STotPrec t false) (fun prec =>
    l_call (l_swiss_steps SCeiling t false) (fun ceiling =>
      l_steps steps clct (l_swiss_cloud_precip_weather clct prec ceiling u) (cloud_precip_body chk m faulty run))))).
  (** 120-136 *)
  Definition l_render_wind (u : ugrid) (t : datetime) : prog event :=
    p_let (swiss_run t) (fun run =>
    l_call (l_swiss_steps SU10m t false) (fun us =>
    l_call (l_swiss_steps SV10m t false) (fun vs =>
    l_call (l_swiss_steps SVmax10m t false) (fun gs =>
      l_steps steps us (l_swiss_wind us vs gs u) (wind_body chk m faulty run))))).
  (** 139-153 *)
  Definition l_render_temp (u : ugrid) (t : datetime) : prog event :=
    p_let (swiss_run t) (fun run =>
    l_call (l_swiss_steps ST2m t false) (fun t2m => l_steps steps t2m (l_swiss_temp t2m u) (temp_body chk m faulty run))).
  (** 156-176 *)
  Definition l_render_vertical_cloud (u : ugrid) (t : datetime) (hhl : list bgrid) : prog event :=
    p_let (swiss_run t) (fun run =>
    l_call (l_swiss_steps SClc t false) (fun clc => l_steps steps clc (l_swiss_vertical_cloud clc u hhl) (vertical_cloud_body faulty run))).
  (** 179-200 *)
  Definition l_render_vertical_wind (u : ugrid) (t : datetime) (hhl : list bgrid) : prog event :=
    p_let (swiss_run t) (fun run =>
    l_call (l_swiss_steps SU t false) (fun us =>
    l_call (l_swiss_steps SV t false) (fun vs => l_steps steps us (l_swiss_vertical_wind us vs u hhl) (vertical_wind_body faulty run)))).
  (** 38-95 *)
  Definition l_swiss_render (variables : list string) : prog event :=
    l_call (l_ask AskAssets (sv_assets sv)) (fun assets =>
    p_let (expect (find_asset HOR_CONSTS_ID assets)) (fun hor =>
    l_call (l_hor_consts (as_href hor)) (fun u =>
    p_let (expect (find_asset VERT_CONSTS_ID assets)) (fun vert =>
    l_call l_latest_ref (fun t =>
      l_selected variables (l_render_cloud_precip u t) (l_render_wind u t) (l_render_temp u t)
        (l_swiss_multi HHL_MISSING hhl_transform u (as_href vert)) (l_render_vertical_cloud u t) (l_render_vertical_wind u t)))))).
End Swiss.

(** ** Program: main.rs:27-58, as CliModel.main *)

Definition l_reporting (w : world) (name : string) (p : prog event) : list event -> list string -> Z -> Prop := fun tr printed code =>
  exists r, p tr r /\
    match r with
    | Ok tt => printed = [] /\ code = 0
    | Err e => printed = [("error while rendering " ++ name ++ " forecast: " ++ wo_text w e)%string] /\ code = 0
    | Panic => printed = [] /\ code = 101
    end.
Definition l_main (w : world) (a : cli_args) : list event -> list string -> Z -> Prop :=
  let dwd model := l_dwd_render (wo_chk w) (wo_powi w) (wo_fetch w) (wo_libm w) (wo_faulty w) (wo_heads w) (wo_today w) (wo_today' w)
    model (ar_variables a) (ar_steps a) in
  if String.eqb (ar_model a) "icon-ch1" then
    l_reporting w "icon-ch1" (l_swiss_render (wo_chk w) (wo_powi w) (wo_rfc3339 w) (wo_service w) (wo_libm w) (wo_faulty w) (ar_steps a) (ar_variables a))
  else if String.eqb (ar_model a) "icon-d2" then l_reporting w "icon-d2" (dwd IconD2)
  else if String.eqb (ar_model a) "icon-eu" then l_reporting w "icon-eu" (dwd IconEu)
  else fun tr printed code => tr = [] /\ printed = [("unknown model: " ++ ar_model a)%string] /\ code = 0.
