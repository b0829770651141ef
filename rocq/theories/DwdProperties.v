(** The properties C49, C50, C54 and C59, about the forecasts of the German weather service. *)
From Coq Require Import Ascii String ZArith List Bool Lia.
From Verif Require Import Base F32 Grib2Model Grib2Spec Grib2Samples Grib2FloatProofs GeoModel ImagingModel Par TileModel TileProperties ChartModel ChartSpec
  MetobinModel Text ForecastModel ForecastSpec ForecastProofs FetchModel FetchSpec FetchProofs DwdModel DwdSpec DwdProofs.
Import ListNotations.
Open Scope Z_scope.

(** ** C49: URLs *)

(** C49.  Different files (of any run, step, level or variable) have different URLs. *)
Theorem C49_injective : forall run run' f f' url, valid_run run -> valid_run run' -> dwd_file_ok f -> dwd_file_ok f' ->
    dwd_url run f = Ok url -> dwd_url run' f' = Ok url -> run = run' /\ f = f'.
Proof. exact c49_injective_proof. Qed.
Print Assumptions C49_injective.
(** C49.  Every file of the models icon-d2 and icon-eu has a URL; for other models the program panics. *)
Theorem C49_total : forall run f,
    (dwd_model (run_model run) -> exists url, dwd_url run f = Ok url) /\ (~ dwd_model (run_model run) -> dwd_url run f = Panic).
Proof. exact c49_total_proof. Qed.
Print Assumptions C49_total.
(** C49.  The URL is that of the service for this model, run, variable, step and level. *)
Theorem C49_layout : forall run f url, valid_run run -> dwd_file_ok f -> (dwd_url run f = Ok url <-> url_layout run f url).
Proof. exact c49_layout_proof. Qed.
Print Assumptions C49_layout.

Definition day_of (y m d : Z) : date := {| year := y; month := m; day := d |}.
Example C49_sample :
  dwd_url (run_of IconD2 (day_of 2025 11 20) "06") (SingleFile T2m 13) =
    Ok "https://opendata.dwd.de/weather/nwp/icon-d2/grib/06/t_2m/icon-d2_germany_regular-lat-lon_single-level_2025112006_013_2d_t_2m.grib2.bz2"%string /\
  dwd_url (run_of IconEu (day_of 2025 11 20) "06") (LevelFile UWind 13 7) =
    Ok "https://opendata.dwd.de/weather/nwp/icon-eu/grib/06/u/icon-eu_europe_regular-lat-lon_model-level_2025112006_013_7_U.grib2.bz2"%string /\
  dwd_url (run_of IconD2 (day_of 2025 11 20) "06") (HeightFile 25) =
    Ok "https://opendata.dwd.de/weather/nwp/icon-d2/grib/06/hhl/icon-d2_germany_regular-lat-lon_time-invariant_2025112006_000_25_hhl.grib2.bz2"%string /\
  valid_run (run_of IconD2 (day_of 2025 11 20) "06").
Proof. split; [|split; [|split]]; try (vm_compute; reflexivity). split; [|reflexivity]. unfold valid_date. cbn. lia. Qed.

(** ** C50: search for the latest run *)

(** C50.  The search never fails for these models.  It gives a run of today whose files were all found, and of each
    later run of today a file was not found; or, if of each run of today a file was not found, yesterday's last run (of icon-d2). *)
Theorem C50_latest : forall head m today today', dwd_model m -> exists run, find_latest_run head m today today' = Ok run /\
  ((exists name later, run = run_of m today name /\ run_before name later /\ complete_run head run /\
      forall name', In name' later -> incomplete_run head (run_of m today name')) \/
   (run = run_of IconD2 (prev_day today') "21" /\ forall name later, run_before name later -> incomplete_run head (run_of m today name))).
Proof. exact c50_latest_proof. Qed.
Print Assumptions C50_latest.
(** C50.  If the availability of the files does not change meanwhile, a run of today is given exactly if it is
    complete and no later one is (or nothing is complete and it happens to be the run that is then given). *)
Theorem C50_steady : forall avail m today today' name later, dwd_model m -> run_before name later ->
  let found d := forall f u, probed m f -> dwd_url (run_of m today d) f = Ok u -> avail u = Some 200 in
  find_latest_run (fun _ => avail) m today today' = Ok (run_of m today name) <->
  (found name /\ forall name', In name' later -> ~ found name') \/
  ((forall name' later', run_before name' later' -> ~ found name') /\ run_of IconD2 (prev_day today') "21" = run_of m today name).
Proof. exact c50_steady_proof. Qed.
Print Assumptions C50_steady.
(** C50.  For other models it panics. *)
Theorem C50_unsupported : forall head m today today', ~ dwd_model m -> find_latest_run head m today today' = Panic.
Proof. exact c50_unsupported_proof. Qed.
Print Assumptions C50_unsupported.
(** C50.  Yesterday is a valid date, one day before today. *)
Theorem C50_yesterday : forall d, valid_date d -> (year d, month d, day d) <> (0, 1, 1) ->
  valid_date (prev_day d) /\ day_number (prev_day d) = day_number d - 1.
Proof. exact c50_yesterday_proof. Qed.
Print Assumptions C50_yesterday.

(** The server has the files of the runs 03 and 06. *)
Definition sample_heads (n : nat) (url : string) : option Z :=
  if String.prefix "https://opendata.dwd.de/weather/nwp/icon-d2/grib/03/" url || String.prefix "https://opendata.dwd.de/weather/nwp/icon-d2/grib/06/" url
  then Some 200 else Some 404.
Definition today : date := day_of 2024 3 1.
Example C50_sample :
  find_latest_run sample_heads IconD2 today today = Ok (run_of IconD2 today "06") /\ dwd_model IconD2 /\ run_before "06" ["09"; "12"; "15"; "18"; "21"]%string /\
  prev_day today = day_of 2024 2 29 /\ valid_date today /\ valid_date (prev_day today).
Proof.
  split; [vm_compute; reflexivity|]. split; [now left|]. split; [exists ["00"; "03"]%string; reflexivity|]. split; [reflexivity|]. unfold valid_date. vm_compute. intuition discriminate.
Qed.
(** Finding: without a complete run of icon-eu, one of icon-d2 is given. *)
Example C50_fallback_model :
  find_latest_run (fun _ _ => None) IconEu today today = Ok (run_of IconD2 (day_of 2024 2 29) "21").
Proof. vm_compute. reflexivity. Qed.

(** ** C54: selection of layers *)

(** C54.  Exactly the named layers are rendered, in the fixed order, each once, until one fails; the height grids
    are read directly before the vertical layers, and only if one of those is named. *)
Theorem C54_dwd_order : forall chk powi fetch m faulty head today today' model vars steps tr r plan,
  dwd_model model -> valid_date today -> valid_date (prev_day today') -> plan_of vars plan ->
  dwd_render_latest chk powi fetch m faulty head today today' model vars steps tr r ->
  exists run o, find_latest_run head model today today' = Ok run /\
    let levels := vertical_level_range (run_model run) in
    (In EHeights tr -> read_hhl chk powi fetch run levels o) /\
    for_seq plan (perform (dwd_cloud_precip chk powi fetch m faulty steps run) (dwd_wind chk powi fetch m faulty steps run)
      (dwd_temp chk powi fetch m faulty steps run) o (dwd_vertical_cloud chk powi fetch faulty steps levels run)
      (dwd_vertical_wind chk powi fetch faulty steps levels run)) tr r.
Proof. exact c54_dwd_order_proof. Qed.
Print Assumptions C54_dwd_order.
(** C54.  The height grids are read at most once. *)
Theorem C54_dwd_heights : forall chk powi fetch m faulty head today today' model vars steps tr r,
  dwd_model model -> valid_date today -> valid_date (prev_day today') ->
  dwd_render_latest chk powi fetch m faulty head today today' model vars steps tr r ->
  (heights_read tr <= 1)%nat /\ (~ chosen vars Heights -> heights_read tr = 0%nat) /\ (r = Ok tt -> chosen vars Heights -> heights_read tr = 1%nat).
Proof. exact c54_dwd_heights_proof. Qed.
Print Assumptions C54_dwd_heights.
(** C54.  However it ends, only files of named layers and selected steps are written. *)
Theorem C54_dwd_paths : forall chk powi fetch m faulty head today today' model vars steps tr r e p,
  dwd_model model -> valid_date today -> valid_date (prev_day today') ->
  dwd_render_latest chk powi fetch m faulty head today today' model vars steps tr r -> In e tr -> effect_path e = Some p ->
  exists run t n rest, find_latest_run head model today today' = Ok run /\ named vars t /\ In (Layer t) order /\ wanted_nr run steps n /\
    p = (output_path run n t ++ rest)%string.
Proof. exact c54_dwd_paths_proof. Qed.
Print Assumptions C54_dwd_paths.
(** C54.  Order, repetitions and unknown names in the filter make no difference. *)
Theorem C54_dwd_same : forall chk powi fetch m faulty head today today' model vars vars' steps tr r,
  same_layers vars vars' -> dwd_render_latest chk powi fetch m faulty head today today' model vars steps tr r ->
  dwd_render_latest chk powi fetch m faulty head today today' model vars' steps tr r.
Proof. exact c54_dwd_same_proof. Qed.
Print Assumptions C54_dwd_same.

Example C54_dwd_sample : plan_of ["vertical_wind"; "nothing"; "temp_2m"; "temp_2m"]%string [Layer Temp2m; Heights; Layer VerticalWind].
Proof.
  exists (fun a => match a with Layer Temp2m => true | Heights => true | Layer VerticalWind => true | _ => false end). split; [reflexivity|].
  intros a J. assert (C : forall t, named ["vertical_wind"; "nothing"; "temp_2m"; "temp_2m"]%string t <-> t = Temp2m \/ t = VerticalWind).
  { intro t. unfold named. split.
    - intros [H|H]; [discriminate|]. cbn in H. repeat (destruct H as [H|H]; [destruct t; try discriminate H; auto|]). contradiction.
    - intros [->| ->]; right; cbn; auto. }
  destruct a as [t|]; cbn [chosen]; rewrite !C; [|intuition].
  cbn in J. repeat (destruct J as [J|J]; [first [injection J as <-|discriminate J]; intuition discriminate|]). contradiction.
Qed.
(** Finding: the filter "weather" names no layer that is rendered; the program succeeds and writes nothing. *)
Example C54_weather_alone : forall chk powi fetch m faulty steps tr r,
  dwd_render_latest chk powi fetch m faulty sample_heads today today IconD2 ["weather"]%string steps tr r <-> tr = [] /\ r = Ok tt.
Proof.
  intros chk powi fetch m faulty steps tr r. unfold dwd_render_latest. rewrite (proj1 C50_sample). cbn [p_let].
  change (render_selected ["weather"%string]) with (fun (cp wi te : prog effect) (hh : result (list bgrid)) (vc vw : list bgrid -> prog effect) =>
    p_then (p_end (Ok tt)) (p_then (p_end (Ok tt)) (p_then (p_end (Ok tt)) (p_end (Ok tt) : prog effect)))).
  cbv beta. rewrite !p_then_skip. reflexivity.
Qed.

(** ** C59: from the files of the service to the output *)

(** C59.  After a successful rendering, for every named layer and selected step the map tiles and the meteobin file are
    there, with the content that belongs to the grids in the files of this very run, step and level (for the precipitation:
    of this and the preceding step). *)
Theorem C59_output : forall chk powi fetch m head today today' model vars steps tr,
  dwd_model model -> valid_date today -> valid_date (prev_day today') -> steady fetch ->
  dwd_render_latest chk powi fetch m false head today today' model vars steps tr (Ok tt) ->
  exists run, find_latest_run head model today today' = Ok run /\
  (named vars Temp2m -> forall n, wanted_nr run steps n -> exists temp, float_grid chk powi fetch run T2m n temp /\
     rendered chk m (temp_kind chk m) run n temp tr) /\
  (named vars Wind10m -> forall n, wanted_nr run steps n -> exists u v gusts,
     float_grid chk powi fetch run U10m n u /\ float_grid chk powi fetch run V10m n v /\ float_grid chk powi fetch run Vmax10m n gusts /\
     rendered chk m (wind_kind chk m) run n {| wl_zonal := u; wl_meridional := v; wl_gusts := Some gusts |} tr) /\
  (named vars CloudPrecip -> forall n, wanted_nr run steps n -> exists clct prec0 prec1 ceiling ww,
     float_grid chk powi fetch run ClctMod n clct /\ float_grid chk powi fetch run TotPrec (n - 1) prec0 /\ float_grid chk powi fetch run TotPrec n prec1 /\
     float_grid chk powi fetch run Ceiling n ceiling /\ float_grid chk powi fetch run Ww n ww /\
     rendered chk m (cloud_precip_kind chk m) run n
       ({| cp_cloud := clct; cp_precip0 := prec0; cp_precip1 := prec1 |}, {| we_clct := clct; we_ceiling := ceiling; we_ww := Some ww |}) tr) /\
  (named vars VerticalCloud \/ named vars VerticalWind -> exists hhl, level_grids chk powi fetch run HeightFile HHL_MISSING hhl_transform hhl /\
     (named vars VerticalCloud -> forall n, wanted_nr run steps n -> exists clc,
        level_grids chk powi fetch run (LevelFile Clc n) CLC_MISSING clc_transform clc /\
        rendered chk m vertical_cloud_kind run n {| vc_hhl := hhl; vc_clc := clc |} tr) /\
     (named vars VerticalWind -> forall n, wanted_nr run steps n -> exists u v,
        level_grids chk powi fetch run (LevelFile UWind n) U_V_MISSING u_v_transform u /\
        level_grids chk powi fetch run (LevelFile VWind n) U_V_MISSING u_v_transform v /\
        rendered chk m vertical_wind_kind run n {| vw_hhl := hhl; vw_u := u; vw_v := v |} tr)).
Proof. exact c59_proof. Qed.
Print Assumptions C59_output.
(** C59.  If the service has all the files of the run, with grids of the same shape, no selection of layers and
    steps and no schedule makes the rendering fail. *)
Theorem C59_succeeds : forall chk powi fetch m head today today' model vars steps run w h e,
  dwd_model model -> valid_date today -> valid_date (prev_day today') -> find_latest_run head model today today' = Ok run ->
  good_run chk powi fetch run w h e -> 0 <= w -> 0 <= h -> extent_eqb e e = true -> tiles_addressable chk m run e ->
  (exists tr r, dwd_render_latest chk powi fetch m false head today today' model vars steps tr r) /\
  forall tr r, dwd_render_latest chk powi fetch m false head today today' model vars steps tr r -> r = Ok tt.
Proof. exact c59_succeeds_proof. Qed.
Print Assumptions C59_succeeds.

(** A service that has all files of the run, with the values 0, 1 and 2 and three missing ones. *)
Definition low : wire :=
  {| w_0 := w_0 sample; w_1 := w_1 sample; w_2 := w_2 sample; w_3 := w_3 sample; w_4 := w_4 sample;
     w_5 := {| w5_length := 21; w5_points := 3; w5_tpl := W5_0 0 0 0 16 0 |}; w_6 := w_6 sample;
     w_7 := {| w7_length := 11; w7_data := [0; 1; 2] |} |}.
Definition served (url : string) (o : outcome bytes) : Prop := o = Ok (message_bytes low).
Definition low_doc : document := match read_single_doc true (message_bytes low) with Ok (d, _) => d | _ => message_meaning low end.
Definition low_extent : extent := match dimensions_and_extent low_doc with Ok (_, e) => e | _ => half_world end.
Lemma low_read : read_single_doc true (message_bytes low) = Ok (low_doc, []).
Proof. vm_compute. reflexivity. Qed.
Definition low_grid {T} (missing : T) (transform : f32 -> T) : value_grid T :=
  value_grid_new [transform (f32_of_Z 0); missing; transform (f32_of_Z 1); transform (f32_of_Z 2); missing; missing] missing 3 2 low_extent.
Definition the_run : fc_run := run_of IconD2 today "06".
Lemma good_low {T} (fetch : fetcher) lost f (missing : T) transform (known : T -> Prop) :
  (forall url, answers lost (fetch url) (fun bs => bs = message_bytes low \/ exists e, read_single_doc true bs = Err e /\ lost e)) ->
  regular_create_and_transform powi_rt low_doc missing transform = Ok (low_grid missing transform) -> Forall known (vg_values (low_grid missing transform)) ->
  good_file true powi_rt fetch lost the_run f missing transform 3 2 low_extent known.
Proof.
  intros S E K. destruct (proj1 (C49_total the_run f) (or_introl eq_refl)) as (url & U). exists url. split; [exact U|]. destruct (S url) as [T0 H]. split; [exact T0|].
  intros o Ho. destruct (H o Ho) as [(bs & -> & [->|L])|L]; [| |now right]; left; eexists; (split; [reflexivity|]); [|now right].
  left. exists (low_doc, []). split; [exact low_read|]. exists (low_grid missing transform). split; [exact E|]. split; [reflexivity|]. split; [reflexivity|]. split; [vm_compute; discriminate|exact K].
Qed.
Lemma low_values : calculate_data_points powi_rt low_doc (f32_of_Z (-1)) (fun x => x) =
  Ok [f32_of_Z 0; f32_of_Z (-1); f32_of_Z 1; f32_of_Z 2; f32_of_Z (-1); f32_of_Z (-1)].
Proof. vm_compute. reflexivity. Qed.
Lemma true_all {T} (l : list T) : Forall (fun _ => True) l.
Proof. induction l; constructor; auto. Qed.
Lemma low_files (fetch : fetcher) lost : (forall url, answers lost (fetch url) (fun bs => bs = message_bytes low \/ exists e, read_single_doc true bs = Err e /\ lost e)) ->
  run_files true powi_rt fetch lost the_run 3 2 low_extent.
Proof.
  intro S. split; [|split].
  - intros v n _. apply good_low; [exact S|vm_compute; reflexivity|]. destruct v; try apply true_all.
    repeat (constructor; [first [left; reflexivity|right; eexists; vm_compute; reflexivity]|]). constructor.
  - intros v n level _ _. apply good_low; [exact S|destruct v; vm_compute; reflexivity|apply true_all].
  - intros level _. apply good_low; [exact S|vm_compute; reflexivity|apply true_all].
Qed.
Lemma low_good_run : good_run true powi_rt served the_run 3 2 low_extent.
Proof. apply low_files. intro url. split; [exists (Ok (message_bytes low)); reflexivity|]. intros o ->. left. eauto. Qed.
Lemma low_addressable : tiles_addressable true flat the_run low_extent.
Proof. apply addressable_check. vm_compute. reflexivity. Qed.
Definition sample_variables : list string := ["vertical_wind"; "temp_2m"; "cloud_precip"]%string.
Example C59_sample : steady served /\
  exists tr, dwd_render_latest true powi_rt served flat false sample_heads today today IconD2 sample_variables [5; 6] tr (Ok tt) /\
    rendered true flat (temp_kind true flat) the_run 5 (low_grid (f32_of_Z (-1)) (fun x => x)) tr.
Proof.
  assert (St : steady served) by (intros url bs bs' H H'; unfold served in *; congruence).
  split; [exact St|]. destruct C50_sample as (F & M & _ & _ & V & V').
  destruct (C59_succeeds true powi_rt served flat sample_heads today today IconD2 sample_variables [5; 6] the_run 3 2 low_extent
    M V V' F low_good_run ltac:(lia) ltac:(lia) ltac:(vm_compute; reflexivity) low_addressable) as [(tr & r & R) A].
  pose proof (A tr r R) as ->. exists tr. split; [exact R|].
  destruct (C59_output true powi_rt served flat sample_heads today today IconD2 sample_variables [5; 6] tr M V V' St R) as (run & F' & T & _).
  rewrite F in F'. injection F' as <-. destruct (T (or_intror (or_intror (or_introl eq_refl))) 5) as (g & (url & bs & d & rest & _ & Hb & Hd & Hg) & Re).
  - split; [cbn; lia|right; now left].
  - unfold served in Hb. injection Hb as ->. rewrite low_read in Hd. injection Hd as <- <-. assert (E : regular_create_and_transform powi_rt low_doc (f32_of_Z (-1)) (fun x => x) =
      Ok (low_grid (f32_of_Z (-1)) (fun x => x))) by (vm_compute; reflexivity). rewrite E in Hg. injection Hg as <-. exact Re.
Qed.
(** Finding: the value -1 (such as a wind component of -1 m/s) of these grids counts as missing. *)
Definition minus_one : wire :=
  {| w_0 := w_0 sample; w_1 := w_1 sample; w_2 := w_2 sample; w_3 := w_3 sample; w_4 := w_4 sample;
     w_5 := {| w5_length := 21; w5_points := 3; w5_tpl := W5_0 3212836864 0 0 16 0 |}; w_6 := w_6 sample;
     w_7 := {| w7_length := 11; w7_data := [0; 1; 2] |} |}.
Example C59_minus_one :
  omap (fun '(d, _) => (calculate_data_points powi_rt d (f32_of_Z 99) (fun x => x), omap (fun g => value_by_xy f32_type g 0 0)
     (regular_create_and_transform powi_rt d (f32_of_Z (-1)) (fun x => x)))) (read_single_doc true (message_bytes minus_one)) =
  Ok (Ok [f32_of_Z (-1); f32_of_Z 99; f32_of_Z 0; f32_of_Z 1; f32_of_Z 99; f32_of_Z 99], Ok (Ok None)).
Proof. vm_compute. reflexivity. Qed.

(** ** C62: errors *)

(** C62.  If files of the run cannot be had or read, the rendering ends with such an error or without one; it does not panic. *)
Theorem C62_dwd : forall lost chk powi fetch m head today today' model vars steps run w h e,
  dwd_model model -> valid_date today -> valid_date (prev_day today') -> find_latest_run head model today today' = Ok run ->
  run_files chk powi fetch lost run w h e -> 0 <= w -> 0 <= h -> extent_eqb e e = true -> tiles_addressable chk m run e ->
  (exists tr r, dwd_render_latest chk powi fetch m false head today today' model vars steps tr r) /\
  forall tr r, dwd_render_latest chk powi fetch m false head today today' model vars steps tr r -> r = Ok tt \/ exists er, r = Err er /\ lost er.
Proof. exact c62_dwd_proof. Qed.
Print Assumptions C62_dwd.

(** A service that gives the file, only its first 100 bytes, or an error. *)
Definition flaky (url : string) (o : outcome bytes) : Prop :=
  o = Ok (message_bytes low) \/ o = Ok (firstn 100 (message_bytes low)) \/ o = Err EIo.
Example C62_dwd_sample : run_files true powi_rt flaky (fun e => e = EIo) the_run 3 2 low_extent /\
  forall tr r, dwd_render_latest true powi_rt flaky flat false sample_heads today today IconD2 [] [] tr r -> r = Ok tt \/ r = Err EIo.
Proof.
  assert (F : run_files true powi_rt flaky (fun e => e = EIo) the_run 3 2 low_extent).
  { apply low_files. intro url. split; [exists (Err EIo); right; now right|]. intros o [->|[->| ->]]; [left; eauto| |right; eauto].
    left. eexists. split; [reflexivity|]. right. exists EIo. split; [vm_compute; reflexivity|reflexivity]. }
  split; [exact F|]. destruct C50_sample as (F' & M & _ & _ & V & V').
  destruct (C62_dwd _ true powi_rt flaky flat sample_heads today today IconD2 [] [] the_run 3 2 low_extent M V V' F' F
    ltac:(lia) ltac:(lia) ltac:(vm_compute; reflexivity) low_addressable) as [_ A].
  intros tr r R. destruct (A tr r R) as [E|(er & E & ->)]; auto.
Qed.
