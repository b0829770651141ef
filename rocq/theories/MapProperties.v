(** The properties C64 and C65, about what the published map shows and what the published data files hold. *)
From Coq Require Import Ascii String ZArith Reals List Bool Lia Lra.
From Flocq Require Import Core.Core.
From Verif Require Import Base F32 F32Facts GeoModel GeoSpec GeoProofs ImagingModel ImagingSpec Par TileModel TileSpec TileProofs MercatorProofs LibmProofs
  ChartModel ChartSpec MetobinModel MetobinSpec ForecastModel ForecastSpec ForecastProofs ForecastProperties MapSpec MapProofs.
Import ListNotations.
Open Scope Z_scope.

(** C64.  After a successful rendering, under every schedule, the tile z/x/y of a selected step is in its file, and each of its
    256 x 256 pixels has the legend's colour for the temperature in the grid cell closest to the place that the Web-Mercator
    map has there; it is transparent if there is no temperature. *)
Theorem C64_temperature : forall chk m, libm_ok m -> libm_accurate m -> forall run steps filter read tr s l zoom x y,
  selected run steps filter read s l -> tile_number run zoom x y ->
  temp_render chk m false run steps filter read tr (Ok tt) -> regular l -> covers chk m (extent_of l) zoom x y ->
  exists d, (forall before, file_after (file_path run (st_nr s) (TileFile Temp2m zoom x y)) before tr = Some (Png d)) /\ d_w d = 256 /\ d_h d = 256 /\
    forall j i, inside 256 256 j i -> exists p o c, depicts zoom x y j i p /\ value_near l p o /\ pixel d j i = Some c /\ temperature_colour o c.
Proof. exact c64_temperature_proof. Qed.
Print Assumptions C64_temperature.
(** C64.  The same for the wind: the colour is that of the length of the vector of the two components. *)
Theorem C64_wind : forall chk m, libm_ok m -> libm_accurate m -> forall run steps filter read tr s l zoom x y,
  selected run steps filter read s l -> tile_number run zoom x y ->
  wind_render chk m false run steps filter read tr (Ok tt) -> regular (wl_zonal l) -> regular (wl_meridional l) -> covers chk m (extent_of (wl_zonal l)) zoom x y ->
  exists d, (forall before, file_after (file_path run (st_nr s) (TileFile Wind10m zoom x y)) before tr = Some (Png d)) /\ d_w d = 256 /\ d_h d = 256 /\
    forall j i, inside 256 256 j i -> exists p e n c, depicts zoom x y j i p /\ value_near (wl_zonal l) p e /\ value_near (wl_meridional l) p n /\
      pixel d j i = Some c /\ wind_colour e n c.
Proof. exact c64_wind_proof. Qed.
Print Assumptions C64_wind.
(** C64.  For clouds and precipitation the values are interpolated between cells (see MapSpec.interpolated), and the colour is that of the
    precipitation of the last step over that of the clouds. *)
Theorem C64_rain : forall chk m, libm_ok m -> libm_accurate m -> forall run steps filter read tr s l we zoom x y,
  selected run steps filter read s (l, we) -> tile_number run zoom x y ->
  cloud_precip_render chk m false run steps filter read tr (Ok tt) -> regular (cp_cloud l) -> regular (cp_precip0 l) -> regular (cp_precip1 l) ->
  covers chk m (extent_of (cp_cloud l)) zoom x y ->
  exists d, (forall before, file_after (file_path run (st_nr s) (TileFile CloudPrecip zoom x y)) before tr = Some (Png d)) /\ d_w d = 256 /\ d_h d = 256 /\
    forall j i, inside 256 256 j i -> exists p cover before now c, depicts zoom x y j i p /\
      value_between (cp_cloud l) p cover /\ value_between (cp_precip0 l) p before /\ value_between (cp_precip1 l) p now /\
      pixel d j i = Some c /\ rain_colour cover before now c.
Proof. exact c64_rain_proof. Qed.
Print Assumptions C64_rain.
(** C64.  The map has no holes: a tile with a place of the extent well within it is among the tiles rendered. *)
Theorem C64_coverage : forall chk m e zoom x y p, libm_accurate m -> 0 <= zoom <= 18 -> 0 <= x < 2 ^ zoom -> 0 <= y ->
  on_map e -> fin_coord p -> in_extent e p -> well_within zoom x y p -> covers chk m e zoom x y.
Proof. exact c64_coverage_proof. Qed.
Print Assumptions C64_coverage.
(** C64.  Every extent on the map has tiles with small numbers, so that the hypothesis of the theorems C46 is met. *)
Theorem C64_addressable : forall chk m run e, libm_accurate m -> on_map e -> tiles_addressable chk m run e.
Proof. exact c64_addressable_proof. Qed.
Print Assumptions C64_addressable.

(** A map of the temperatures between 40 and 50 degrees north, 5 and 15 east; -1 is missing. *)
Definition alps : extent :=
  {| min_coord := {| lat := f32_of_Z 40; lon := f32_of_Z 5 |}; max_coord := {| lat := f32_of_Z 50; lon := f32_of_Z 15 |} |}.
Definition alpine : temp_layer := value_grid_new (map f32_of_Z [250; 260; 270; -1; 290; 300]) (f32_of_Z (-1)) 2 3 alps.
Definition alpine_read (s : fc_step) (o : outcome temp_layer) : Prop := o = Ok alpine.
Definition bern : lat_lon := {| lat := f32_of_Z 45; lon := f32_of_Z 8 |}.
Definition step7 : fc_step := {| st_nr := 7; st_url := EmptyString |}.
Lemma alps_values : on_map alps /\ grid_ok 2 3 alps /\ fin_coord bern /\ in_extent alps bern /\ well_within 1 1 0 bern.
Proof.
  destruct (fin_Z 5 ltac:(lia)) as [F1 E1]. destruct (fin_Z 15 ltac:(lia)) as [F2 E2]. destruct (fin_Z 40 ltac:(lia)) as [F3 E3]. destruct (fin_Z 50 ltac:(lia)) as [F4 E4].
  destruct (fin_Z 45 ltac:(lia)) as [F5 E5]. destruct (fin_Z 8 ltac:(lia)) as [F6 E6]. pose proof row_45 as R.
  assert (P : (bpow radix2 (-100) <= 1)%R) by (change 1%R with (bpow radix2 0); apply bpow_le; lia).
  assert (10 <= bpow radix2 100)%R by (apply Rle_trans with (bpow radix2 4); [cbn; lra|apply bpow_le; lia]).
  unfold on_map, fin_extent, grid_ok, axis_ok, fin_coord, in_extent, well_within, column_lon, alps, bern. cbn [min_coord max_coord lat lon].
  rewrite E1, E2, E3, E4, E5, E6. change (IZR (2 ^ 1)) with 2%R. repeat split; try (apply F1 || apply F2 || apply F3 || apply F4 || apply F5 || apply F6); try lia; lra.
Qed.
(** The pixels of the tile 1/1/0 of step 7 are as C64 says. *)
Example C64_sample : exists tr, temp_render true ideal false sample_run (forecast_steps IconD2) [7] alpine_read tr (Ok tt) /\
  exists d, (forall before, file_after "./output/icon-d2/2024022903/007/temp/1/1/0.png" before tr = Some (Png d)) /\
    forall j i, inside 256 256 j i -> exists p o c, depicts 1 1 0 j i p /\ value_near alpine p o /\ pixel d j i = Some c /\ temperature_colour o c.
Proof.
  destruct alps_values as (M & G & Fb & Ib & Wb). destruct sample_steps as [Nn Nd].
  assert (K : In (temp_kind true ideal) (kinds true ideal)) by (right; right; left; reflexivity).
  destruct (C46_succeeds true ideal (temp_kind true ideal) K sample_run (forecast_steps IconD2) [7] alpine_read sample_run_valid Nn) as [(tr & r & R) A].
  - intros s _. exists (Ok alpine). reflexivity.
  - intros s o _ _ ->. exists alpine. split; [reflexivity|].
    apply (C46_temp_data true ideal sample_run alpine 2 3); [apply C64_addressable; [exact ideal_accurate|exact M]|reflexivity|lia|lia|vm_compute; discriminate].
  - pose proof (A tr r R) as ->. exists tr. split; [exact R|].
    destruct (C64_temperature true ideal ideal_ok ideal_accurate sample_run (forecast_steps IconD2) [7] alpine_read tr step7 alpine 1 1 0) as (d & F & _ & _ & P).
    + split; [exact sample_run_valid|]. split; [exact Nn|]. split; [exact Nd|]. split; [intros s l l' E E'; unfold alpine_read in *; congruence|].
      split; [vm_compute; intuition|]. split; [right; left; reflexivity|reflexivity].
    + unfold tile_number. cbn. lia.
    + exact R.
    + eexists _, _, 2, 3, alps. split; [reflexivity|]. split; [exact G|]. split; [reflexivity|]. repeat constructor; apply f32_of_Z_valid.
    + apply (C64_coverage true ideal alps 1 1 0 bern ideal_accurate); try lia; assumption.
    + exists d. split; [exact F|exact P].
Qed.

(** ** C65: data files *)

(** C65.  After a successful rendering, under every schedule, the meteobin file of a selected step has one record for each cell of
    the grid, row by row, with the codes of the values of that cell. *)
Theorem C65_temperature : forall chk m run steps filter read tr s l,
  selected run steps filter read s l -> temp_render chk m false run steps filter read tr (Ok tt) -> regular l ->
  exists data, (forall before, file_after (file_path run (st_nr s) (BinFile BinTemp)) before tr = Some (Data data)) /\
    laid_out 1 (fst (dims l)) (snd (dims l)) data (fun x y rec => exists o b, cell_value l x y o /\ rec = [b] /\ temperature_code o b).
Proof. exact c65_temperature_proof. Qed.
Print Assumptions C65_temperature.
Theorem C65_rain : forall chk m run steps filter read tr s l we,
  selected run steps filter read s (l, we) -> cloud_precip_render chk m false run steps filter read tr (Ok tt) ->
  regular (cp_cloud l) -> regular (cp_precip0 l) -> regular (cp_precip1 l) ->
  exists data, (forall before, file_after (file_path run (st_nr s) (BinFile BinPrecip)) before tr = Some (Data data)) /\
    laid_out 1 (fst (dims (cp_cloud l))) (snd (dims (cp_cloud l))) data (fun x y rec => exists before now b,
      cell_value (cp_precip0 l) x y before /\ cell_value (cp_precip1 l) x y now /\ rec = [b] /\ rain_code before now b).
Proof. exact c65_rain_proof. Qed.
Print Assumptions C65_rain.
Theorem C65_wind : forall chk m run steps filter read tr s l,
  selected run steps filter read s l -> wind_render chk m false run steps filter read tr (Ok tt) ->
  regular (wl_zonal l) -> regular (wl_meridional l) -> (forall g, wl_gusts l = Some g -> regular g) ->
  exists data, (forall before, file_after (file_path run (st_nr s) (BinFile BinWind)) before tr = Some (Data data)) /\
    laid_out 3 (fst (dims (wl_zonal l))) (snd (dims (wl_zonal l))) data (fun x y rec => exists e n gust,
      cell_value (wl_zonal l) x y e /\ cell_value (wl_meridional l) x y n /\ cell_value_opt (wl_gusts l) x y gust /\ wind_code e n gust rec).
Proof. exact c65_wind_proof. Qed.
Print Assumptions C65_wind.
Theorem C65_weather : forall chk m run steps filter read tr s cp l,
  selected run steps filter read s (cp, l) -> cloud_precip_render chk m false run steps filter read tr (Ok tt) ->
  regular (we_clct l) -> regular (we_ceiling l) -> (forall g, we_ww l = Some g -> regular g) ->
  exists data, (forall before, file_after (file_path run (st_nr s) (BinFile BinWeather)) before tr = Some (Data data)) /\
    laid_out 2 (fst (dims (we_clct l))) (snd (dims (we_clct l))) data (fun x y rec => exists ww cover ceiling,
      cell_value_opt (we_ww l) x y ww /\ cell_value (we_clct l) x y cover /\ cell_value (we_ceiling l) x y ceiling /\ weather_code ww cover ceiling rec).
Proof. exact c65_weather_proof. Qed.
Print Assumptions C65_weather.
(** C65.  The files of vertical profiles have the bytes of all levels in the record of a cell; 255 stands for missing. *)
Theorem C65_vertical_cloud : forall (m : libm) run steps filter read tr s hhl clc l g w h n,
  selected run steps filter read s l -> vertical_cloud_render false run steps filter read tr (Ok tt) ->
  vertical_cloud_new hhl clc = Ok l -> hd_error clc = Some g -> dims g = (w, h) -> 0 <= w -> 0 <= h ->
  n = Z.of_nat (length clc) -> Forall complete hhl -> Forall complete clc ->
  exists data, (forall before, file_after (file_path run (st_nr s) (BinFile BinVerticalClouds)) before tr = Some (Data data)) /\
    laid_out (2 * n) w h data (fun x y rec => forall level, 0 <= level < n -> exists a b,
      level_cell hhl level x y a /\ level_cell clc level x y b /\ slice rec (2 * level) 2 = [file_byte a; file_byte b]).
Proof. exact (c65_vertical_cloud_proof true). Qed.
Print Assumptions C65_vertical_cloud.
Theorem C65_vertical_wind : forall (m : libm) run steps filter read tr s hhl u v l g w h n,
  selected run steps filter read s l -> vertical_wind_render false run steps filter read tr (Ok tt) ->
  vertical_wind_new hhl u v = Ok l -> hd_error u = Some g -> dims g = (w, h) -> 0 <= w -> 0 <= h ->
  n = Z.of_nat (length u) -> Forall complete hhl -> Forall complete u -> Forall complete v ->
  exists data, (forall before, file_after (file_path run (st_nr s) (BinFile BinVerticalWind)) before tr = Some (Data data)) /\
    laid_out (3 * n) w h data (fun x y rec => forall level, 0 <= level < n -> exists a b c,
      level_cell hhl level x y a /\ level_cell u level x y b /\ level_cell v level x y c /\
      slice rec (3 * level) 3 = file_byte a :: match b, c with Some b', Some c' => [b'; c'] | _, _ => [255; 255] end).
Proof. exact (c65_vertical_wind_proof true). Qed.
Print Assumptions C65_vertical_wind.
(** The rendering of C64_sample also writes the file of the temperatures. *)
Example C65_sample : exists tr, temp_render true ideal false sample_run (forecast_steps IconD2) [7] alpine_read tr (Ok tt) /\
  selected sample_run (forecast_steps IconD2) [7] alpine_read step7 alpine /\ regular alpine /\
  forall before, file_after "./output/icon-d2/2024022903/007/temp/TEMP.meteobin" before tr = Some (Data [82; 102; 122; 255; 162; 182]).
Proof.
  destruct C64_sample as (tr & R & _). exists tr. split; [exact R|]. destruct alps_values as (_ & G & _). destruct sample_steps as [Nn Nd].
  assert (S : selected sample_run (forecast_steps IconD2) [7] alpine_read step7 alpine).
  { split; [exact sample_run_valid|]. split; [exact Nn|]. split; [exact Nd|]. split; [intros s l l' E E'; unfold alpine_read in *; congruence|].
    split; [vm_compute; intuition|]. split; [right; left; reflexivity|reflexivity]. }
  split; [exact S|]. split; [eexists _, _, 2, 3, alps; split; [reflexivity|]; split; [exact G|]; split; [reflexivity|]; repeat constructor; apply f32_of_Z_valid|].
  destruct (published_bin true ideal (temp_kind true ideal) sample_run (st_nr step7) tr alpine BinTemp (temp_bin alpine)
    (selected_rendered true ideal (temp_kind true ideal) ltac:(right; right; left; reflexivity) _ _ _ _ tr _ _ S R) ltac:(left; reflexivity)) as (data & E & F).
  assert (Q : temp_bin alpine = Ok [82; 102; 122; 255; 162; 182]) by (vm_compute; reflexivity). rewrite Q in E. injection E as <-. exact F.
Qed.
