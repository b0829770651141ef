(** The property C99: values can be read from the colours on the map. *)
From Coq Require Import Ascii String ZArith Reals List Bool Lia Lra.
From Flocq Require Import Core.Core.
From Verif Require Import Base F32 F32Facts GeoModel GeoSpec GeoProofs ImagingModel ImagingSpec Par TileModel TileSpec TileProofs MercatorProofs LibmProofs
  ChartModel ChartSpec ChartProofs ForecastModel ForecastSpec ForecastProofs ForecastProperties FetchSpec MapSpec MapProofs MapProperties LookSpec LookProofs LookProperties
  AgreeProperties LegendSpec LegendProofs.
Import ListNotations.
Open Scope Z_scope.

(** C99.  Whoever finds the colour of a temperature in the legend finds the class of that temperature, unless the colour is white. *)
Theorem C99_temperature : forall k r c, temperature_colour (Some k) c -> class_of temp_legend r c -> c <> WHITE -> agrees temp_legend (fis_nan k) (celsius k) r.
Proof. exact c99_temperature_proof. Qed.
Print Assumptions C99_temperature.
(** C99.  The same for the speed of the wind, for all colours. *)
Theorem C99_wind : forall x r c, shade wind_legend x c -> class_of wind_legend r c -> agrees wind_legend (fis_nan x) (xr x) r.
Proof. exact c99_wind_proof. Qed.
Print Assumptions C99_wind.
(** C99.  The colour of rain over clouds tells both classes: no two of the 80 pairs of classes have compositions that rounding could make equal. *)
Theorem C99_rain : forall cover before now c r s rain cloud, rain_colour cover before now c ->
  class_of rain_legend r rain -> class_of cloud_legend s cloud -> composed rain cloud c ->
  agrees rain_legend (fis_nan (fsub (or_zero now) (or_zero before))) (xr (fsub (or_zero now) (or_zero before))) r /\
  agrees cloud_legend (fis_nan (or_zero cover)) (xr (or_zero cover)) s.
Proof. exact c99_rain_proof. Qed.
Print Assumptions C99_rain.
(** C99.  No temperature and no speed has the colour of a missing value. *)
Theorem C99_missing : forall r, ~ class_of temp_legend r COLOR_TRANSPARENT /\ ~ class_of wind_legend r COLOR_TRANSPARENT.
Proof. exact c99_missing_proof. Qed.
Print Assumptions C99_missing.
(** C99.  On the published map: whatever temperature a reader finds in the legend for the colour at a place inside the extent, a grid point close to that
    place has a temperature of that class; where the map is transparent, a grid point close by has none. *)
Theorem C99_read_temperature : forall chk m, libm_ok m -> libm_accurate m -> forall run steps filter read tr s l zoom x y j i p,
  selected run steps filter read s l -> temp_render chk m false run steps filter read tr (Ok tt) -> regular l -> on_map (extent_of l) ->
  0 <= zoom <= last_zoom (run_model run) -> pixel_of zoom p x y j i -> inside_by zoom (extent_of l) p ->
  exists d c, (forall before, file_after (file_path run (st_nr s) (TileFile Temp2m zoom x y)) before tr = Some (Png d)) /\ pixel d j i = Some c /\
    (c = COLOR_TRANSPARENT -> shown_at (extent_of l) (fst (dims l)) (snd (dims l)) (cell_value l) zoom p None) /\
    forall r, class_of temp_legend r c -> c <> WHITE -> exists k, agrees temp_legend (fis_nan k) (celsius k) r /\
      shown_at (extent_of l) (fst (dims l)) (snd (dims l)) (cell_value l) zoom p (Some k).
Proof. exact c99_read_temperature_proof. Qed.
Print Assumptions C99_read_temperature.
(** C99.  The same for the speed of the wind. *)
Theorem C99_read_wind : forall chk m, libm_ok m -> libm_accurate m -> forall run steps filter read tr s l zoom x y j i p,
  selected run steps filter read s l -> wind_render chk m false run steps filter read tr (Ok tt) -> regular (wl_zonal l) -> regular (wl_meridional l) ->
  on_map (extent_of (wl_zonal l)) -> 0 <= zoom <= last_zoom (run_model run) -> pixel_of zoom p x y j i ->
  inside_by zoom (extent_of (wl_zonal l)) p -> inside_by zoom (extent_of (wl_meridional l)) p ->
  exists d c, (forall before, file_after (file_path run (st_nr s) (TileFile Wind10m zoom x y)) before tr = Some (Png d)) /\ pixel d j i = Some c /\
    forall r, class_of wind_legend r c -> exists u v speed, agrees wind_legend (fis_nan speed) (xr speed) r /\
      (moderate u -> moderate v -> fin speed /\ (0 <= xr speed)%R /\ length_of u v speed) /\
      shown_at (extent_of (wl_zonal l)) (fst (dims (wl_zonal l))) (snd (dims (wl_zonal l))) (cell_value (wl_zonal l)) zoom p (Some u) /\
      shown_at (extent_of (wl_meridional l)) (fst (dims (wl_meridional l))) (snd (dims (wl_meridional l))) (cell_value (wl_meridional l)) zoom p (Some v).
Proof. exact c99_read_wind_proof. Qed.
Print Assumptions C99_read_wind.
(** C99.  The same for rain and clouds. *)
Theorem C99_read_rain : forall chk m, libm_ok m -> libm_accurate m -> forall run steps filter read tr s l we zoom x y j i p,
  selected run steps filter read s (l, we) -> cloud_precip_render chk m false run steps filter read tr (Ok tt) ->
  regular (cp_cloud l) -> regular (cp_precip0 l) -> regular (cp_precip1 l) -> on_map (extent_of (cp_cloud l)) ->
  0 <= zoom <= last_zoom (run_model run) -> pixel_of zoom p x y j i -> inside_by zoom (extent_of (cp_cloud l)) p ->
  exists d c, (forall before, file_after (file_path run (st_nr s) (TileFile CloudPrecip zoom x y)) before tr = Some (Png d)) /\ pixel d j i = Some c /\
    forall r t rain cloud, class_of rain_legend r rain -> class_of cloud_legend t cloud -> composed rain cloud c ->
      exists q cover before now, close_by zoom p q /\ in_extent (extent_of (cp_cloud l)) q /\
        value_between (cp_cloud l) q cover /\ value_between (cp_precip0 l) q before /\ value_between (cp_precip1 l) q now /\
        agrees rain_legend (fis_nan (fsub (or_zero now) (or_zero before))) (xr (fsub (or_zero now) (or_zero before))) r /\
        agrees cloud_legend (fis_nan (or_zero cover)) (xr (or_zero cover)) t.
Proof. exact c99_read_rain_proof. Qed.
Print Assumptions C99_read_rain.
(** Finding: white stands for -9 degrees and for 40 degrees. *)
Example C99_white : exists cold hot, temperature_colour (Some cold) WHITE /\ temperature_colour (Some hot) WHITE /\ (celsius cold < -8)%R /\ (39 < celsius hot)%R.
Proof.
  exists (f32_of_Z 264), (f32_of_Z 314).
  pose proof (temp_shade (f32_of_Z 264) (f32_of_Z_valid _)) as A. pose proof (temp_shade (f32_of_Z 314) (f32_of_Z_valid _)) as B.
  assert (D : (273 <= decimal 27315 100 <= 274)%R).
  { unfold decimal. split; [rewrite <- (rnd_gen 273) by (apply (gen_Z 273); lia)|rewrite <- (rnd_gen 274) by (apply (gen_Z 274); lia)]; apply rnd_mono; lra. }
  split; [exact A|]. split; [exact B|]. unfold celsius. rewrite (proj2 (fin_Z 264 ltac:(lia))), (proj2 (fin_Z 314 ltac:(lia))). lra.
Qed.
(** Finding: where there is no data, clouds and rain are drawn like a clear sky. *)
Example C99_clear : rain_colour None None None (rgba 0 0 0 127) /\ rain_colour (Some fzero) (Some fzero) (Some fzero) (rgba 0 0 0 127).
Proof.
  assert (K : rain_colour (Some fzero) (Some fzero) (Some fzero) (rgba 0 0 0 127)); [|split; exact K].
  pose proof (rain_shade (fsub fzero fzero) ltac:(reflexivity)) as A. pose proof (cloud_shade fzero ltac:(reflexivity)) as B.
  exists (rain_color (fsub fzero fzero)), (cloud_color fzero). split; [exact A|]. split; [exact B|].
  destruct (compose_spec true (rain_color (fsub fzero fzero)) (cloud_color fzero) (rain_byte _) (cloud_byte _)) as (c & E & C).
  assert (Q : compose true (rain_color (fsub fzero fzero)) (cloud_color fzero) = Ok (rgba 0 0 0 127)) by (vm_compute; reflexivity). rewrite Q in E. injection E as <-. exact C.
Qed.
(** The orange of 25 degrees.  The other hypotheses of C99_read_temperature are those of C98_inside_temperature, see C98_sample. *)
Example C99_sample : temperature_colour (Some (f32_of_Z 298)) (rgba 255 102 0 127) /\ class_of temp_legend 25 (rgba 255 102 0 127) /\ rgba 255 102 0 127 <> WHITE.
Proof.
  split; [exact (temp_shade (f32_of_Z 298) (f32_of_Z_valid _))|]. split; [|discriminate]. left. exists 21%nat, 26%R. split; [reflexivity|]. split; [lra|].
  intros k l c' L E. do 21 (destruct k as [|k]; [cbn in E; injection E as <- _; lra|]). lia.
Qed.
(** Readings at the place of C98_sample, of the wind and of the rain and clouds. *)
Example C99_wind_sample : let l := {| wl_zonal := alpine_grid [0; 3; 70; -1; -5; 6]; wl_meridional := alpine_grid [0; 4; 0; 2; 12; 8]; wl_gusts := None |} in
  exists tr x y j i d c, wind_render true ideal false sample_run (forecast_steps IconD2) [7] (always l) tr (Ok tt) /\ pixel_of 7 bern x y j i /\
    (forall before, file_after (file_path sample_run 7 (TileFile Wind10m 7 x y)) before tr = Some (Png d)) /\ pixel d j i = Some c /\
    forall r, class_of wind_legend r c -> exists u v speed, agrees wind_legend (fis_nan speed) (xr speed) r /\
      (moderate u -> moderate v -> fin speed /\ (0 <= xr speed)%R /\ length_of u v speed) /\
      shown_at alps 2 3 (cell_value (wl_zonal l)) 7 bern (Some u) /\ shown_at alps 2 3 (cell_value (wl_meridional l)) 7 bern (Some v).
Proof.
  cbv zeta. set (l := {| wl_zonal := alpine_grid [0; 3; 70; -1; -5; 6]; wl_meridional := alpine_grid [0; 4; 0; 2; 12; 8]; wl_gusts := None |}).
  assert (K : In (wind_kind true ideal) (kinds true ideal)) by (right; left; reflexivity).
  destruct (step7_rendered (wind_kind true ideal) l K) as (tr & R).
  { apply (C46_wind_data true ideal sample_run l 2 3 alps_addressable eq_refl); [lia|lia|vm_compute; discriminate|vm_compute; discriminate|discriminate]. }
  destruct C98_sample as (_ & x & y & j & i & _ & _ & _ & _ & Px & N & _). destruct alps_values as (M & _).
  destruct (C99_read_wind true ideal ideal_ok ideal_accurate sample_run (forecast_steps IconD2) [7] (always l) tr step7 l 7 x y j i bern) as (d & c & F & P & Q).
  - apply step7_selected.
  - exact R.
  - apply alpine_regular. reflexivity.
  - apply alpine_regular. reflexivity.
  - exact M.
  - cbn. lia.
  - exact Px.
  - exact N.
  - exact N.
  - exists tr, x, y, j, i, d, c. split; [exact R|]. split; [exact Px|]. split; [exact F|]. split; [exact P|exact Q].
Qed.
Example C99_rain_sample : let l := {| cp_cloud := alpine_grid [0; 10; 20; 50; 80; 100]; cp_precip0 := alpine_grid [0; 0; 1; 2; 3; 4]; cp_precip1 := alpine_grid [0; 1; 1; 4; 13; 200] |} in
  let we := {| we_clct := alpine_grid [0; 10; 20; 50; 80; 100]; we_ceiling := alpine_grid [0; 0; 0; 0; 0; 0]; we_ww := None |} in
  exists tr x y j i d c, cloud_precip_render true ideal false sample_run (forecast_steps IconD2) [7] (always (l, we)) tr (Ok tt) /\ pixel_of 7 bern x y j i /\
    (forall before, file_after (file_path sample_run 7 (TileFile CloudPrecip 7 x y)) before tr = Some (Png d)) /\ pixel d j i = Some c /\
    forall r t rain cloud, class_of rain_legend r rain -> class_of cloud_legend t cloud -> composed rain cloud c ->
      exists q cover before now, close_by 7 bern q /\ in_extent alps q /\
        value_between (cp_cloud l) q cover /\ value_between (cp_precip0 l) q before /\ value_between (cp_precip1 l) q now /\
        agrees rain_legend (fis_nan (fsub (or_zero now) (or_zero before))) (xr (fsub (or_zero now) (or_zero before))) r /\
        agrees cloud_legend (fis_nan (or_zero cover)) (xr (or_zero cover)) t.
Proof.
  cbv zeta. set (l := {| cp_cloud := alpine_grid [0; 10; 20; 50; 80; 100]; cp_precip0 := alpine_grid [0; 0; 1; 2; 3; 4]; cp_precip1 := alpine_grid [0; 1; 1; 4; 13; 200] |}).
  set (we := {| we_clct := alpine_grid [0; 10; 20; 50; 80; 100]; we_ceiling := alpine_grid [0; 0; 0; 0; 0; 0]; we_ww := None |}).
  assert (K : In (cloud_precip_kind true ideal) (kinds true ideal)) by (left; reflexivity).
  destruct (step7_rendered (cloud_precip_kind true ideal) (l, we) K) as (tr & R).
  { apply (C46_cloud_precip_data true ideal sample_run l we 2 3 alps_addressable eq_refl) with (w' := 2) (h' := 3); try lia; try reflexivity; try (match goal with |- complete _ => vm_compute; discriminate end). intros; discriminate. }
  destruct C98_sample as (_ & x & y & j & i & _ & _ & _ & _ & Px & N & _). destruct alps_values as (M & _).
  destruct (C99_read_rain true ideal ideal_ok ideal_accurate sample_run (forecast_steps IconD2) [7] (always (l, we)) tr step7 l we 7 x y j i bern) as (d & c & F & P & Q).
  - apply step7_selected.
  - exact R.
  - apply alpine_regular. reflexivity.
  - apply alpine_regular. reflexivity.
  - apply alpine_regular. reflexivity.
  - exact M.
  - cbn. lia.
  - exact Px.
  - exact N.
  - exists tr, x, y, j, i, d, c. split; [exact R|]. split; [exact Px|]. split; [exact F|]. split; [exact P|exact Q].
Qed.
