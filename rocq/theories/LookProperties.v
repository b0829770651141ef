(** The property C98: at every place the map shows the data of that place. *)
From Coq Require Import Ascii String ZArith Reals List Bool Lia Lra.
From Flocq Require Import Core.Core.
From Verif Require Import Base F32 F32Facts GeoModel GeoSpec GeoProofs ImagingModel ImagingSpec Par TileModel TileSpec TileProofs MercatorProofs LibmProofs
  ChartModel ChartSpec ForecastModel ForecastSpec ForecastProofs ForecastProperties FetchSpec MapSpec MapProofs MapProperties LookSpec LookProofs.
Import ListNotations.
Open Scope Z_scope.

(** C98.  Every place of the square map lies in a pixel of a tile. *)
Theorem C98_pixel : forall zoom p, 0 <= zoom -> (-180 <= xr (lon p) < 180)%R -> (0 <= row_at zoom (xr (lat p)) < IZR (2 ^ zoom))%R ->
  exists x y j i, pixel_of zoom p x y j i.
Proof. exact c98_pixel_proof. Qed.
Print Assumptions C98_pixel.
(** C98.  After a successful rendering, under every schedule, the pixel that contains a place has the colour of the temperature of a grid point
    that is at most half a cell, the width of a pixel, the distortion and rounding away from that place; it is transparent
    if that point has no value, or if the place is that close to the outside of the extent. *)
Theorem C98_temperature : forall chk m, libm_ok m -> libm_accurate m -> forall run steps filter read tr s l zoom x y j i p,
  selected run steps filter read s l -> temp_render chk m false run steps filter read tr (Ok tt) -> regular l ->
  0 <= zoom <= last_zoom (run_model run) -> (Rabs (xr (lat p)) <= 851 / 10)%R -> pixel_of zoom p x y j i -> covers chk m (extent_of l) zoom x y ->
  exists d o c, (forall before, file_after (file_path run (st_nr s) (TileFile Temp2m zoom x y)) before tr = Some (Png d)) /\
    pixel d j i = Some c /\ temperature_colour o c /\ found_at (extent_of l) (fst (dims l)) (snd (dims l)) (cell_value l) zoom p o.
Proof. exact c98_temperature_proof. Qed.
Print Assumptions C98_temperature.
(** C98.  The same for the two components of the wind. *)
Theorem C98_wind : forall chk m, libm_ok m -> libm_accurate m -> forall run steps filter read tr s l zoom x y j i p,
  selected run steps filter read s l -> wind_render chk m false run steps filter read tr (Ok tt) -> regular (wl_zonal l) -> regular (wl_meridional l) ->
  0 <= zoom <= last_zoom (run_model run) -> (Rabs (xr (lat p)) <= 851 / 10)%R -> pixel_of zoom p x y j i -> covers chk m (extent_of (wl_zonal l)) zoom x y ->
  exists d u v c, (forall before, file_after (file_path run (st_nr s) (TileFile Wind10m zoom x y)) before tr = Some (Png d)) /\
    pixel d j i = Some c /\ wind_colour u v c /\
    found_at (extent_of (wl_zonal l)) (fst (dims (wl_zonal l))) (snd (dims (wl_zonal l))) (cell_value (wl_zonal l)) zoom p u /\
    found_at (extent_of (wl_meridional l)) (fst (dims (wl_meridional l))) (snd (dims (wl_meridional l))) (cell_value (wl_meridional l)) zoom p v.
Proof. exact c98_wind_proof. Qed.
Print Assumptions C98_wind.
(** C98.  Clouds and precipitation are those interpolated at one place close to the place asked for. *)
Theorem C98_rain : forall chk m, libm_ok m -> libm_accurate m -> forall run steps filter read tr s l we zoom x y j i p,
  selected run steps filter read s (l, we) -> cloud_precip_render chk m false run steps filter read tr (Ok tt) ->
  regular (cp_cloud l) -> regular (cp_precip0 l) -> regular (cp_precip1 l) ->
  0 <= zoom <= last_zoom (run_model run) -> (Rabs (xr (lat p)) <= 851 / 10)%R -> pixel_of zoom p x y j i -> covers chk m (extent_of (cp_cloud l)) zoom x y ->
  exists d q cover before now c, (forall before, file_after (file_path run (st_nr s) (TileFile CloudPrecip zoom x y)) before tr = Some (Png d)) /\
    close_by zoom p q /\ pixel d j i = Some c /\ rain_colour cover before now c /\
    value_between (cp_cloud l) q cover /\ value_between (cp_precip0 l) q before /\ value_between (cp_precip1 l) q now.
Proof. exact c98_rain_proof. Qed.
Print Assumptions C98_rain.
(** C98.  In the inside of the extent, the tile is among those rendered and the pixel has the colour of a point of the grid close by. *)
Theorem C98_inside_temperature : forall chk m, libm_ok m -> libm_accurate m -> forall run steps filter read tr s l zoom x y j i p,
  selected run steps filter read s l -> temp_render chk m false run steps filter read tr (Ok tt) -> regular l -> on_map (extent_of l) ->
  0 <= zoom <= last_zoom (run_model run) -> pixel_of zoom p x y j i -> inside_by zoom (extent_of l) p ->
  exists d o c, (forall before, file_after (file_path run (st_nr s) (TileFile Temp2m zoom x y)) before tr = Some (Png d)) /\
    pixel d j i = Some c /\ temperature_colour o c /\ shown_at (extent_of l) (fst (dims l)) (snd (dims l)) (cell_value l) zoom p o.
Proof. exact c98_inside_temperature_proof. Qed.
Print Assumptions C98_inside_temperature.
(** C98.  The same for the wind. *)
Theorem C98_inside_wind : forall chk m, libm_ok m -> libm_accurate m -> forall run steps filter read tr s l zoom x y j i p,
  selected run steps filter read s l -> wind_render chk m false run steps filter read tr (Ok tt) -> regular (wl_zonal l) -> regular (wl_meridional l) ->
  on_map (extent_of (wl_zonal l)) -> 0 <= zoom <= last_zoom (run_model run) -> pixel_of zoom p x y j i ->
  inside_by zoom (extent_of (wl_zonal l)) p -> inside_by zoom (extent_of (wl_meridional l)) p ->
  exists d u v c, (forall before, file_after (file_path run (st_nr s) (TileFile Wind10m zoom x y)) before tr = Some (Png d)) /\
    pixel d j i = Some c /\ wind_colour u v c /\
    shown_at (extent_of (wl_zonal l)) (fst (dims (wl_zonal l))) (snd (dims (wl_zonal l))) (cell_value (wl_zonal l)) zoom p u /\
    shown_at (extent_of (wl_meridional l)) (fst (dims (wl_meridional l))) (snd (dims (wl_meridional l))) (cell_value (wl_meridional l)) zoom p v.
Proof. exact c98_inside_wind_proof. Qed.
Print Assumptions C98_inside_wind.
(** C98.  The same for clouds and precipitation, which are interpolated at a place of the extent close by. *)
Theorem C98_inside_rain : forall chk m, libm_ok m -> libm_accurate m -> forall run steps filter read tr s l we zoom x y j i p,
  selected run steps filter read s (l, we) -> cloud_precip_render chk m false run steps filter read tr (Ok tt) ->
  regular (cp_cloud l) -> regular (cp_precip0 l) -> regular (cp_precip1 l) -> on_map (extent_of (cp_cloud l)) ->
  0 <= zoom <= last_zoom (run_model run) -> pixel_of zoom p x y j i -> inside_by zoom (extent_of (cp_cloud l)) p ->
  exists d q cover before now c, (forall before, file_after (file_path run (st_nr s) (TileFile CloudPrecip zoom x y)) before tr = Some (Png d)) /\
    close_by zoom p q /\ in_extent (extent_of (cp_cloud l)) q /\ pixel d j i = Some c /\ rain_colour cover before now c /\
    value_between (cp_cloud l) q cover /\ value_between (cp_precip0 l) q before /\ value_between (cp_precip1 l) q now.
Proof. exact c98_inside_rain_proof. Qed.
Print Assumptions C98_inside_rain.
(** The pixel of the map of step 7, at zoom level 7, that contains the place at 45 degrees north and 8 degrees east. *)
Example C98_sample : exists tr x y j i d o c, temp_render true ideal false sample_run (forecast_steps IconD2) [7] alpine_read tr (Ok tt) /\
  pixel_of 7 bern x y j i /\ inside_by 7 alps bern /\ (forall before, file_after (file_path sample_run 7 (TileFile Temp2m 7 x y)) before tr = Some (Png d)) /\
  pixel d j i = Some c /\ temperature_colour o c /\ shown_at alps 2 3 (cell_value alpine) 7 bern o.
Proof.
  destruct C64_sample as (tr & R & _). exists tr. destruct alps_values as (M & G & Fb & Ib & Wb). destruct sample_steps as [Nn Nd].
  destruct (fin_Z 45 ltac:(lia)) as [_ E5]. destruct (fin_Z 8 ltac:(lia)) as [_ E6]. pose proof row_45 as R45.
  assert (La : xr (lat bern) = 45%R) by exact E5. assert (Lo : xr (lon bern) = 8%R) by exact E6.
  assert (R7 : row_at 7 45 = (64 * row_at 1 45)%R) by (unfold row_at; change (IZR (2 ^ 7)) with 128%R; change (IZR (2 ^ 1)) with 2%R; field; pose proof PI_RGT_0; lra).
  destruct (C98_pixel 7 bern ltac:(lia)) as (x & y & j & i & Px); [rewrite Lo; lra|rewrite La, R7; change (IZR (2 ^ 7)) with 128%R; lra|].
  assert (N : inside_by 7 alps bern).
  { unfold inside_by, off_lat, off_lon. rewrite La, Lo. unfold alps. cbn [min_coord max_coord lat lon].
    rewrite (proj2 (fin_Z 5 ltac:(lia))), (proj2 (fin_Z 15 ltac:(lia))), (proj2 (fin_Z 40 ltac:(lia))), (proj2 (fin_Z 50 ltac:(lia))).
    change (IZR (2 ^ 7)) with 128%R. change (IZR (4 ^ 7)) with 16384%R. lra. }
  destruct (C98_inside_temperature true ideal ideal_ok ideal_accurate sample_run (forecast_steps IconD2) [7] alpine_read tr step7 alpine 7 x y j i bern) as (d & o & c & F & P & T & Q).
  - split; [exact sample_run_valid|]. split; [exact Nn|]. split; [exact Nd|]. split; [intros s l l' E E'; unfold alpine_read in *; congruence|].
    split; [vm_compute; intuition|]. split; [right; left; reflexivity|reflexivity].
  - exact R.
  - eexists _, _, 2, 3, alps. split; [reflexivity|]. split; [exact G|]. split; [reflexivity|]. repeat constructor; apply f32_of_Z_valid.
  - exact M.
  - cbn. lia.
  - exact Px.
  - exact N.
  - exists x, y, j, i, d, o, c. split; [exact R|]. split; [exact Px|]. split; [exact N|]. split; [exact F|]. split; [exact P|]. split; [exact T|]. exact Q.
Qed.
