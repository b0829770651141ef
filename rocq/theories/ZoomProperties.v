(** The property C96, about the zoom levels of the map. *)
From Coq Require Import Ascii String ZArith Reals List Bool Lia Lra.
From Flocq Require Import Core.Core.
From Verif Require Import Base F32 F32Facts GeoModel GeoSpec GeoProofs ImagingModel ImagingSpec Par TileModel TileSpec TileProofs MercatorProofs LibmProofs
  ChartModel ChartSpec ForecastModel ForecastSpec ForecastProofs ForecastProperties FetchSpec MapSpec MapProofs MapProperties ZoomSpec ZoomProofs.
Import ListNotations.
Open Scope Z_scope.

(** C96.  Whatever is drawn, pixel by pixel, in a tile and in a tile of a zoom level k steps further in: two pixels of the top rows that
    begin at the same place of the map are exactly alike. *)
Theorem C96_row : forall chk m T (value : lat_lon -> outcome (option T)) color_fn zoom k x y j X J d d', libm_ok m -> libm_accurate m ->
  0 <= zoom -> 0 <= k -> zoom + k <= 10 -> 0 <= x < 2 ^ zoom -> 0 <= y < 2 ^ zoom -> 0 <= j < 256 -> 0 <= J < 256 -> 256 * X + J = 2 ^ k * (256 * x + j) ->
  create_single_tile chk m value color_fn {| t_x := x; t_y := y; t_zoom := zoom |} = Ok d ->
  create_single_tile chk m value color_fn {| t_x := X; t_y := 2 ^ k * y; t_zoom := zoom + k |} = Ok d' -> pixel d' J 0 = pixel d j 0.
Proof. exact c96_row_proof. Qed.
Print Assumptions C96_row.
(** C96.  After a successful rendering of temperatures, under every schedule, this holds of the image files of a selected step. *)
Theorem C96_temperature : forall chk m, libm_ok m -> libm_accurate m -> forall run steps filter read tr s l zoom k x y X,
  selected run steps filter read s l -> temp_render chk m false run steps filter read tr (Ok tt) -> 0 <= k ->
  tile_number run zoom x y -> tile_number run (zoom + k) X (2 ^ k * y) ->
  covers chk m (extent_of l) zoom x y -> covers chk m (extent_of l) (zoom + k) X (2 ^ k * y) ->
  zooms_agree run (st_nr s) Temp2m tr zoom k x y X.
Proof. exact c96_temperature_proof. Qed.
Print Assumptions C96_temperature.
(** C96.  The same for the wind. *)
Theorem C96_wind : forall chk m, libm_ok m -> libm_accurate m -> forall run steps filter read tr s l zoom k x y X,
  selected run steps filter read s l -> wind_render chk m false run steps filter read tr (Ok tt) -> 0 <= k ->
  tile_number run zoom x y -> tile_number run (zoom + k) X (2 ^ k * y) ->
  covers chk m (extent_of (wl_zonal l)) zoom x y -> covers chk m (extent_of (wl_zonal l)) (zoom + k) X (2 ^ k * y) ->
  zooms_agree run (st_nr s) Wind10m tr zoom k x y X.
Proof. exact c96_wind_proof. Qed.
Print Assumptions C96_wind.
(** C96.  The same for clouds and precipitation. *)
Theorem C96_rain : forall chk m, libm_ok m -> libm_accurate m -> forall run steps filter read tr s l we zoom k x y X,
  selected run steps filter read s (l, we) -> cloud_precip_render chk m false run steps filter read tr (Ok tt) -> 0 <= k ->
  tile_number run zoom x y -> tile_number run (zoom + k) X (2 ^ k * y) ->
  covers chk m (extent_of (cp_cloud l)) zoom x y -> covers chk m (extent_of (cp_cloud l)) (zoom + k) X (2 ^ k * y) ->
  zooms_agree run (st_nr s) CloudPrecip tr zoom k x y X.
Proof. exact c96_rain_proof. Qed.
Print Assumptions C96_rain.

(** The map [alpine] of MapProperties: the tile 0/0/0 and the tile 1/1/0 of step 7 are both published, and the pixels of the right half of
    the former's top row are every other pixel of the latter's. *)
Lemma bern_world : well_within 0 0 0 bern.
Proof.
  destruct (fin_Z 45 ltac:(lia)) as [F5 E5]. destruct (fin_Z 8 ltac:(lia)) as [F6 E6]. pose proof row_45 as R.
  unfold well_within, column_lon, bern. cbn [lat lon]. rewrite E5, E6. unfold row_at in *. change (IZR (2 ^ 1)) with 2%R in R. change (IZR (2 ^ 0)) with 1%R. lra.
Qed.
Example C96_sample : exists tr, temp_render true ideal false sample_run (forecast_steps IconD2) [7] alpine_read tr (Ok tt) /\
  exists d d', (forall before, file_after "./output/icon-d2/2024022903/007/temp/0/0/0.png" before tr = Some (Png d)) /\
    (forall before, file_after "./output/icon-d2/2024022903/007/temp/1/1/0.png" before tr = Some (Png d')) /\
    forall i, 0 <= i < 128 -> exists c, pixel d (128 + i) 0 = Some c /\ pixel d' (2 * i) 0 = Some c.
Proof.
  destruct alps_values as (M & G & Fb & Ib & Wb). destruct sample_steps as [Nn Nd].
  destruct C64_sample as (tr & R & _). exists tr. split; [exact R|].
  destruct (C96_temperature true ideal ideal_ok ideal_accurate sample_run (forecast_steps IconD2) [7] alpine_read tr step7 alpine 0 1 0 0 1) as (d & d' & F & F' & P).
  - split; [exact sample_run_valid|]. split; [exact Nn|]. split; [exact Nd|]. split; [intros s l l' E E'; unfold alpine_read in *; congruence|].
    split; [vm_compute; intuition|]. split; [right; left; reflexivity|reflexivity].
  - exact R.
  - lia.
  - unfold tile_number. cbn. lia.
  - unfold tile_number. cbn. lia.
  - apply (C64_coverage true ideal alps 0 0 0 bern ideal_accurate); try lia; try assumption. exact bern_world.
  - apply (C64_coverage true ideal alps 1 1 0 bern ideal_accurate); try lia; assumption.
  - exists d, d'. split; [exact F|]. split; [exact F'|]. intros i Hi. apply P; lia.
Qed.
