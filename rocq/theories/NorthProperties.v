(** The property C97: the map is drawn with north at the top and no row or column out of order. *)
From Coq Require Import Ascii String ZArith Reals List Bool Lia Lra.
From Flocq Require Import Core.Core.
From Verif Require Import Base F32 F32Facts GeoModel GeoSpec GeoProofs ImagingModel ImagingSpec Par TileModel TileSpec TileProofs MercatorProofs LibmProofs
  ChartModel ChartSpec ForecastModel ForecastSpec ForecastProofs ForecastProperties FetchSpec MapSpec MapProofs MapProperties NorthSpec NorthProofs.
Import ListNotations.
Open Scope Z_scope.

(** C97.  There is a latitude for each row of pixels of the whole map and a longitude for each column, in strict order, also across the
    borders of tiles, such that whatever is drawn, every pixel of every tile shows the value at the latitude of its row and
    the longitude of its column. *)
Theorem C97_order : forall m, libm_ok m -> libm_accurate m -> exists lat_of lon_of, north_up lat_of lon_of /\
  forall chk T (value : lat_lon -> outcome (option T)) color_fn zoom x y d, 0 <= zoom <= 10 -> 0 <= x < 2 ^ zoom -> 0 <= y < 2 ^ zoom ->
  create_single_tile chk m value color_fn {| t_x := x; t_y := y; t_zoom := zoom |} = Ok d ->
  forall j i, inside 256 256 j i -> exists c,
    colour_at value color_fn {| lat := lat_of zoom (256 * y + i); lon := lon_of zoom (256 * x + j) |} = Ok c /\ pixel d j i = Some c.
Proof.
  exact (fun m O A => ex_intro _ (lat_of m) (ex_intro _ (lon_of m) (conj (c97_order_proof m O A)
    (fun chk T value color_fn zoom x y d => c97_drawn_proof m chk T value color_fn zoom x y d O A)))).
Qed.
Print Assumptions C97_order.
(** C97.  In the published maps of temperatures the cells of the grid appear in their order: no row of cells below one that is farther
    south, no column right of one that is farther east.  Each pixel has the colour of the cell shown there. *)
Theorem C97_temperature : forall chk m, libm_ok m -> libm_accurate m -> exists lat_of lon_of, north_up lat_of lon_of /\
  forall run steps filter read tr s l, selected run steps filter read s l -> temp_render chk m false run steps filter read tr (Ok tt) -> regular l ->
  exists row col, in_order (extent_of l) lat_of lon_of row col /\
  forall zoom x y, tile_number run zoom x y -> covers chk m (extent_of l) zoom x y ->
  exists d, (forall before, file_after (file_path run (st_nr s) (TileFile Temp2m zoom x y)) before tr = Some (Png d)) /\
    forall j i, inside 256 256 j i -> exists o c,
      shows (extent_of l) (fst (dims l)) (snd (dims l)) (cell_value l) lat_of lon_of row col zoom (256 * x + j) (256 * y + i) o /\
      pixel d j i = Some c /\ temperature_colour o c.
Proof. exact c97_temperature_proof. Qed.
Print Assumptions C97_temperature.
(** C97.  The same for the wind, for the grids of both components. *)
Theorem C97_wind : forall chk m, libm_ok m -> libm_accurate m -> exists lat_of lon_of, north_up lat_of lon_of /\
  forall run steps filter read tr s l, selected run steps filter read s l -> wind_render chk m false run steps filter read tr (Ok tt) ->
  regular (wl_zonal l) -> regular (wl_meridional l) ->
  exists row col row' col', in_order (extent_of (wl_zonal l)) lat_of lon_of row col /\ in_order (extent_of (wl_meridional l)) lat_of lon_of row' col' /\
  forall zoom x y, tile_number run zoom x y -> covers chk m (extent_of (wl_zonal l)) zoom x y ->
  exists d, (forall before, file_after (file_path run (st_nr s) (TileFile Wind10m zoom x y)) before tr = Some (Png d)) /\
    forall j i, inside 256 256 j i -> exists u v c,
      shows (extent_of (wl_zonal l)) (fst (dims (wl_zonal l))) (snd (dims (wl_zonal l))) (cell_value (wl_zonal l)) lat_of lon_of row col zoom (256 * x + j) (256 * y + i) u /\
      shows (extent_of (wl_meridional l)) (fst (dims (wl_meridional l))) (snd (dims (wl_meridional l))) (cell_value (wl_meridional l)) lat_of lon_of row' col' zoom (256 * x + j) (256 * y + i) v /\
      pixel d j i = Some c /\ wind_colour u v c.
Proof. exact c97_wind_proof. Qed.
Print Assumptions C97_wind.
(** C97.  For clouds and precipitation the values are interpolated at places in order. *)
Theorem C97_rain : forall chk m, libm_ok m -> libm_accurate m -> exists lat_of lon_of, north_up lat_of lon_of /\
  forall run steps filter read tr s l we, selected run steps filter read s (l, we) -> cloud_precip_render chk m false run steps filter read tr (Ok tt) ->
  regular (cp_cloud l) -> regular (cp_precip0 l) -> regular (cp_precip1 l) ->
  forall zoom x y, tile_number run zoom x y -> covers chk m (extent_of (cp_cloud l)) zoom x y ->
  exists d, (forall before, file_after (file_path run (st_nr s) (TileFile CloudPrecip zoom x y)) before tr = Some (Png d)) /\
    forall j i, inside 256 256 j i -> let p := {| lat := lat_of zoom (256 * y + i); lon := lon_of zoom (256 * x + j) |} in
      exists cover before now c, value_between (cp_cloud l) p cover /\ value_between (cp_precip0 l) p before /\ value_between (cp_precip1 l) p now /\
        pixel d j i = Some c /\ rain_colour cover before now c.
Proof. exact c97_rain_proof. Qed.
Print Assumptions C97_rain.

(** The map [alpine] of MapProperties: its tile 1/1/0 shows the cells in their order. *)
Example C97_sample : exists lat_of lon_of, north_up lat_of lon_of /\
  exists tr, temp_render true ideal false sample_run (forecast_steps IconD2) [7] alpine_read tr (Ok tt) /\
  exists row col, in_order alps lat_of lon_of row col /\
  exists d, (forall before, file_after "./output/icon-d2/2024022903/007/temp/1/1/0.png" before tr = Some (Png d)) /\
    forall j i, inside 256 256 j i -> exists o c, shows alps 2 3 (cell_value alpine) lat_of lon_of row col 1 (256 + j) i o /\
      pixel d j i = Some c /\ temperature_colour o c.
Proof.
  destruct alps_values as (M & G & Fb & Ib & Wb). destruct sample_steps as [Nn Nd].
  destruct (C97_temperature true ideal ideal_ok ideal_accurate) as (lat_of & lon_of & N & H). exists lat_of, lon_of. split; [exact N|].
  destruct C64_sample as (tr & R & _). exists tr. split; [exact R|].
  destruct (H sample_run (forecast_steps IconD2) [7] alpine_read tr step7 alpine) as (row & col & I & P).
  - split; [exact sample_run_valid|]. split; [exact Nn|]. split; [exact Nd|]. split; [intros s l l' E E'; unfold alpine_read in *; congruence|].
    split; [vm_compute; intuition|]. split; [right; left; reflexivity|reflexivity].
  - exact R.
  - eexists _, _, 2, 3, alps. split; [reflexivity|]. split; [exact G|]. split; [reflexivity|]. repeat constructor; apply f32_of_Z_valid.
  - exists row, col. split; [exact I|]. destruct (P 1 1 0) as (d & F & Q).
    + unfold tile_number. cbn. lia.
    + apply (C64_coverage true ideal alps 1 1 0 bern ideal_accurate); try lia; assumption.
    + exists d. split; [exact F|exact Q].
Qed.
