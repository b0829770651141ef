(** The property C71, from the messages of the German weather service to the published map and data files. *)
From Coq Require Import Ascii String ZArith Reals List Bool Lia Lra.
From Flocq Require Import Core.Core.
From Verif Require Import Base F32 F32Facts Grib2Model Grib2Spec Grib2Samples Grib2DocProofs Grib2FloatProofs GeoModel GeoSpec GeoProofs ImagingModel ImagingSpec Par TileModel TileSpec TileProofs MercatorProofs LibmProofs
  ChartModel ChartSpec MetobinModel MetobinSpec ForecastModel ForecastSpec ForecastProofs FetchModel FetchSpec DwdModel DwdSpec DwdProofs DwdProperties MapSpec MapProofs MapProperties FieldSpec FieldProofs
  PublishSpec PublishProofs.
Import ListNotations.
Open Scope Z_scope.

(** C71.  If the rendering of the latest run succeeds, under every schedule, then each file that the layers asked for are made
    of was there, and started with a GRIB2 message. *)
Theorem C71_messages : forall chk powi (fetch : fetcher) m head today today' model vars steps run tr file,
  succeeded chk powi fetch m head today today' model vars steps run tr -> (forall url bs, fetch url (Ok bs) -> Forall is_byte bs) ->
  needed vars steps run file -> exists ms, served chk fetch run file ms.
Proof. exact c71_messages_proof. Qed.
Print Assumptions C71_messages.
(** C71.  Then the map of the temperature has, in each pixel of the tiles with places of the field, the legend's colour for what
    the message says about the place that the Web-Mercator map has there; and the data file has the code of what the message
    says about each of its points. *)
Theorem C71_temperature : forall chk powi fetch m head today today' model vars steps run tr n,
  succeeded chk powi fetch m head today today' model vars steps run tr -> wanted_nr run steps n -> forall ms,
  libm_ok m -> libm_accurate m -> named vars Temp2m -> served chk fetch run (SingleFile T2m n) ms -> mapped ms ->
  (forall zoom x y, tile_with ms run zoom x y -> exists img, holds run n (TileFile Temp2m zoom x y) tr (Png img) /\
     painted zoom x y img (fun p c => exists o, told_near powi ms p o /\ temperature_colour o c)) /\
  exists data, holds run n (BinFile BinTemp) tr (Data data) /\
    laid_out 1 (columns ms) (rows ms) data (fun x y rec => exists o b, told powi ms x y o /\ rec = [b] /\ temperature_code o b).
Proof. exact c71_temperature_proof. Qed.
Print Assumptions C71_temperature.
(** C71.  The same for the wind, from the messages of its components and of the gusts; *)
Theorem C71_wind : forall chk powi fetch m head today today' model vars steps run tr n,
  succeeded chk powi fetch m head today today' model vars steps run tr -> wanted_nr run steps n -> forall east north gusts,
  libm_ok m -> libm_accurate m -> named vars Wind10m ->
  served chk fetch run (SingleFile U10m n) east -> served chk fetch run (SingleFile V10m n) north -> served chk fetch run (SingleFile Vmax10m n) gusts ->
  mapped east -> mapped north -> mapped gusts ->
  (forall zoom x y, tile_with east run zoom x y -> exists img, holds run n (TileFile Wind10m zoom x y) tr (Png img) /\
     painted zoom x y img (fun p c => exists u v, told_near powi east p u /\ told_near powi north p v /\ wind_colour u v c)) /\
  exists data, holds run n (BinFile BinWind) tr (Data data) /\
    laid_out 3 (columns east) (rows east) data (fun x y rec => exists u v gust, told powi east x y u /\ told powi north x y v /\ told powi gusts x y gust /\ wind_code u v gust rec).
Proof. exact c71_wind_proof. Qed.
Print Assumptions C71_wind.
(** for clouds and precipitation, from the cloud cover and the totals of this step and of the one before, interpolated between
    the points for the map; *)
Theorem C71_rain : forall chk powi fetch m head today today' model vars steps run tr n,
  succeeded chk powi fetch m head today today' model vars steps run tr -> wanted_nr run steps n -> forall cover before now,
  libm_ok m -> libm_accurate m -> named vars CloudPrecip ->
  served chk fetch run (SingleFile ClctMod n) cover -> served chk fetch run (SingleFile TotPrec (n - 1)) before -> served chk fetch run (SingleFile TotPrec n) now ->
  mapped cover -> mapped before -> mapped now ->
  (forall zoom x y, tile_with cover run zoom x y -> exists img, holds run n (TileFile CloudPrecip zoom x y) tr (Png img) /\
     painted zoom x y img (fun p c => exists o o0 o1, told_between powi cover p o /\ told_between powi before p o0 /\ told_between powi now p o1 /\ rain_colour o o0 o1 c)) /\
  exists data, holds run n (BinFile BinPrecip) tr (Data data) /\
    laid_out 1 (columns cover) (rows cover) data (fun x y rec => exists o0 o1 b, told powi before x y o0 /\ told powi now x y o1 /\ rec = [b] /\ rain_code o0 o1 b).
Proof. exact c71_rain_proof. Qed.
Print Assumptions C71_rain.
(** for the weather; *)
Theorem C71_weather : forall chk powi fetch m head today today' model vars steps run tr n,
  succeeded chk powi fetch m head today today' model vars steps run tr -> wanted_nr run steps n -> forall ww cover ceiling,
  named vars CloudPrecip ->
  served chk fetch run (SingleFile Ww n) ww -> served chk fetch run (SingleFile ClctMod n) cover -> served chk fetch run (SingleFile Ceiling n) ceiling ->
  mapped ww -> mapped cover -> mapped ceiling ->
  exists data, holds run n (BinFile BinWeather) tr (Data data) /\
    laid_out 2 (columns cover) (rows cover) data (fun x y rec => exists o1 o2 o3, told powi ww x y o1 /\ told powi cover x y o2 /\ told powi ceiling x y o3 /\ weather_code o1 o2 o3 rec).
Proof. exact c71_weather_proof. Qed.
Print Assumptions C71_weather.
(** and for the profiles of clouds and wind, from the messages of all levels of the model. *)
Theorem C71_vertical_cloud : forall chk powi fetch m head today today' model vars steps run tr n,
  succeeded chk powi fetch m head today today' model vars steps run tr -> wanted_nr run steps n -> forall heights covers : Z -> message,
  named vars VerticalCloud ->
  (forall level, level_of run level -> served chk fetch run (HeightFile level) (heights level) /\ gridded (heights level)) ->
  (forall level, level_of run level -> served chk fetch run (LevelFile Clc n level) (covers level) /\ gridded (covers level)) ->
  exists data, holds run n (BinFile BinVerticalClouds) tr (Data data) /\
    let top := covers (first_level (run_model run)) in
    laid_out (2 * level_count run) (columns top) (rows top) data (fun x y rec => forall level, level_of run level -> exists o1 o2 a b,
      raw powi (heights level) x y o1 /\ raw powi (covers level) x y o2 /\ height_code o1 a /\ cover_code o2 b /\
      slice rec (2 * (level - first_level (run_model run))) 2 = [a; b]).
Proof. exact c71_vertical_cloud_proof. Qed.
Print Assumptions C71_vertical_cloud.
Theorem C71_vertical_wind : forall chk powi fetch m head today today' model vars steps run tr n,
  succeeded chk powi fetch m head today today' model vars steps run tr -> wanted_nr run steps n -> forall heights east north : Z -> message,
  named vars VerticalWind ->
  (forall level, level_of run level -> served chk fetch run (HeightFile level) (heights level) /\ gridded (heights level)) ->
  (forall level, level_of run level -> served chk fetch run (LevelFile UWind n level) (east level) /\ gridded (east level)) ->
  (forall level, level_of run level -> served chk fetch run (LevelFile VWind n level) (north level) /\ gridded (north level)) ->
  exists data, holds run n (BinFile BinVerticalWind) tr (Data data) /\
    let top := east (first_level (run_model run)) in
    laid_out (3 * level_count run) (columns top) (rows top) data (fun x y rec => forall level, level_of run level -> exists o1 o2 o3 a w,
      raw powi (heights level) x y o1 /\ raw powi (east level) x y o2 /\ raw powi (north level) x y o3 /\ height_code o1 a /\ level_wind_code o2 o3 w /\
      slice rec (3 * (level - first_level (run_model run))) 3 = a :: w).
Proof. exact c71_vertical_wind_proof. Qed.
Print Assumptions C71_vertical_wind.

(** A service that has all files of the run, each with the values 0, 1 and 2 and three missing ones on 3 x 2 points of central
    Europe. *)
Definition low_message : message :=
  {| ms_wire := low; ms_points := match w3_tpl (w_3 sample) with W3_0 t => t | W3_101 _ => {| w30_shape := 0; w30_radius := {| sf_factor := 0; sf_value := 0 |};
       w30_major := {| sf_factor := 0; sf_value := 0 |}; w30_minor := {| sf_factor := 0; sf_value := 0 |}; w30_ni := 0; w30_nj := 0; w30_basic := 0; w30_subdiv := 0;
       w30_lat1 := 0; w30_lon1 := 0; w30_res := 0; w30_lat2 := 0; w30_lon2 := 0; w30_di := 0; w30_dj := 0; w30_scan := 0 |} end;
     ms_reference := 0; ms_binary := 0; ms_decimal := 0 |}.
Lemma powi_loop_valid fuel : forall a r b, f32_valid a -> f32_valid r -> f32_valid (powi_loop fuel a r b).
Proof.
  induction fuel as [|fuel IH]; intros a r b A R; [exact R|]. cbn [powi_loop]. cbv zeta.
  assert (V : f32_valid (if Z.odd b then fmul r a else r)) by (destruct (Z.odd b); [apply fmul_valid; assumption|exact R]).
  destruct (Z.quot b 2 =? 0); [exact V|]. apply IH; [apply fmul_valid; assumption|exact V].
Qed.
Lemma powi_rt_valid a b : f32_valid a -> f32_valid (powi_rt a b).
Proof.
  intro A. unfold powi_rt. cbv zeta. assert (V := powi_loop_valid 32 a (f32_of_Z 1) b A (f32_of_Z_valid 1)). destruct (b <? 0); [apply fdiv_valid; [apply f32_of_Z_valid|exact V]|exact V].
Qed.
Lemma low_wf : wf_message true low.
Proof. wf_tac 6. Qed.
Lemma low_mapped : mapped low_message.
Proof. unfold mapped, low_message, columns, rows, angle_field, micro. cbn. lia. Qed.
Lemma low_tile : tile_with low_message the_run 1 1 0.
Proof.
  split; [unfold tile_number; cbn; lia|]. destruct alps_values as (_ & _ & Fb & _ & Wb). exists bern. split; [exact Fb|]. split; [|exact Wb].
  destruct (fin_Z 45 ltac:(lia)) as [_ E1]. destruct (fin_Z 8 ltac:(lia)) as [_ E2]. unfold in_field, bern. cbn [lat lon]. rewrite E1, E2.
  change (micro (w30_lat1 (ms_points low_message))) with 43180000. change (micro (w30_lat2 (ms_points low_message))) with 58080000.
  change (micro (w30_lon1 (ms_points low_message))) with (-3940000). change (micro (w30_lon2 (ms_points low_message))) with 20340000. split; lra.
Qed.
Example C71_sample : exists tr, succeeded true powi_rt DwdProperties.served ideal sample_heads today today IconD2 [] [5; 6] the_run tr /\
  (forall url bs, DwdProperties.served url (Ok bs) -> Forall is_byte bs) /\ wanted_nr the_run [5; 6] 5 /\
  (forall file, needed [] [5; 6] the_run file -> served true DwdProperties.served the_run file low_message) /\
  mapped low_message /\ tile_with low_message the_run 1 1 0 /\
  exists data, holds the_run 5 (BinFile BinTemp) tr (Data data) /\ size data = 6.
Proof.
  destruct C50_sample as (F & M & _ & _ & V & V').
  assert (St : steady DwdProperties.served) by (intros url bs bs' H H'; unfold DwdProperties.served in *; congruence).
  assert (On : on_map low_extent).
  { assert (R : read_as powi_rt low_message (f32_of_Z (-1)) (fun x => x) (low_grid (f32_of_Z (-1)) (fun x => x))) by (vm_compute; reflexivity).
    assert (U : understood true low_message) by (split; [exact low_wf|]; split; [reflexivity|]; do 2 eexists; reflexivity).
    exact (mapped_on_map true powi_rt low_message _ U R low_mapped). }
  destruct (C59_succeeds true powi_rt DwdProperties.served ideal sample_heads today today IconD2 [] [5; 6] the_run 3 2 low_extent
    M V V' F low_good_run ltac:(lia) ltac:(lia) ltac:(vm_compute; reflexivity) (C64_addressable true ideal the_run low_extent ideal_accurate On)) as [(tr & r & R) A].
  pose proof (A tr r R) as ->. exists tr.
  assert (S : succeeded true powi_rt DwdProperties.served ideal sample_heads today today IconD2 [] [5; 6] the_run tr) by (unfold succeeded; pose proof powi_rt_valid; auto 10).
  assert (Wn : wanted_nr the_run [5; 6] 5) by (split; [cbn; lia|right; now left]).
  assert (Sv : forall file, needed [] [5; 6] the_run file -> served true DwdProperties.served the_run file low_message).
  { intros file (n & [Wb _] & D). destruct (proj1 (C49_total the_run file) (or_introl eq_refl)) as (url & U).
    destruct (found_run _ _ _ _ _ M V V' F) as [VR _]. exists url, (message_bytes low). do 2 eexists. exists []. split; [apply (c49_layout_proof the_run file url VR); [|exact U]|].
    - destruct file as [v k|v k level|level]; [|destruct v|]; unfold level_of in D; cbn in *; try lia. destruct v; lia.
    - split; [reflexivity|]. split; [exact low_wf|]. split; [symmetry; apply app_nil_r|]. split; reflexivity. }
  split; [exact S|]. split; [intros url bs E; unfold DwdProperties.served in E; injection E as ->; repeat constructor; vm_compute; intuition discriminate|].
  split; [exact Wn|]. split; [exact Sv|]. split; [exact low_mapped|]. split; [exact low_tile|].
  destruct (C71_temperature _ _ _ _ _ _ _ _ _ _ _ _ 5 S Wn low_message ideal_ok ideal_accurate (or_introl eq_refl)) as (_ & data & H & L); [|exact low_mapped|].
  - apply Sv. exists 5. split; [exact Wn|]. split; [now left|reflexivity].
  - exists data. split; [exact H|exact (proj1 L)].
Qed.
