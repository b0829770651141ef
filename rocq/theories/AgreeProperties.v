(** The property C84: the published map and the published data file of a step tell the same. *)
From Coq Require Import Ascii String ZArith Reals List Bool Lia Lra.
From Coq Require Import Floats.SpecFloat.
From Flocq Require Import Core.Core.
From Verif Require Import Base F32 F32Facts GeoModel GeoSpec GeoProofs ImagingModel ImagingSpec Par TileModel TileSpec TileProofs MercatorProofs LibmProofs
  ChartModel ChartSpec MetobinModel MetobinSpec ForecastModel ForecastSpec ForecastProofs ForecastProperties MapSpec MapProofs MapProperties AgreeSpec AgreeProofs GeoValueProofs.
Import ListNotations.
Open Scope Z_scope.

(** C84.  After a successful rendering, under every schedule, each pixel of a tile of a selected step has the colour of a temperature that the
    byte of the closest cell in the data file of the same step stands for; the pixel is transparent only where that byte is 255 or there is no cell. *)
Theorem C84_temperature : forall chk m, libm_ok m -> libm_accurate m -> forall run steps filter read tr s l zoom x y,
  selected run steps filter read s l -> tile_number run zoom x y -> temp_render chk m false run steps filter read tr (Ok tt) ->
  regular l -> Forall num (vg_values l) -> covers chk m (extent_of l) zoom x y ->
  exists d data, (forall before, file_after (file_path run (st_nr s) (TileFile Temp2m zoom x y)) before tr = Some (Png d)) /\
    (forall before, file_after (file_path run (st_nr s) (BinFile BinTemp)) before tr = Some (Data data)) /\
    forall j i, inside 256 256 j i -> exists p c, depicts zoom x y j i p /\ pixel d j i = Some c /\
      shown (extent_of l) 1 (fst (dims l)) (snd (dims l)) data temperature_agrees p c.
Proof. exact c84_temperature_proof. Qed.
Print Assumptions C84_temperature.
(** C84.  The same for the wind: the colour is that of the speed that the bytes of both components of one cell stand for, up to 3/4 knots. *)
Theorem C84_wind : forall chk m, libm_ok m -> libm_accurate m -> forall run steps filter read tr s l zoom x y,
  selected run steps filter read s l -> tile_number run zoom x y -> wind_render chk m false run steps filter read tr (Ok tt) ->
  regular (wl_zonal l) -> regular (wl_meridional l) -> (forall g, wl_gusts l = Some g -> regular g) ->
  dims (wl_zonal l) = dims (wl_meridional l) -> extent_of (wl_zonal l) = extent_of (wl_meridional l) ->
  Forall moderate (vg_values (wl_zonal l)) -> Forall moderate (vg_values (wl_meridional l)) -> covers chk m (extent_of (wl_zonal l)) zoom x y ->
  exists d data, (forall before, file_after (file_path run (st_nr s) (TileFile Wind10m zoom x y)) before tr = Some (Png d)) /\
    (forall before, file_after (file_path run (st_nr s) (BinFile BinWind)) before tr = Some (Data data)) /\
    forall j i, inside 256 256 j i -> exists p c, depicts zoom x y j i p /\ pixel d j i = Some c /\
      shown (extent_of (wl_zonal l)) 3 (fst (dims (wl_zonal l))) (snd (dims (wl_zonal l))) data wind_agrees p c.
Proof. exact c84_wind_proof. Qed.
Print Assumptions C84_wind.
(** C84.  The precipitation on the map is interpolated between the amounts that the bytes of the four cells around stand for, up to 1/100 mm, if no
    total is missing; its colour is laid over that of some cloud cover. *)
Theorem C84_rain : forall chk m, libm_ok m -> libm_accurate m -> forall run steps filter read tr s l we zoom x y,
  selected run steps filter read s (l, we) -> tile_number run zoom x y -> cloud_precip_render chk m false run steps filter read tr (Ok tt) ->
  regular (cp_cloud l) -> regular (cp_precip0 l) -> regular (cp_precip1 l) ->
  dims (cp_cloud l) = dims (cp_precip0 l) -> dims (cp_cloud l) = dims (cp_precip1 l) -> extent_of (cp_cloud l) = extent_of (cp_precip0 l) -> extent_of (cp_cloud l) = extent_of (cp_precip1 l) ->
  Forall (plain_total (cp_precip0 l)) (vg_values (cp_precip0 l)) -> Forall (plain_total (cp_precip1 l)) (vg_values (cp_precip1 l)) -> covers chk m (extent_of (cp_cloud l)) zoom x y ->
  exists d data, (forall before, file_after (file_path run (st_nr s) (TileFile CloudPrecip zoom x y)) before tr = Some (Png d)) /\
    (forall before, file_after (file_path run (st_nr s) (BinFile BinPrecip)) before tr = Some (Data data)) /\
    forall j i, inside 256 256 j i -> exists p c r rain v cloud, depicts zoom x y j i p /\ pixel d j i = Some c /\
      amount_shown (extent_of (cp_cloud l)) (fst (dims (cp_cloud l))) (snd (dims (cp_cloud l))) data p r /\
      class_of rain_legend r rain /\ shade cloud_legend v cloud /\ composed rain cloud c.
Proof. exact c84_rain_proof. Qed.
Print Assumptions C84_rain.

(** The tile 1/1/0 of step 7 and its data file, for a few values between 40 and 50 degrees north, 5 and 15 east. *)
Definition alpine_grid (vs : list Z) : fgrid := value_grid_new (map f32_of_Z vs) (f32_of_Z (-1)) 2 3 alps.
Lemma alpine_regular vs : length vs = 6%nat -> regular (alpine_grid vs).
Proof.
  destruct alps_values as (_ & G & _). intro L. eexists _, _, 2, 3, alps. split; [reflexivity|]. split; [exact G|]. split; [rewrite map_length, L; reflexivity|].
  apply Forall_map. apply Forall_forall. intros v _. apply f32_of_Z_valid.
Qed.
Lemma alpine_values (P : f32 -> Prop) vs : Forall (fun z => Z.abs z <= 1024) vs -> (forall v, fin v -> (Rabs (xr v) <= 1024)%R -> P v) -> Forall P (vg_values (alpine_grid vs)).
Proof.
  intros B H. apply Forall_map. revert B. apply Forall_impl. intros z B. destruct (fin_Z z ltac:(lia)) as [F E]. apply H; [exact F|]. rewrite E, <- abs_IZR. apply IZR_le. exact B.
Qed.
Definition always {L} (l : L) (s : fc_step) (o : outcome L) : Prop := o = Ok l.
Lemma step7_selected {L} (l : L) : selected sample_run (forecast_steps IconD2) [7] (always l) step7 l.
Proof.
  destruct sample_steps as [Nn Nd]. split; [exact sample_run_valid|]. split; [exact Nn|]. split; [exact Nd|]. split; [intros s a b E E'; unfold always in *; congruence|].
  split; [vm_compute; intuition|]. split; [right; left; reflexivity|reflexivity].
Qed.
Lemma step7_rendered k (l : k_data k) : In k (kinds true ideal) -> computable true ideal k sample_run l ->
  exists tr, k_render k false sample_run (forecast_steps IconD2) [7] (always l) tr (Ok tt).
Proof.
  intros K C. destruct sample_steps as [Nn Nd].
  destruct (C46_succeeds true ideal k K sample_run (forecast_steps IconD2) [7] (always l) sample_run_valid Nn) as [(tr & r & R) A].
  - intros s _. exists (Ok l). reflexivity.
  - intros s o _ _ ->. exists l. split; [reflexivity|exact C].
  - exists tr. rewrite <- (A tr r R). exact R.
Qed.
Lemma alps_addressable : tiles_addressable true ideal sample_run alps.
Proof. apply C64_addressable; [exact ideal_accurate|apply alps_values]. Qed.
Lemma alps_covered : covers true ideal alps 1 1 0.
Proof. destruct alps_values as (M & _ & Fb & Ib & Wb). apply (C64_coverage true ideal alps 1 1 0 bern ideal_accurate); try lia; assumption. Qed.
Lemma moderate_small v : fin v -> (Rabs (xr v) <= 1024)%R -> moderate v.
Proof. intros F B. split; [exact F|]. eapply Rle_trans; [exact B|]. apply IZR_le. vm_compute. discriminate. Qed.
Lemma step7_data k (l : k_data k) tr b data : In k (kinds true ideal) -> k_render k false sample_run (forecast_steps IconD2) [7] (always l) tr (Ok tt) -> In (b, Ok data) (k_bins k l) ->
  forall before, file_after (file_path sample_run 7 (BinFile b)) before tr = Some (Data data).
Proof.
  intros K R J. destruct (published_bin true ideal k sample_run 7 tr l b (Ok data)) as (data' & E & F); [|exact J|injection E as <-; exact F].
  exact (selected_rendered true ideal k K sample_run (forecast_steps IconD2) [7] (always l) tr step7 l (step7_selected l) R).
Qed.
Example C84_temperature_sample : let l := alpine_grid [250; 260; 270; -1; 290; 300] in
  exists tr d, temp_render true ideal false sample_run (forecast_steps IconD2) [7] (always l) tr (Ok tt) /\
    (forall before, file_after "./output/icon-d2/2024022903/007/temp/1/1/0.png" before tr = Some (Png d)) /\
    (forall before, file_after "./output/icon-d2/2024022903/007/temp/TEMP.meteobin" before tr = Some (Data [82; 102; 122; 255; 162; 182])) /\
    forall j i, inside 256 256 j i -> exists p c, depicts 1 1 0 j i p /\ pixel d j i = Some c /\ shown alps 1 2 3 [82; 102; 122; 255; 162; 182] temperature_agrees p c.
Proof.
  cbv zeta. set (l := alpine_grid [250; 260; 270; -1; 290; 300]). assert (K : In (temp_kind true ideal) (kinds true ideal)) by (right; right; left; reflexivity).
  destruct (step7_rendered (temp_kind true ideal) l K) as (tr & R); [apply (C46_temp_data true ideal sample_run l 2 3 alps_addressable eq_refl); [lia|lia|vm_compute; discriminate]|].
  destruct (C84_temperature true ideal ideal_ok ideal_accurate sample_run (forecast_steps IconD2) [7] (always l) tr step7 l 1 1 0) as (d & data & F & Fd & P).
  - apply step7_selected.
  - unfold tile_number. cbn. lia.
  - exact R.
  - apply alpine_regular. reflexivity.
  - apply alpine_values; [repeat constructor; cbn; lia|]. intros v Fv _. exact (fin_num v Fv).
  - exact alps_covered.
  - pose proof (step7_data (temp_kind true ideal) l tr BinTemp [82; 102; 122; 255; 162; 182] K R ltac:(vm_compute; left; reflexivity)) as F'.
    pose proof (eq_trans (eq_sym (F' None)) (Fd None)) as Q. injection Q as <-. exists tr, d. split; [exact R|]. split; [exact F|]. split; [exact F'|exact P].
Qed.
Example C84_wind_sample : let l := {| wl_zonal := alpine_grid [0; 3; 70; -1; -5; 6]; wl_meridional := alpine_grid [0; 4; 0; 2; 12; 8]; wl_gusts := None |} in
  let bytes := [128; 128; 255; 134; 136; 255; 254; 128; 255; 255; 255; 255; 118; 151; 255; 140; 144; 255] in
  exists tr d, wind_render true ideal false sample_run (forecast_steps IconD2) [7] (always l) tr (Ok tt) /\
    (forall before, file_after "./output/icon-d2/2024022903/007/wind/1/1/0.png" before tr = Some (Png d)) /\
    (forall before, file_after "./output/icon-d2/2024022903/007/wind/WIND.meteobin" before tr = Some (Data bytes)) /\
    forall j i, inside 256 256 j i -> exists p c, depicts 1 1 0 j i p /\ pixel d j i = Some c /\ shown alps 3 2 3 bytes wind_agrees p c.
Proof.
  cbv zeta. set (l := {| wl_zonal := alpine_grid [0; 3; 70; -1; -5; 6]; wl_meridional := alpine_grid [0; 4; 0; 2; 12; 8]; wl_gusts := None |}).
  assert (K : In (wind_kind true ideal) (kinds true ideal)) by (right; left; reflexivity).
  destruct (step7_rendered (wind_kind true ideal) l K) as (tr & R).
  { apply (C46_wind_data true ideal sample_run l 2 3 alps_addressable eq_refl); [lia|lia|vm_compute; discriminate|vm_compute; discriminate|discriminate]. }
  destruct (C84_wind true ideal ideal_ok ideal_accurate sample_run (forecast_steps IconD2) [7] (always l) tr step7 l 1 1 0) as (d & data & F & Fd & P).
  - apply step7_selected.
  - unfold tile_number. cbn. lia.
  - exact R.
  - apply alpine_regular. reflexivity.
  - apply alpine_regular. reflexivity.
  - discriminate.
  - reflexivity.
  - reflexivity.
  - apply alpine_values; [repeat constructor; cbn; lia|exact moderate_small].
  - apply alpine_values; [repeat constructor; cbn; lia|exact moderate_small].
  - exact alps_covered.
  - pose proof (step7_data (wind_kind true ideal) l tr BinWind [128; 128; 255; 134; 136; 255; 254; 128; 255; 255; 255; 255; 118; 151; 255; 140; 144; 255] K R ltac:(vm_compute; left; reflexivity)) as F'.
    pose proof (eq_trans (eq_sym (F' None)) (Fd None)) as Q. injection Q as <-. exists tr, d. split; [exact R|]. split; [exact F|]. split; [exact F'|exact P].
Qed.
Example C84_rain_sample : let l := {| cp_cloud := alpine_grid [0; 10; 20; 50; 80; 100]; cp_precip0 := alpine_grid [0; 0; 1; 2; 3; 4]; cp_precip1 := alpine_grid [0; 1; 1; 4; 13; 200] |} in
  let we := {| we_clct := alpine_grid [0; 10; 20; 50; 80; 100]; we_ceiling := alpine_grid [0; 0; 0; 0; 0; 0]; we_ww := None |} in
  exists tr d, cloud_precip_render true ideal false sample_run (forecast_steps IconD2) [7] (always (l, we)) tr (Ok tt) /\
    (forall before, file_after "./output/icon-d2/2024022903/007/clct_precip/1/1/0.png" before tr = Some (Png d)) /\
    (forall before, file_after "./output/icon-d2/2024022903/007/clct_precip/PRECIP.meteobin" before tr = Some (Data [0; 2; 0; 4; 20; 255])) /\
    forall j i, inside 256 256 j i -> exists p c r rain v cloud, depicts 1 1 0 j i p /\ pixel d j i = Some c /\ amount_shown alps 2 3 [0; 2; 0; 4; 20; 255] p r /\
      class_of rain_legend r rain /\ shade cloud_legend v cloud /\ composed rain cloud c.
Proof.
  cbv zeta. set (l := {| cp_cloud := alpine_grid [0; 10; 20; 50; 80; 100]; cp_precip0 := alpine_grid [0; 0; 1; 2; 3; 4]; cp_precip1 := alpine_grid [0; 1; 1; 4; 13; 200] |}).
  set (we := {| we_clct := alpine_grid [0; 10; 20; 50; 80; 100]; we_ceiling := alpine_grid [0; 0; 0; 0; 0; 0]; we_ww := None |}).
  assert (K : In (cloud_precip_kind true ideal) (kinds true ideal)) by (left; reflexivity).
  destruct (step7_rendered (cloud_precip_kind true ideal) (l, we) K) as (tr & R).
  { apply (C46_cloud_precip_data true ideal sample_run l we 2 3 alps_addressable eq_refl) with (w' := 2) (h' := 3); try lia; try reflexivity; try (match goal with |- complete _ => vm_compute; discriminate end). intros; discriminate. }
  assert (T : forall vs, length vs = 6%nat -> Forall (fun z => 0 <= z <= 1024) vs -> Forall (plain_total (alpine_grid vs)) (vg_values (alpine_grid vs))).
  { intros vs _ B. apply Forall_map. revert B. apply Forall_impl. intros z B. destruct (fin_Z z ltac:(lia)) as [Fz Ez]. destruct (fin_Z (-1) ltac:(lia)) as [F1 E1].
    split; [|split; [exact Fz|rewrite Ez, <- abs_IZR; apply IZR_le; lia]]. change (vg_missing (alpine_grid vs)) with (f32_of_Z (-1)).
    destruct (feq (f32_of_Z z) (f32_of_Z (-1))) eqn:Q; [exfalso|reflexivity]. destruct (fin_num _ Fz) as [V1 V2]. destruct (fin_num _ F1) as [V3 V4]. apply (feq_xr _ _ V1 V3 V2 V4) in Q. rewrite Ez, E1 in Q. apply eq_IZR in Q. lia. }
  destruct (C84_rain true ideal ideal_ok ideal_accurate sample_run (forecast_steps IconD2) [7] (always (l, we)) tr step7 l we 1 1 0) as (d & data & F & Fd & P).
  - apply step7_selected.
  - unfold tile_number. cbn. lia.
  - exact R.
  - apply alpine_regular. reflexivity.
  - apply alpine_regular. reflexivity.
  - apply alpine_regular. reflexivity.
  - reflexivity.
  - reflexivity.
  - reflexivity.
  - reflexivity.
  - apply T; [reflexivity|repeat constructor; lia].
  - apply T; [reflexivity|repeat constructor; lia].
  - exact alps_covered.
  - pose proof (step7_data (cloud_precip_kind true ideal) (l, we) tr BinPrecip [0; 2; 0; 4; 20; 255] K R ltac:(vm_compute; left; reflexivity)) as F'.
    pose proof (eq_trans (eq_sym (F' None)) (Fd None)) as Q. injection Q as <-. exists tr, d. split; [exact R|]. split; [exact F|]. split; [exact F'|exact P].
Qed.
(** Finding: a temperature that is not a number is the hottest one on the map and the coldest one in the file. *)
Example C84_not_a_number : temp_color S754_nan = lg_top temp_legend /\ temp_byte (Some S754_nan) = 0.
Proof. split; reflexivity. Qed.
