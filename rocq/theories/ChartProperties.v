(** The properties C35-C39, about charts and layers. *)
From Coq Require Import ZArith Reals List Bool Lia Lra.
From Coq Require Import Floats.SpecFloat.
From Verif Require Import Base F32 F32Facts GeoModel GeoSpec GeoProofs GeoValueProofs ImagingModel ImagingSpec TileModel PhysicsModel
  ChartModel ChartSpec ChartProofs LibmProofs WindProofs.
Import ListNotations.
Open Scope Z_scope.

(** ** C35: composition of cloud and precipitation colours *)

(** C35.  For every cloud cover and every precipitation, in every build profile, the colour is the
    composition of the two legends' colours; in particular no channel overflows. *)
Theorem C35_composition : forall chk cover precip rain cloud, f32_valid cover -> f32_valid precip ->
  shade rain_legend precip rain -> shade cloud_legend cover cloud ->
  exists c, cloud_precip_color chk (cover, precip) = Ok c /\ composed rain cloud c.
Proof. exact c35_proof. Qed.
Print Assumptions C35_composition.
(** 3 mm of rain under half cover: dark green over white. *)
Example C35_sample : cloud_precip_color true (f32_lit 1 2, f32_of_Z 3) = Ok (rgba 47 142 47 238).
Proof. vm_compute. reflexivity. Qed.
Example C35_sample_classes : shade rain_legend (f32_of_Z 3) (rgba 0 127 0 191) /\ shade cloud_legend (f32_lit 1 2) (rgba 255 255 255 191).
Proof.
  split; [apply (rain_shade (f32_of_Z 3)), f32_of_Z_valid|]. change (rgba 255 255 255 191) with (cloud_color (f32_lit 1 2)). apply cloud_shade, f32_lit_valid.
Qed.

(** ** C36: colour scales *)

(** C36.  Every float, NaN and infinities included, has exactly one colour in each legend, and that
    is the one drawn. *)
Theorem C36_rain : forall v c, f32_valid v -> (shade rain_legend v c <-> c = rain_color v).
Proof. intros v c V. split; [intro H; exact (shade_unique _ _ _ _ H (rain_shade v V))|intros ->; exact (rain_shade v V)]. Qed.
Print Assumptions C36_rain.
Theorem C36_cloud : forall v c, f32_valid v -> (shade cloud_legend v c <-> c = cloud_color v).
Proof. intros v c V. split; [intro H; exact (shade_unique _ _ _ _ H (cloud_shade v V))|intros ->; exact (cloud_shade v V)]. Qed.
Print Assumptions C36_cloud.
Theorem C36_wind : forall v c, f32_valid v -> (shade wind_legend v c <-> c = wind_color v).
Proof. intros v c V. split; [intro H; exact (shade_unique _ _ _ _ H (wind_shade v V))|intros ->; exact (wind_shade v V)]. Qed.
Print Assumptions C36_wind.
(** C36.  The class of a temperature is that of the exact difference between the Kelvin temperature
    and the float nearest to 273.15. *)
Theorem C36_temperature : forall k, f32_valid k ->
  if fis_nan k then temp_color k = lg_top temp_legend else class_of temp_legend (celsius k) (temp_color k).
Proof. exact temp_shade. Qed.
Print Assumptions C36_temperature.
Theorem C36_class_unique : forall lg r c c', class_of lg r c -> class_of lg r c' -> c = c'.
Proof. exact class_unique. Qed.
Print Assumptions C36_class_unique.
(** C36.  More cloud is never less opaque. *)
Theorem C36_cloud_monotone : forall v w, num v -> num w -> (xr v <= xr w)%R -> c_a (cloud_color v) <= c_a (cloud_color w).
Proof. exact cloud_opacity_mono_proof. Qed.
Print Assumptions C36_cloud_monotone.
(** The limits belong to the upper class; 20 degrees Celsius is the first yellow-orange. *)
Example C36_limits : rain_color (f32_of_Z 10) = rgba 255 191 0 191 /\ temp_color (fadd (f32_lit 27315 100) (f32_of_Z 20)) = rgba 255 204 0 127 /\
  wind_color (fmul (f32_of_Z 30) KNOTS_TO_MPS) = rgba 163 73 164 255 /\ c_a (cloud_color (f32_lit 9 10)) = 255.
Proof. vm_compute. auto. Qed.
(** Finding: NaN is drawn with the colour of the highest class. *)
Example C36_nan : rain_color fnan = rgba 163 73 164 191 /\ temp_color fnan = rgba 255 255 255 127 /\ wind_color fnan = rgba 0 0 255 255.
Proof. vm_compute. auto. Qed.

(** ** C37: full charts *)

(** C37.  The chart has one pixel for each cell, row 0 of the grid at the bottom, with the colour of
    the cell; it fails only if a value or a colour does. *)
Theorem C37_render : forall T chk w h (value : Z -> Z -> outcome (option T)) color_fn, size_ok w h ->
  match render_chart chk w h value color_fn with
  | Ok d => charted d w h value color_fn
  | Err e => exists x y, inside w h x y /\ cell_colour value color_fn x y = Err e
  | Panic => exists x y, inside w h x y /\ cell_colour value color_fn x y = Panic
  end.
Proof. exact c37_render_proof. Qed.
Print Assumptions C37_render.
Theorem C37_empty : forall T chk w h (value : Z -> Z -> outcome (option T)) color_fn, w = 0 \/ h = 0 ->
  render_chart chk w h value color_fn = Err EInvalid.
Proof. exact c37_empty_proof. Qed.
Print Assumptions C37_empty.
(** C37.  The charts of layers with complete grids always succeed. *)
Theorem C37_cloud_precip : forall chk l w h, dims (cp_cloud l) = (w, h) -> size_ok w h ->
  complete (cp_cloud l) -> complete (cp_precip0 l) -> complete (cp_precip1 l) ->
  exists d, cloud_precip_chart chk l = Ok d /\ charted d w h (cloud_and_precip_by_xy l) (cloud_precip_color chk).
Proof. exact c37_cloud_precip_proof. Qed.
Print Assumptions C37_cloud_precip.
Theorem C37_temp : forall chk l w h, dims l = (w, h) -> size_ok w h -> complete l ->
  exists d, temp_chart chk l = Ok d /\ charted d w h (temp_by_xy l) (fun v => Ok (temp_color v)).
Proof. exact c37_temp_proof. Qed.
Print Assumptions C37_temp.
Theorem C37_wind : forall chk l w h, dims (wl_zonal l) = (w, h) -> size_ok w h -> complete (wl_zonal l) -> complete (wl_meridional l) ->
  exists d, wind_chart chk l = Ok d /\ charted d w h (wind_tot_by_xy l) (fun v => Ok (wind_color v)).
Proof. exact c37_wind_proof. Qed.
Print Assumptions C37_wind.

Definition box : extent :=
  {| min_coord := {| lat := f32_of_Z 40; lon := f32_of_Z 5 |}; max_coord := {| lat := f32_of_Z 50; lon := f32_of_Z 15 |} |}.
Definition box2 : extent :=
  {| min_coord := {| lat := f32_of_Z 40; lon := f32_of_Z 6 |}; max_coord := {| lat := f32_of_Z 50; lon := f32_of_Z 15 |} |}.
(** A grid of 2 x 3 cells; -1 is missing. *)
Definition cells (e : extent) (vs : list Z) : fgrid := value_grid_new (map f32_of_Z vs) (f32_of_Z (-1)) 2 3 e.
Definition warm : temp_layer := cells box [250; 260; 270; -1; 290; 300].
(** The coldest cell (0,0) is at the bottom left, the missing cell (1,1) is transparent. *)
Example C37_sample :
  omap (fun d => (pixel d 0 2, pixel d 1 1, pixel d 1 0)) (temp_chart true warm)
  = Ok (Some (rgba 255 66 255 127), Some COLOR_TRANSPARENT, Some (rgba 255 51 0 127)).
Proof. vm_compute. reflexivity. Qed.
Example C37_sample_complete : complete warm /\ dims warm = (2, 3) /\ size_ok 2 3.
Proof. unfold size_ok. split; [vm_compute; discriminate|]. repeat split; lia || reflexivity. Qed.

(** ** C38: layers refuse grids that do not match *)

(** C38.  A layer is made of the grids given, in their roles, iff they have the same dimensions and extent;
    otherwise an error is returned. *)
Theorem C38_cloud_precip : forall cloud p0 p1, valid_grid cloud -> valid_grid p0 -> valid_grid p1 ->
  (same_grid cloud p0 /\ same_grid p0 p1 /\ cloud_precip_new cloud p0 p1 = Ok {| cp_cloud := cloud; cp_precip0 := p0; cp_precip1 := p1 |}) \/
  (~ (same_grid cloud p0 /\ same_grid p0 p1) /\ cloud_precip_new cloud p0 p1 = Err EInvalid).
Proof. exact c38_cloud_precip_proof. Qed.
Print Assumptions C38_cloud_precip.
Theorem C38_wind : forall u v gusts, valid_grid u -> valid_grid v -> (forall g, gusts = Some g -> valid_grid g) ->
  (same_grid u v /\ (forall g, gusts = Some g -> same_grid g u) /\ wind_new u v gusts = Ok {| wl_zonal := u; wl_meridional := v; wl_gusts := gusts |}) \/
  (~ (same_grid u v /\ forall g, gusts = Some g -> same_grid g u) /\ wind_new u v gusts = Err EInvalid).
Proof. exact c38_wind_proof. Qed.
Print Assumptions C38_wind.
(** C38.  The weather layer: the weather grid is not compared with the others. *)
Theorem C38_weather : forall clct ceiling ww, valid_grid clct -> valid_grid ceiling ->
  (same_grid clct ceiling /\ weather_new clct ceiling ww = Ok {| we_clct := clct; we_ceiling := ceiling; we_ww := ww |}) \/
  (~ same_grid clct ceiling /\ weather_new clct ceiling ww = Err EInvalid).
Proof. exact c38_weather_proof. Qed.
Print Assumptions C38_weather.
(** C38.  The vertical layers panic unless there are as many grids of each kind, and at least one;
    neither the dimensions nor the extents are compared. *)
Theorem C38_vertical_cloud : forall hhl clc,
  (hhl <> [] /\ length hhl = length clc /\ vertical_cloud_new hhl clc = Ok {| vc_hhl := hhl; vc_clc := clc |}) \/
  (~ (hhl <> [] /\ length hhl = length clc) /\ vertical_cloud_new hhl clc = Panic).
Proof. exact c38_vertical_cloud_proof. Qed.
Print Assumptions C38_vertical_cloud.
Theorem C38_vertical_wind : forall hhl u v,
  (hhl <> [] /\ length hhl = length u /\ length hhl = length v /\ vertical_wind_new hhl u v = Ok {| vw_hhl := hhl; vw_u := u; vw_v := v |}) \/
  (~ (hhl <> [] /\ length hhl = length u /\ length hhl = length v) /\ vertical_wind_new hhl u v = Panic).
Proof. exact c38_vertical_wind_proof. Qed.
Print Assumptions C38_vertical_wind.

Definition a6 : fgrid := cells box [1; 2; 3; 4; 5; 6].
Definition b6 : fgrid := cells box2 [1; 2; 3; 4; 5; 6].
Definition is_ok {A} (o : outcome A) : bool := match o with Ok _ => true | _ => false end.
Example C38_sample : is_ok (cloud_precip_new a6 a6 a6) = true /\ is_ok (cloud_precip_new a6 a6 b6) = false /\
  is_ok (wind_new a6 a6 (Some b6)) = false /\ is_ok (wind_new a6 b6 None) = false /\ is_ok (weather_new a6 b6 None) = false.
Proof. vm_compute. auto. Qed.
(** Finding: a weather grid over another extent is accepted, and its cell (1,2) is reported for the
    layer's cell (1,2), which lies elsewhere. *)
Example C38_weather_unchecked : obind (weather_new a6 a6 (Some (cells box2 [0; 1; 2; 3; 45; 95]))) (fun l => ww_by_xy l 1 2) = Ok (Some ThunderstormSlightOrModerate).
Proof. vm_compute. reflexivity. Qed.

(** ** C39: values of layers *)

(** C39.  Cloud cover and precipitation of a cell: a missing value counts as zero. *)
Theorem C39_precip_cell : forall cloud p0 p1 l x y c a b, cloud_precip_new cloud p0 p1 = Ok l ->
  value_by_xy f32_type cloud x y = Ok c -> value_by_xy f32_type p0 x y = Ok a -> value_by_xy f32_type p1 x y = Ok b ->
  cloud_and_precip_by_xy l x y = Ok (Some (or_zero c, fsub (or_zero b) (or_zero a))).
Proof. intros cloud p0 p1 l x y c a b. exact (c39_precip_proof cloud p0 p1 l (fun g => value_by_xy f32_type g x y) c a b). Qed.
Print Assumptions C39_precip_cell.
(** C39.  Likewise at a position, with interpolated values. *)
Theorem C39_precip_position : forall cloud p0 p1 l p c a b, cloud_precip_new cloud p0 p1 = Ok l ->
  interpolate f32_type cloud p = Ok c -> interpolate f32_type p0 p = Ok a -> interpolate f32_type p1 p = Ok b ->
  cloud_and_precip_by_lat_lon l p = Ok (Some (or_zero c, fsub (or_zero b) (or_zero a))).
Proof. intros cloud p0 p1 l p c a b. exact (c39_precip_proof cloud p0 p1 l (fun g => interpolate f32_type g p) c a b). Qed.
Print Assumptions C39_precip_position.
(** C39.  The wind vector is present iff both components are. *)
Theorem C39_wind_cell : forall u v gs l x y e n, wind_new u v gs = Ok l ->
  (wind_e_n_by_xy l x y = Ok (Some (e, n)) <-> value_by_xy f32_type u x y = Ok (Some e) /\ value_by_xy f32_type v x y = Ok (Some n)) /\
  (wind_e_n_by_xy l x y = Ok None <-> exists a b, value_by_xy f32_type u x y = Ok a /\ value_by_xy f32_type v x y = Ok b /\ (a = None \/ b = None)).
Proof. intros u v gs l x y e n. exact (c39_vector_proof u v gs l (fun g => value_by_xy f32_type g x y) e n). Qed.
Print Assumptions C39_wind_cell.
Theorem C39_wind_position : forall u v gs l p e n, wind_new u v gs = Ok l ->
  (wind_e_n_by_lat_lon l p = Ok (Some (e, n)) <-> value_by_lat_lon f32_type u p = Ok (Some e) /\ value_by_lat_lon f32_type v p = Ok (Some n)) /\
  (wind_e_n_by_lat_lon l p = Ok None <-> exists a b, value_by_lat_lon f32_type u p = Ok a /\ value_by_lat_lon f32_type v p = Ok b /\ (a = None \/ b = None)).
Proof. intros u v gs l p e n. exact (c39_vector_proof u v gs l (fun g => value_by_lat_lon f32_type g p) e n). Qed.
Print Assumptions C39_wind_position.
(** C39.  Gusts do not depend on the wind vector. *)
Theorem C39_gusts : forall u v gs l x y p, wind_new u v gs = Ok l ->
  gusts_by_xy l x y = match gs with Some g => value_by_xy f32_type g x y | None => Ok None end /\
  gusts_by_lat_lon l p = match gs with Some g => value_by_lat_lon f32_type g p | None => Ok None end.
Proof. intros u v gs l x y p N. split; [exact (c39_gusts_proof u v gs l (fun g => value_by_xy f32_type g x y) N)|exact (c39_gusts_proof u v gs l (fun g => value_by_lat_lon f32_type g p) N)]. Qed.
Print Assumptions C39_gusts.
(** C39.  The speed is present iff the vector is, and is its length, up to rounding; it is never negative. *)
Theorem C39_speed_cell : forall l x y, wind_tot_by_xy l x y = match wind_e_n_by_xy l x y with
  | Ok (Some (e, n)) => Ok (Some (wind_speed e n)) | Ok None => Ok None | Err er => Err er | Panic => Panic end.
Proof. intros l x y. unfold wind_tot_by_xy. destruct (wind_e_n_by_xy l x y) as [[[e n]|]|er|]; reflexivity. Qed.
Print Assumptions C39_speed_cell.
Theorem C39_speed_position : forall l p, wind_tot_by_lat_lon l p = match wind_e_n_by_lat_lon l p with
  | Ok (Some (e, n)) => Ok (Some (wind_speed e n)) | Ok None => Ok None | Err er => Err er | Panic => Panic end.
Proof. intros l p. unfold wind_tot_by_lat_lon. destruct (wind_e_n_by_lat_lon l p) as [[[e n]|]|er|]; reflexivity. Qed.
Print Assumptions C39_speed_position.
Theorem C39_speed_nonneg : forall e n, f32_valid e -> f32_valid n -> flt (wind_speed e n) fzero = false.
Proof. exact c39_nonneg_proof. Qed.
Print Assumptions C39_speed_nonneg.
Theorem C39_speed_accurate : forall e n, fin e -> fin n -> (Rabs (xr e) <= IZR (2 ^ 60))%R -> (Rabs (xr n) <= IZR (2 ^ 60))%R ->
  fin (wind_speed e n) /\ (0 <= xr (wind_speed e n))%R /\
  (Rabs (xr (wind_speed e n) - sqrt (xr e * xr e + xr n * xr n)) <= / IZR (2 ^ 21) * sqrt (xr e * xr e + xr n * xr n) + / IZR (2 ^ 73))%R.
Proof. exact c39_speed_proof. Qed.
Print Assumptions C39_speed_accurate.
(** C39.  The direction is the angle of the vector, in degrees, counted from east towards north (not the direction the wind
    comes from), up to 1/8192 degree; it comes with the speed. *)
Theorem C39_direction : forall atan2 u v gs l x y e n, atan2_accurate atan2 -> wind_new u v gs = Ok l ->
  value_by_xy f32_type u x y = Ok (Some e) -> value_by_xy f32_type v x y = Ok (Some n) -> fin e -> fin n -> (xr e <> 0 \/ xr n <> 0)%R ->
  exists d a, wind_speed_dir_by_xy atan2 l x y = Ok (Some (wind_speed e n, d)) /\
    fin d /\ angle_of (xr e) (xr n) a /\ (Rabs (xr d - a * 180 / PI) <= / 8192)%R.
Proof. exact c39_direction_proof. Qed.
Print Assumptions C39_direction.
Definition wind_sample : outcome wind_layer := wind_new (cells box [3; -1; 0; 0; 0; 8]) (cells box [-4; 1; 0; 0; 0; 6]) None.
Example C39_sample :
  obind wind_sample (fun l => obind (wind_tot_by_xy l 0 0) (fun a => obind (wind_tot_by_xy l 1 0) (fun b => obind (wind_tot_by_xy l 1 2) (fun c => Ok (a, b, c)))))
  = Ok (Some (f32_of_Z 5), None, Some (f32_of_Z 10)).
Proof. vm_compute. reflexivity. Qed.
(** A library that rounds correctly meets the assumption, and the vector (8, 6) of the sample has a direction. *)
Example C39_direction_sample : exists l d a, wind_sample = Ok l /\ wind_speed_dir_by_xy ideal_atan2 l 1 2 = Ok (Some (f32_of_Z 10, d)) /\
  angle_of 8 6 a /\ (Rabs (xr d - a * 180 / PI) <= / 8192)%R.
Proof.
  destruct (fin_Z 8 ltac:(lia)) as [F8 E8]. destruct (fin_Z 6 ltac:(lia)) as [F6 E6].
  destruct wind_sample as [l|?|] eqn:W; [|vm_compute in W; discriminate|vm_compute in W; discriminate].
  destruct (C39_direction ideal_atan2 _ _ _ l 1 2 (f32_of_Z 8) (f32_of_Z 6) ideal_atan2_accurate W) as (d & a & A & _ & An & B);
    [vm_compute; reflexivity|vm_compute; reflexivity|exact F8|exact F6|left; rewrite E8; lra|].
  exists l, d, a. split; [reflexivity|]. rewrite E8, E6 in An. split; [|split; [exact An|exact B]].
  rewrite A. replace (wind_speed (f32_of_Z 8) (f32_of_Z 6)) with (f32_of_Z 10) by (vm_compute; reflexivity). reflexivity.
Qed.
(** Finding: a missing precipitation total counts as 0, so the difference of a missing and a present
    total of 4 mm is shown as -4 mm (no rain), and a missing cloud cover as a clear sky. *)
Example C39_missing_is_zero : obind (cloud_precip_new (cells box [-1; 0; 0; 0; 0; 0]) (cells box [4; 0; 0; 0; 0; 0]) (cells box [-1; 0; 0; 0; 0; 0]))
  (fun l => cloud_and_precip_by_xy l 0 0) = Ok (Some (fzero, f32_of_Z (-4))).
Proof. vm_compute. reflexivity. Qed.
(** Finding: the missing value -1.0 of the readers is also a legitimate wind component of -1 m/s; such
    a cell has no wind. *)
Example C39_minus_one : obind (wind_new (cells box [-1; 0; 0; 0; 0; 0]) (cells box [5; 0; 0; 0; 0; 0]) None) (fun l => wind_e_n_by_xy l 0 0) = Ok None.
Proof. vm_compute. reflexivity. Qed.
