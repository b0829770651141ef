(** Proofs about the order of the rows and columns of the map (C97). *)
From Coquelicot Require Import Coquelicot.
From Coq Require Import Floats.SpecFloat.
From Coq Require Import ZArith Reals List Bool Lia Lra Psatz.
From Flocq Require Import Core.Core IEEE754.BinarySingleNaN.
From Verif Require Import Base F32 F32Facts GeoModel GeoSpec GeoProofs GeoValueProofs GeoRegridProofs ImagingModel ImagingSpec ImagingProofs Par TileModel TileSpec TileProofs MercatorProofs
  ChartModel ChartSpec ChartProofs ForecastModel ForecastSpec ForecastProofs FetchSpec MapSpec MapProofs ZoomSpec ZoomProofs NorthSpec.
Import ListNotations.
Open Scope Z_scope.

(** The latitude of a row of pixels, with an error relative to the height of the tile. *)
Lemma lat_fine m zoom x y j i : libm_ok m -> libm_accurate m -> 0 <= zoom <= 10 -> 0 <= y < 2 ^ zoom -> 0 <= i < 256 ->
  let D := (xr (row_deg m zoom y) - xr (row_deg m zoom (y + 1)))%R in
  (97 / 10000 <= D <= 180)%R /\ fin (lat (pixel_pos m zoom x y j i)) /\
  (Rabs (xr (lat (pixel_pos m zoom x y j i)) - (xr (row_deg m zoom y) - IZR i / 256 * D)) <= D / 5000000 + 55 / 10000000)%R.
Proof.
  intros O A Hz Hy Hi D. destruct (row_deg_near m zoom y A ltac:(lia) ltac:(lia)) as [F0 E0]. destruct (row_deg_near m zoom (y + 1) A ltac:(lia) ltac:(lia)) as [F1 E1].
  pose proof (row_lat_down zoom y Hz Hy) as L. apply Rabs_le_inv in E0, E1.
  destruct (row_order m zoom y (y + 1) O ltac:(lia) ltac:(lia) ltac:(lia)) as (_ & _ & B1 & B2 & B3).
  unfold pixel_pos, lat_lon_new. cbn [lat]. set (a := row_deg m zoom (y + 1)) in *. set (b := row_deg m zoom y) in *.
  assert (BD : (97 / 10000 <= D <= 180)%R) by (unfold D; lra). split; [exact BD|].
  assert (T : (MercatorProofs.tiny = / 1000000000000)%R) by reflexivity.
  destruct (fin_Z 256 ltac:(lia)) as [F2 E2]. destruct (fin_Z i ltac:(lia)) as [Fi Ei]. assert (Bi : (0 <= IZR i <= 255)%R) by (split; apply IZR_le; lia).
  destruct (op_near _ _ D (fin_sub a b F1 F0) ltac:(apply Rabs_le; unfold D; lra) ltac:(lra)) as [Fs Es]. apply Rabs_le_inv in Es. rewrite T in Es.
  set (s := fsub a b) in *.
  pose proof (fin_div _ _ Fs F2 ltac:(rewrite E2; lra)) as R. rewrite E2 in R.
  destruct (op_near _ _ (D / 255) R ltac:(apply Rabs_le; unfold D in *; lra) ltac:(lra)) as [Fd Ed]. apply Rabs_le_inv in Ed. rewrite T in Ed. set (inc := fdiv s (f32_of_Z 256)) in *.
  assert (Q : (- (D / 255 / 8388608 + / 100000000000) <= xr inc + D / 256 <= D / 255 / 8388608 + / 100000000000)%R) by (unfold D in *; lra).
  clear Es Ed R.
  set (e := (xr inc + D / 256)%R) in *. assert (Ee : xr inc = (e - D / 256)%R) by (unfold e; ring). clearbody e.
  assert (P : (- (D / 8388608 + 3 / 1000000000) <= IZR i * e <= D / 8388608 + 3 / 1000000000)%R).
  { split; nra. }
  pose proof (fin_mul _ _ Fi Fd) as R. rewrite Ei, Ee in R. replace (IZR i * (e - D / 256))%R with (IZR i * e - IZR i / 256 * D)%R in R by field.
  assert (C : (0 <= IZR i / 256 * D <= D)%R) by (split; nra). set (t := (IZR i / 256 * D)%R) in *. set (ie := (IZR i * e)%R) in *. clearbody t ie.
  destruct (op_near _ _ (101 / 100 * D) R ltac:(apply Rabs_le; lra) ltac:(lra)) as [Fm Em]. apply Rabs_le_inv in Em. rewrite T in Em. set (mm := fmul (f32_of_Z i) inc) in *.
  destruct (op_near _ _ (901 / 10) (fin_add b mm F0 Fm) ltac:(apply Rabs_le; unfold D in *; lra) ltac:(lra)) as [Fa Ea]. apply Rabs_le_inv in Ea. rewrite T in Ea.
  rewrite normalize_id by (try exact Fa; unfold D in *; lra). split; [exact Fa|]. apply Rabs_le. unfold D in *. lra.
Qed.

(** The latitudes of rows and the longitudes of columns. *)
Definition lat_of (m : libm) (zoom b : Z) : f32 := lat (pixel_pos m zoom 0 (b / 256) 0 (b mod 256)).
Definition lon_of (m : libm) (zoom a : Z) : f32 := lon (pixel_pos m zoom (a / 256) 0 (a mod 256) 0).
Lemma split_256 k q r : k = 256 * q + r -> 0 <= r < 256 -> k / 256 = q /\ k mod 256 = r.
Proof. intros E B. split; symmetry; [eapply Z.div_unique_pos|eapply Z.mod_unique_pos]; eassumption. Qed.
Lemma place_of m zoom x y j i : 0 <= j < 256 -> 0 <= i < 256 ->
  pixel_pos m zoom x y j i = {| lat := lat_of m zoom (256 * y + i); lon := lon_of m zoom (256 * x + j) |}.
Proof.
  intros Hj Hi. unfold lat_of, lon_of. destruct (split_256 _ y i eq_refl Hi) as [-> ->]. destruct (split_256 _ x j eq_refl Hj) as [-> ->]. reflexivity.
Qed.
Lemma lat_next m zoom b : libm_ok m -> libm_accurate m -> 0 <= zoom <= 10 -> 0 <= b -> b + 1 < 256 * 2 ^ zoom -> (xr (lat_of m zoom (b + 1)) < xr (lat_of m zoom b))%R.
Proof.
  intros O A Hz Hb Hb'. pose proof (Z.div_mod b 256 ltac:(lia)) as E. pose proof (Z.mod_pos_bound b 256 ltac:(lia)) as R. unfold lat_of.
  set (y := b / 256) in *. set (i := b mod 256) in *. assert (Hy : 0 <= y < 2 ^ zoom) by lia.
  destruct (lat_fine m zoom 0 y 0 i O A Hz Hy R) as (BD & _ & N). cbv zeta in N, BD. apply Rabs_le_inv in N.
  destruct (Z.eq_dec i 255) as [I|I].
  - destruct (split_256 (b + 1) (y + 1) 0 ltac:(lia) ltac:(lia)) as [-> ->].
    destruct (lat_fine m zoom 0 (y + 1) 0 0 O A Hz ltac:(lia) ltac:(lia)) as (BD' & F' & N'). cbv zeta in N', BD'.
    destruct (row_inc m zoom (y + 1) O A Hz ltac:(lia)) as [F0 Z0].
    assert (E' : lat (pixel_pos m zoom 0 (y + 1) 0 0) = row_deg m zoom (y + 1)).
    { unfold pixel_pos, lat_lon_new. cbn [lat]. rewrite Z0, add_minus_zero by assumption.
      apply normalize_id; [exact F0|]. destruct (row_order m zoom (y + 1) (y + 1 + 1) O ltac:(lia) ltac:(lia) ltac:(lia)) as (_ & _ & B1 & B2 & B3). lra. }
    rewrite E'. rewrite I in *. lra.
  - destruct (split_256 (b + 1) y (i + 1) ltac:(lia) ltac:(lia)) as [-> ->].
    destruct (lat_fine m zoom 0 y 0 (i + 1) O A Hz Hy ltac:(lia)) as (_ & _ & N'). cbv zeta in N'. apply Rabs_le_inv in N'. rewrite plus_IZR in N'. lra.
Qed.
Lemma c97_order_proof m : libm_ok m -> libm_accurate m -> north_up (lat_of m) (lon_of m).
Proof.
  intros O A zoom Hz. assert (P : 0 < 2 ^ zoom) by (apply Z.pow_pos_nonneg; lia).
  assert (S : forall b, 0 <= b < 256 * 2 ^ zoom -> b = 256 * (b / 256) + b mod 256 /\ 0 <= b / 256 < 2 ^ zoom /\ 0 <= b mod 256 < 256).
  { intros b B. pose proof (Z.div_mod b 256 ltac:(lia)). pose proof (Z.mod_pos_bound b 256 ltac:(lia)). lia. }
  split; [|split].
  - intros b B. destruct (S b B) as (_ & Hq & Hr). split; [apply (lat_fine m zoom 0 (b / 256) 0 (b mod 256) O A Hz Hq Hr)|apply (pixel_lon m zoom (b / 256) 0 (b mod 256) 0 Hz Hq Hr)].
  - intros b b' Hb H Hb'. replace b' with (b + 1 + Z.of_nat (Z.to_nat (b' - b - 1))) in * by lia. clear H. induction (Z.to_nat (b' - b - 1)) as [|n IH].
    + rewrite Z.add_0_r in *. apply lat_next; assumption.
    + eapply Rlt_trans; [|apply IH; lia]. replace (b + 1 + Z.of_nat (Datatypes.S n)) with (b + 1 + Z.of_nat n + 1) in * by lia. apply lat_next; try assumption; lia.
  - intros a a' Ha H Ha'. unfold lon_of. destruct (S a ltac:(lia)) as (E & Hq & Hr). destruct (S a' ltac:(lia)) as (E' & Hq' & Hr').
    destruct (pixel_lon m zoom (a / 256) 0 (a mod 256) 0 Hz Hq Hr) as [_ L]. destruct (pixel_lon m zoom (a' / 256) 0 (a' mod 256) 0 Hz Hq' Hr') as [_ L'].
    rewrite L, L'. unfold column_lon. assert (K : forall k, (IZR (k / 256) + IZR (k mod 256) / 256 = IZR (256 * (k / 256) + k mod 256) / 256)%R) by (intro k; rewrite plus_IZR, mult_IZR; field).
    rewrite !K, <- E, <- E'. pose proof (pow2_pos zoom ltac:(lia)) as Q. assert (Lt : (IZR a < IZR a')%R) by (apply IZR_lt; exact H).
    assert (I : (0 < / IZR (2 ^ zoom))%R) by (apply Rinv_0_lt_compat; exact Q).
    assert (IZR a / 256 * / IZR (2 ^ zoom) < IZR a' / 256 * / IZR (2 ^ zoom))%R by (apply Rmult_lt_compat_r; lra). unfold Rdiv in *. lra.
Qed.
Lemma c97_drawn_proof m : forall chk T (value : lat_lon -> outcome (option T)) color_fn zoom x y d, libm_ok m -> libm_accurate m ->
  0 <= zoom <= 10 -> 0 <= x < 2 ^ zoom -> 0 <= y < 2 ^ zoom ->
  create_single_tile chk m value color_fn {| t_x := x; t_y := y; t_zoom := zoom |} = Ok d ->
  forall j i, inside 256 256 j i -> exists c, colour_at value color_fn {| lat := lat_of m zoom (256 * y + i); lon := lon_of m zoom (256 * x + j) |} = Ok c /\ pixel d j i = Some c.
Proof.
  intros chk T value color_fn zoom x y d O A Hz Hx Hy E j i I. assert (B : 2 ^ zoom <= 2 ^ 10) by (apply Z.pow_le_mono_r; lia). change (2 ^ 10) with 1024 in B.
  pose proof (single_tile_spec chk m value color_fn zoom x y ltac:(lia) ltac:(lia) ltac:(lia)) as S. rewrite E in S. destruct S as (_ & _ & _ & P).
  rewrite <- place_of by apply I. apply P. exact I.
Qed.

(** Cells in order. *)
Definition near_cell (mn mx : f32) (n : Z) (v : f32) : Z := Zround (xr (axis_coord mn mx n v)).
Definition row_of (g : fgrid) (m : libm) (zoom b : Z) : Z :=
  near_cell (lat (min_coord (extent_of g))) (lat (max_coord (extent_of g))) (snd (dims g)) (lat_of m zoom b).
Definition col_of (g : fgrid) (m : libm) (zoom a : Z) : Z :=
  near_cell (lon (min_coord (extent_of g))) (lon (max_coord (extent_of g))) (fst (dims g)) (lon_of m zoom a).
Lemma near_cells g m zoom a b : regular g -> libm_ok m -> libm_accurate m -> 0 <= zoom <= 10 -> 0 <= a < 256 * 2 ^ zoom -> 0 <= b < 256 * 2 ^ zoom ->
  exists o, value_by_lat_lon f32_type g {| lat := lat_of m zoom b; lon := lon_of m zoom a |} = Ok o /\
    shows (extent_of g) (fst (dims g)) (snd (dims g)) (cell_value g) (lat_of m) (lon_of m) (row_of g m) (col_of g m) zoom a b o.
Proof.
  intros Rg O A Hz Ha Hb. destruct (c97_order_proof m O A zoom Hz) as (Fn & _ & _).
  set (p := {| lat := lat_of m zoom b; lon := lon_of m zoom a |}). assert (F : fin_coord p) by (split; [apply (Fn b Hb)|apply (Fn a Ha)]).
  unfold shows, row_of, col_of. cbv zeta. fold p. change (lat_of m zoom b) with (lat p). change (lon_of m zoom a) with (lon p). clearbody p. clear Fn.
  destruct Rg as (vs & missing & w & h & e & -> & G & L & _).
  assert (FE : fin_extent e) by (destruct G as [(A1 & B & _) (C & D & _)]; repeat split; assumption || apply A1 || apply B || apply C || apply D).
  pose proof (c15_defined_proof w h e p FE F) as D.
  destruct (xy_by_lat_lon (grid_new w h e) p) as [[x y]|] eqn:X.
  - destruct (xy_range w h e p x y G F X) as (Fx & Fy & Rx & Ry).
    assert (Hw : 1 <= w <= 2 ^ 24) by apply G. assert (Hh : 1 <= h <= 2 ^ 24) by apply G.
    destruct (cell_of x w Fx Hw Rx) as (_ & _ & A' & _ & _ & A0 & _). destruct (cell_of y h Fy Hh Ry) as (_ & _ & B' & _ & _ & B0 & _).
    destruct (stored_spec (value_grid_new vs missing w h e) (Zround (xr x)) (Zround (xr y)) A0 B0 L) as (o & Eo & So).
    exists o. split.
    { unfold value_by_lat_lon. cbn [vg_grid value_grid_new]. rewrite X, A', B'. exact Eo. }
    right. split; [apply D; discriminate|]. destruct (c15_accuracy_proof w h e p x y G F X) as [Ax Ay].
    replace (bpow radix2 (-21)) with (/ 2097152)%R in Ax, Ay by (cbn; lra).
    assert (Ex : axis_coord (lon (min_coord e)) (lon (max_coord e)) w (lon p) = x /\ axis_coord (lat (min_coord e)) (lat (max_coord e)) h (lat p) = y).
    { unfold xy_by_lat_lon in X. cbn [grid_new g_extent g_lon_inc g_lat_inc] in X. destruct (negb _); [discriminate|]. injection X as <- <-. split; reflexivity. }
    destruct Ex as [Ex Ey]. unfold near_cell, extent_of, dims, value_grid_new, vg_grid, grid_new, g_extent, g_w, g_h, fst, snd. rewrite Ex, Ey.
    pose proof (Zround_nearest (xr x)) as Bi. pose proof (Zround_nearest (xr y)) as Bj.
    split; [|split; [|exact So]]; (split; [assumption|]); unfold cells_from.
    + eapply Rle_trans; [|apply (Rplus_le_compat _ _ _ _ Bi Ax)]. eapply Rle_trans; [|apply Rabs_triang]. right. f_equal. lra.
    + eapply Rle_trans; [|apply (Rplus_le_compat _ _ _ _ Bj Ay)]. eapply Rle_trans; [|apply Rabs_triang]. right. f_equal. lra.
  - exists None. split; [unfold value_by_lat_lon; cbn [vg_grid value_grid_new]; rewrite X; reflexivity|].
    left. split; [|reflexivity]. intro K. apply D in K. contradiction.
Qed.
Lemma order_cells g m : regular g -> libm_ok m -> libm_accurate m -> in_order (extent_of g) (lat_of m) (lon_of m) (row_of g m) (col_of g m).
Proof.
  intros (vs & missing & w & h & e & -> & (Gx & Gy) & _ & _) O A zoom Hz. destruct (c97_order_proof m O A zoom Hz) as (Fn & Lat & Lon).
  unfold row_of, col_of, extent_of, dims, value_grid_new, vg_grid, grid_new, g_extent, g_w, g_h, fst, snd.
  destruct Gx as (X1 & X2 & X3 & X4). destruct Gy as (Y1 & Y2 & Y3 & Y4).
  split; [intros b b' [B I] [B' I'] H|intros b b' [B I] [B' I'] H]; apply Zround_le; apply axis_coord_mono; try assumption; try apply (Fn b B); try apply (Fn b' B'); try lra.
  - destruct (Z.eq_dec b b') as [->|N]; [lra|]. left. apply Lat; lia.
  - destruct (Z.eq_dec b b') as [->|N]; [lra|]. left. apply Lon; lia.
Qed.

(** Published tiles. *)
Lemma px zoom q r : 0 <= q < 2 ^ zoom -> 0 <= r < 256 -> 0 <= 256 * q + r < 256 * 2 ^ zoom.
Proof. lia. Qed.
Section Published.
  Context (chk : bool) (m : libm) (Om : libm_ok m) (Am : libm_accurate m).
  Lemma c97_temperature_proof : exists lat_of lon_of, north_up lat_of lon_of /\
    forall run steps filter read tr s l, selected run steps filter read s l -> temp_render chk m false run steps filter read tr (Ok tt) -> regular l ->
    exists row col, in_order (extent_of l) lat_of lon_of row col /\
    forall zoom x y, tile_number run zoom x y -> covers chk m (extent_of l) zoom x y ->
    exists d, (forall before, file_after (file_path run (st_nr s) (TileFile Temp2m zoom x y)) before tr = Some (Png d)) /\
      forall j i, inside 256 256 j i -> exists o c,
        shows (extent_of l) (fst (dims l)) (snd (dims l)) (cell_value l) lat_of lon_of row col zoom (256 * x + j) (256 * y + i) o /\
        pixel d j i = Some c /\ temperature_colour o c.
  Proof.
    exists (lat_of m), (lon_of m). split; [exact (c97_order_proof m Om Am)|]. intros run steps filter read tr s l S R G.
    exists (row_of l m), (col_of l m). split; [exact (order_cells l m G Om Am)|]. intros zoom x y (Hz & Hx & Hy) C.
    pose proof (last_zoom_le (run_model run)) as Z8. pose proof (selected_rendered chk m (temp_kind chk m) ltac:(right; right; left; reflexivity) _ _ _ _ _ _ _ S R) as RD.
    destruct (published chk m (temp_kind chk m) run (st_nr s) tr _ _ _ zoom x y RD eq_refl Hz C) as (d & Ed & F). exists d. split; [exact F|]. intros j i I.
    destruct (c97_drawn_proof m chk _ _ _ zoom x y d Om Am ltac:(lia) Hx Hy Ed j i I) as (c & Ca & Px).
    destruct (near_cells l m zoom (256 * x + j) (256 * y + i) G Om Am ltac:(lia) (px _ _ _ Hx (proj1 I)) (px _ _ _ Hy (proj2 I))) as (o & Eo & Vo).
    exists o, c. split; [exact Vo|]. split; [exact Px|]. unfold colour_at, temp_by_lat_lon in Ca. rewrite Eo in Ca. cbn [obind] in Ca.
    destruct o as [k|]; injection Ca as <-; [|reflexivity]. apply temp_shade.
    destruct Vo as [[_ Q]|(_ & _ & _ & Q)]; [discriminate|]. eapply stored_valid; eassumption.
  Qed.
  Lemma c97_wind_proof : exists lat_of lon_of, north_up lat_of lon_of /\
    forall run steps filter read tr s l, selected run steps filter read s l -> wind_render chk m false run steps filter read tr (Ok tt) ->
    regular (wl_zonal l) -> regular (wl_meridional l) ->
    exists row col row' col', in_order (extent_of (wl_zonal l)) lat_of lon_of row col /\ in_order (extent_of (wl_meridional l)) lat_of lon_of row' col' /\
    forall zoom x y, tile_number run zoom x y -> covers chk m (extent_of (wl_zonal l)) zoom x y ->
    exists d, (forall before, file_after (file_path run (st_nr s) (TileFile Wind10m zoom x y)) before tr = Some (Png d)) /\
      forall j i, inside 256 256 j i -> exists u v c,
        shows (extent_of (wl_zonal l)) (fst (dims (wl_zonal l))) (snd (dims (wl_zonal l))) (cell_value (wl_zonal l)) lat_of lon_of row col zoom (256 * x + j) (256 * y + i) u /\
        shows (extent_of (wl_meridional l)) (fst (dims (wl_meridional l))) (snd (dims (wl_meridional l))) (cell_value (wl_meridional l)) lat_of lon_of row' col' zoom (256 * x + j) (256 * y + i) v /\
        pixel d j i = Some c /\ wind_colour u v c.
  Proof.
    exists (lat_of m), (lon_of m). split; [exact (c97_order_proof m Om Am)|]. intros run steps filter read tr s l S R Gu Gv.
    exists (row_of (wl_zonal l) m), (col_of (wl_zonal l) m), (row_of (wl_meridional l) m), (col_of (wl_meridional l) m).
    split; [exact (order_cells _ m Gu Om Am)|]. split; [exact (order_cells _ m Gv Om Am)|]. intros zoom x y (Hz & Hx & Hy) C.
    pose proof (last_zoom_le (run_model run)) as Z8. pose proof (selected_rendered chk m (wind_kind chk m) ltac:(right; left; reflexivity) _ _ _ _ _ _ _ S R) as RD.
    destruct (published chk m (wind_kind chk m) run (st_nr s) tr _ _ _ zoom x y RD eq_refl Hz C) as (d & Ed & F). exists d. split; [exact F|]. intros j i I.
    destruct (c97_drawn_proof m chk _ _ _ zoom x y d Om Am ltac:(lia) Hx Hy Ed j i I) as (c & Ca & Px).
    destruct (near_cells (wl_zonal l) m zoom (256 * x + j) (256 * y + i) Gu Om Am ltac:(lia) (px _ _ _ Hx (proj1 I)) (px _ _ _ Hy (proj2 I))) as (e & Ee & Ve).
    destruct (near_cells (wl_meridional l) m zoom (256 * x + j) (256 * y + i) Gv Om Am ltac:(lia) (px _ _ _ Hx (proj1 I)) (px _ _ _ Hy (proj2 I))) as (n & En & Vn).
    exists e, n, c. split; [exact Ve|]. split; [exact Vn|]. split; [exact Px|].
    unfold colour_at, wind_tot_by_lat_lon, wind_e_n_by_lat_lon, wind_e_n in Ca. rewrite Ee, En in Ca. cbn [obind omap] in Ca.
    destruct e as [e|]; [destruct n as [n|]|]; cbn [option_map fst snd] in Ca; injection Ca as <-; try reflexivity.
    cbn [wind_colour].
    assert (V1 : f32_valid e) by (destruct Ve as [[_ Q]|(_ & _ & _ & Q)]; [discriminate|exact (stored_valid _ _ _ _ Gu Q)]).
    assert (V2 : f32_valid n) by (destruct Vn as [[_ Q]|(_ & _ & _ & Q)]; [discriminate|exact (stored_valid _ _ _ _ Gv Q)]).
    exists (wind_speed e n). split.
    - apply wind_shade. apply fsqrt_valid, fadd_valid; apply fmul_valid; assumption.
    - intros [Fe Be] [Fn Bn]. exact (c39_speed_proof e n Fe Fn Be Bn).
  Qed.
  Lemma c97_rain_proof : exists lat_of lon_of, north_up lat_of lon_of /\
    forall run steps filter read tr s l we, selected run steps filter read s (l, we) -> cloud_precip_render chk m false run steps filter read tr (Ok tt) ->
    regular (cp_cloud l) -> regular (cp_precip0 l) -> regular (cp_precip1 l) ->
    forall zoom x y, tile_number run zoom x y -> covers chk m (extent_of (cp_cloud l)) zoom x y ->
    exists d, (forall before, file_after (file_path run (st_nr s) (TileFile CloudPrecip zoom x y)) before tr = Some (Png d)) /\
      forall j i, inside 256 256 j i -> let p := {| lat := lat_of zoom (256 * y + i); lon := lon_of zoom (256 * x + j) |} in
        exists cover before now c, value_between (cp_cloud l) p cover /\ value_between (cp_precip0 l) p before /\ value_between (cp_precip1 l) p now /\
          pixel d j i = Some c /\ rain_colour cover before now c.
  Proof.
    exists (lat_of m), (lon_of m). split; [exact (c97_order_proof m Om Am)|]. intros run steps filter read tr s l we S R Gc G0 G1 zoom x y (Hz & Hx & Hy) C.
    pose proof (last_zoom_le (run_model run)) as Z8. pose proof (selected_rendered chk m (cloud_precip_kind chk m) ltac:(left; reflexivity) _ _ _ _ _ _ _ S R) as RD.
    destruct (published chk m (cloud_precip_kind chk m) run (st_nr s) tr _ _ _ zoom x y RD eq_refl Hz C) as (d & Ed & F). exists d. split; [exact F|]. intros j i I p.
    destruct (c97_drawn_proof m chk _ _ _ zoom x y d Om Am ltac:(lia) Hx Hy Ed j i I) as (c & Ca & Px). fold p in Ca.
    assert (D : fin_coord p). { destruct (c97_order_proof m Om Am zoom ltac:(lia)) as (Fn & _ & _). split; [apply (Fn _ (px _ _ _ Hy (proj2 I)))|apply (Fn _ (px _ _ _ Hx (proj1 I)))]. }
    destruct (value_between_spec _ p Gc D) as (cc & Ec & Bc). destruct (value_between_spec _ p G0 D) as (c0 & E0 & B0). destruct (value_between_spec _ p G1 D) as (c1 & E1 & B1).
    exists cc, c0, c1, c. split; [exact Bc|]. split; [exact B0|]. split; [exact B1|]. split; [exact Px|].
    unfold colour_at, cloud_and_precip_by_lat_lon, cloud_and_precip in Ca. cbn [fst] in Ca. rewrite Ec, E0, E1 in Ca. cbn [obind] in Ca.
    change (unwrap_or cc fzero) with (or_zero cc) in Ca. change (unwrap_or c0 fzero) with (or_zero c0) in Ca. change (unwrap_or c1 fzero) with (or_zero c1) in Ca.
    assert (V1 : f32_valid (or_zero cc)) by (apply or_zero_valid; intros v ->; eapply interpolate_valid; [exact Gc|apply D|exact Ec]).
    assert (V2 : f32_valid (fsub (or_zero c1) (or_zero c0))).
    { apply fsub_valid; apply or_zero_valid; intros v ->; eapply interpolate_valid; [exact G1|apply D|exact E1|exact G0|apply D|exact E0]. }
    destruct (c35_proof chk _ _ _ _ V1 V2 (rain_shade _ V2) (cloud_shade _ V1)) as (c' & Ec' & Co'). rewrite Ec' in Ca. injection Ca as <-.
    exists (rain_color (fsub (or_zero c1) (or_zero c0))), (cloud_color (or_zero cc)). split; [apply rain_shade; exact V2|]. split; [apply cloud_shade; exact V1|exact Co'].
  Qed.
End Published.
