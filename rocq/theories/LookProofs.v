(** Proofs about what the map shows at a place (C98). *)
From Coquelicot Require Import Coquelicot.
From Coq Require Import Floats.SpecFloat.
From Coq Require Import ZArith Reals List Bool Lia Lra Psatz.
From Flocq Require Import Core.Core.
From Verif Require Import Base F32 F32Facts GeoModel GeoSpec GeoProofs ImagingModel ImagingSpec ImagingProofs Par TileModel TileSpec TileProofs MercatorProofs
  ChartModel ChartSpec ChartProofs ForecastModel ForecastSpec ForecastProofs FetchSpec MapSpec MapProofs LookSpec.
Import ListNotations.
Open Scope Z_scope.
Open Scope R_scope.

(** The latitude of the row of a latitude. *)
Lemma row_lat_row_at zoom la : (0 <= zoom)%Z -> Rabs la <= 851 / 10 -> row_lat zoom (row_at zoom la) = la.
Proof.
  intros Hz B. pose proof (radians_small la B) as Br. unfold row_lat, row_at. pose proof (pow2_pos zoom Hz) as P. pose proof pi_bounds as PB.
  set (r := radians la) in *. fold (sect r). set (n := IZR (2 ^ zoom)) in *. destruct (sect_bounds r ltac:(lra)) as ((S1 & S2) & _ & C1 & C2).
  replace (PI * (1 - 2 * (n * (1 - ln (sect r) / PI) / 2) / n)) with (ln (sect r)) by (field; lra).
  assert (C : 0 < cos r) by (apply cos_gt_0; apply Rabs_le_inv in Br; lra).
  assert (Q : sinh (ln (sect r)) = tan r).
  { unfold sinh. rewrite exp_Ropp, exp_ln by lra.
    assert (I : / sect r = (1 - sin r) / cos r). { apply Rmult_eq_reg_l with (sect r); [|lra]. rewrite Rinv_r by lra. symmetry. apply sect_inv. exact C. }
    rewrite I, sect_eq by lra. unfold tan. field. lra. }
  rewrite Q, atan_tan by (apply Rabs_le_inv in Br; lra). unfold r, degrees, radians. field. lra.
Qed.
Lemma row_lat_lipschitz zoom a b : (0 <= zoom)%Z -> Rabs (row_lat zoom a - row_lat zoom b) <= 360 / IZR (2 ^ zoom) * Rabs (a - b).
Proof.
  intro Hz. pose proof (pow2_pos zoom Hz) as P. pose proof pi_bounds as PB. rewrite !row_lat_gd. set (n := IZR (2 ^ zoom)) in *. unfold degrees.
  replace (gd (PI * (1 - 2 * a / n)) * 180 / PI - gd (PI * (1 - 2 * b / n)) * 180 / PI) with ((gd (PI * (1 - 2 * a / n)) - gd (PI * (1 - 2 * b / n))) * (180 / PI)) by (field; lra).
  rewrite Rabs_mult. assert (K : 0 < 180 / PI) by (apply Rdiv_lt_0_compat; lra). rewrite (Rabs_pos_eq (180 / PI)) by lra.
  pose proof (gd_lipschitz (PI * (1 - 2 * b / n)) (PI * (1 - 2 * a / n))) as L.
  replace (PI * (1 - 2 * a / n) - PI * (1 - 2 * b / n)) with (- (2 * PI / n) * (a - b)) in L by (field; lra).
  assert (K2 : 0 < 2 * PI / n) by (apply Rdiv_lt_0_compat; lra).
  rewrite Rabs_mult, Rabs_Ropp, (Rabs_pos_eq (2 * PI / n)) in L by lra.
  eapply Rle_trans; [apply Rmult_le_compat_r; [lra|exact L]|]. right. field. lra.
Qed.
Lemma depicts_close zoom x y j i p q : (0 <= zoom)%Z -> Rabs (xr (lat p)) <= 851 / 10 -> pixel_of zoom p x y j i -> depicts zoom x y j i q -> close_by zoom p q.
Proof.
  intros Hz B (_ & _ & _ & _ & [X1 X2] & [Y1 Y2]) (_ & Lo & La). pose proof (pow2_pos zoom Hz) as P.
  rewrite plus_IZR in X2, Y2. unfold close_by, off_lon, off_lat. split.
  - rewrite Lo. unfold column_lon in *.
    assert (E : (IZR x + (IZR j + 1) / 256) / IZR (2 ^ zoom) * 360 = (IZR x + IZR j / 256) / IZR (2 ^ zoom) * 360 + 360 / (256 * IZR (2 ^ zoom))) by (field; lra).
    rewrite E in X2. apply Rabs_le. lra.
  - pose proof (row_lat_row_at zoom (xr (lat p)) Hz B) as R. pose proof (row_lat_lipschitz zoom (IZR y + IZR i / 256) (row_at zoom (xr (lat p))) Hz) as L. rewrite R in L.
    assert (D : Rabs (IZR y + IZR i / 256 - row_at zoom (xr (lat p))) <= / 256) by (apply Rabs_le; lra).
    assert (K : 0 < 360 / IZR (2 ^ zoom)) by (apply Rdiv_lt_0_compat; lra).
    assert (L2 : Rabs (row_lat zoom (IZR y + IZR i / 256) - xr (lat p)) <= 360 / (256 * IZR (2 ^ zoom))).
    { eapply Rle_trans; [exact L|]. replace (360 / (256 * IZR (2 ^ zoom))) with (360 / IZR (2 ^ zoom) * / 256) by (field; lra). apply Rmult_le_compat_l; lra. }
    replace (xr (lat q) - xr (lat p)) with ((xr (lat q) - row_lat zoom (IZR y + IZR i / 256)) + (row_lat zoom (IZR y + IZR i / 256) - xr (lat p))) by ring.
    eapply Rle_trans; [apply Rabs_triang|]. lra.
Qed.
Lemma closest_point mn mx n v i : (1 <= n)%Z -> xr mn < xr mx -> closest mn mx n v i -> Rabs (point mn mx n i - xr v) <= (/ 2 + IZR n / 2097152) * spacing mn mx n.
Proof.
  intros Hn M [_ C]. unfold point, cells_from in *. assert (N : 1 <= IZR n) by (apply IZR_le; exact Hn).
  assert (S : 0 < spacing mn mx n) by (apply Rdiv_lt_0_compat; lra).
  replace (xr mn + IZR i * spacing mn mx n - xr v) with ((IZR i - IZR n * ((xr v - xr mn) / (xr mx - xr mn))) * spacing mn mx n) by (unfold spacing; field; lra).
  rewrite Rabs_mult, (Rabs_pos_eq (spacing mn mx n)) by lra. apply Rmult_le_compat_r; [lra|exact C].
Qed.
Lemma near_found g zoom p q o : regular g -> close_by zoom p q -> value_near g q o ->
  found_at (extent_of g) (fst (dims g)) (snd (dims g)) (cell_value g) zoom p o.
Proof.
  intros (vs & missing & w & h & e & -> & G & _ & _) C V.
  assert (Ex : extent_of (value_grid_new vs missing w h e) = e) by reflexivity. assert (Dm : dims (value_grid_new vs missing w h e) = (w, h)) by reflexivity.
  unfold value_near in V. rewrite Ex, Dm in *. cbn [fst snd] in *. destruct V as [[I ->]|(I & i & j & Ci & Cj & Ce)].
  - left. split; [reflexivity|]. exists q. auto.
  - right. exists i, j. destruct G as [(_ & _ & [W _] & [Bx _]) (_ & _ & [H _] & [By _])]. pose proof (bpow_gt_0 radix2 (-100)) as P0.
    split; [apply Ci|]. split; [apply Cj|]. split; [exact Ce|]. destruct C as [Cx Cy].
    assert (Mx : xr (lon (min_coord e)) < xr (lon (max_coord e))) by lra. assert (My : xr (lat (min_coord e)) < xr (lat (max_coord e))) by lra.
    pose proof (closest_point _ _ w _ i W Mx Ci) as Di. pose proof (closest_point _ _ h _ j H My Cj) as Dj.
    split.
    + replace (point _ _ w i - xr (lon p)) with ((point (lon (min_coord e)) (lon (max_coord e)) w i - xr (lon q)) + (xr (lon q) - xr (lon p))) by ring. eapply Rle_trans; [apply Rabs_triang|]. lra.
    + replace (point _ _ h j - xr (lat p)) with ((point (lat (min_coord e)) (lat (max_coord e)) h j - xr (lat q)) + (xr (lat q) - xr (lat p))) by ring. eapply Rle_trans; [apply Rabs_triang|]. lra.
Qed.
Open Scope Z_scope.
Lemma c98_pixel_proof : forall zoom p, 0 <= zoom -> (-180 <= xr (lon p) < 180)%R -> (0 <= row_at zoom (xr (lat p)) < IZR (2 ^ zoom))%R ->
  exists x y j i, pixel_of zoom p x y j i.
Proof.
  intros zoom p Hz Bl Br. pose proof (pow2_pos zoom Hz) as P. set (n := IZR (2 ^ zoom)) in *.
  assert (F : forall t : R, (0 <= t < n)%R -> exists q r, 0 <= q < 2 ^ zoom /\ 0 <= r < 256 /\ (IZR q + IZR r / 256 <= t < IZR q + IZR (r + 1) / 256)%R).
  { intros t B. set (k := Zfloor (256 * t)). pose proof (Zfloor_lb (256 * t)) as L. pose proof (Zfloor_ub (256 * t)) as U. fold k in L, U.
    assert (K0 : 0 <= k) by (apply le_IZR; apply Rle_trans with (IZR (Zfloor 0)); [rewrite (Zfloor_IZR 0); lra|apply IZR_le, Zfloor_le; lra]).
    assert (K1 : k < 256 * 2 ^ zoom) by (apply lt_IZR; rewrite mult_IZR; fold n; lra).
    exists (k / 256), (k mod 256). pose proof (Z.div_mod k 256 ltac:(lia)) as E. pose proof (Z.mod_pos_bound k 256 ltac:(lia)) as M.
    split; [lia|]. split; [exact M|]. rewrite plus_IZR. rewrite E, plus_IZR, mult_IZR in L, U. lra. }
  destruct (F ((xr (lon p) + 180) / 360 * n)%R) as (x & j & X & J & L1 & U1).
  { split; [apply Rmult_le_pos; lra|]. rewrite <- (Rmult_1_l n) at 2. apply Rmult_lt_compat_r; lra. }
  destruct (F _ Br) as (y & i & Y & I & R). exists x, y, j, i. split; [exact X|]. split; [exact Y|]. split; [exact J|]. split; [exact I|]. split; [|exact R].
  unfold column_lon. fold n. split.
  - assert ((IZR x + IZR j / 256) / n <= (xr (lon p) + 180) / 360)%R; [|lra]. apply Rmult_le_reg_r with n; [exact P|]. replace ((IZR x + IZR j / 256) / n * n)%R with (IZR x + IZR j / 256)%R by (field; lra). lra.
  - assert ((xr (lon p) + 180) / 360 < (IZR x + IZR (j + 1) / 256) / n)%R; [|lra]. apply Rmult_lt_reg_r with n; [exact P|]. replace ((IZR x + IZR (j + 1) / 256) / n * n)%R with (IZR x + IZR (j + 1) / 256)%R by (field; lra). lra.
Qed.

(** The tile of a place in the inside of the extent is among those rendered. *)
Lemma off_lon_min zoom : 0 <= zoom <= 8 -> (/ 1024 <= off_lon zoom /\ 0 < off_lat zoom)%R.
Proof.
  intro Hz. unfold off_lon, off_lat. pose proof (pow2_pos zoom ltac:(lia)) as P.
  assert (Q : (IZR (2 ^ zoom) <= 256)%R) by (apply IZR_le; change 256 with (2 ^ 8); apply Z.pow_le_mono_r; lia).
  assert (P4 : (0 < IZR (4 ^ zoom))%R) by (apply IZR_lt, Z.pow_pos_nonneg; lia).
  assert (E : (/ 1024 <= 360 / (256 * IZR (2 ^ zoom)))%R).
  { apply Rmult_le_reg_r with (256 * IZR (2 ^ zoom))%R; [lra|]. unfold Rdiv. rewrite Rmult_assoc, Rinv_l by lra. lra. }
  assert (0 < 283 / IZR (4 ^ zoom))%R by (apply Rdiv_lt_0_compat; lra). split; lra.
Qed.
Lemma row_apart zoom la la' : 0 <= zoom -> (- (851 / 10) <= la)%R -> (la + 9 / 400 <= la')%R -> (la' <= 851 / 10)%R ->
  (row_at zoom la' + IZR (2 ^ zoom) / 16384 <= row_at zoom la)%R.
Proof.
  intros Hz B1 L B2. pose proof (pow2_pos zoom Hz) as P. pose proof (row_at_mono zoom la la' Hz B1 ltac:(lra) B2) as M.
  pose proof (row_lat_lipschitz zoom (row_at zoom la) (row_at zoom la') Hz) as K.
  rewrite !row_lat_row_at in K by (try lia; apply Rabs_le; lra). rewrite (Rabs_left1 (la - la')), (Rabs_pos_eq (row_at zoom la - row_at zoom la')) in K by lra.
  set (n := IZR (2 ^ zoom)) in *. set (t := (row_at zoom la - row_at zoom la')%R) in *.
  assert (T : (9 / 400 * n <= 360 * t)%R).
  { replace (360 * t)%R with (360 / n * t * n)%R by (field; lra). apply Rmult_le_compat_r; lra. }
  unfold t in T. lra.
Qed.
Lemma inside_covers chk m e zoom x y j i p : libm_accurate m -> 0 <= zoom <= 8 -> on_map e -> pixel_of zoom p x y j i -> inside_by zoom e p -> covers chk m e zoom x y.
Proof.
  intros A Hz ([[Fa Fb] [Fc Fd]] & B1 & [B2 B3] & B4 & [B5 B6]) (Hx & Hy & Hj & Hi & [X1 X2] & [Y1 Y2]) [[Lo1 Lo2] [La1 La2]].
  destruct (off_lon_min zoom Hz) as [O1 O2]. pose proof (pow2_pos zoom ltac:(lia)) as P.
  set (pa := {| lat := lat (min_coord e); lon := lon (max_coord e) |}). set (pb := {| lat := lat (max_coord e); lon := lon (min_coord e) |}).
  destruct (c63_row_proof chk m pa zoom A ltac:(lia) Fa ltac:(apply Rabs_le; cbn [lat pa]; lra)) as (ta & Ea & Ra1 & Ra2).
  destruct (c63_row_proof chk m pb zoom A ltac:(lia) Fc ltac:(apply Rabs_le; cbn [lat pb]; lra)) as (tb & Eb & Rb1 & Rb2).
  assert (Jr : (0 <= IZR j)%R) by (apply IZR_le; lia). assert (Ir : (0 <= IZR i)%R) by (apply IZR_le; lia).
  assert (Jr' : (IZR (j + 1) <= 256)%R) by (apply IZR_le; lia). assert (Ir' : (IZR (i + 1) <= 256)%R) by (apply IZR_le; lia).
  assert (Mono : forall a b, (a <= b)%R -> (column_lon zoom a <= column_lon zoom b)%R).
  { intros a b L. unfold column_lon. assert (a / IZR (2 ^ zoom) <= b / IZR (2 ^ zoom))%R by (apply Rmult_le_compat_r; [left; apply Rinv_0_lt_compat; exact P|exact L]). lra. }
  assert (W1 : (column_lon zoom (IZR x) <= xr (lon p))%R) by (eapply Rle_trans; [|exact X1]; apply Mono; lra).
  assert (W2 : (xr (lon p) < column_lon zoom (IZR x + 1))%R) by (eapply Rlt_le_trans; [exact X2|]; apply Mono; lra).
  (* the western border of the tile *)
  destruct (column_deg_exact zoom x ltac:(lia) ltac:(lia)) as [Fw Ew].
  set (pw := {| lat := lat p; lon := column_deg zoom x |}).
  pose proof (column_lon_bounds zoom (IZR x) ltac:(lia) ltac:(split; apply IZR_le; lia)) as Bw.
  assert (Wide : (column_lon zoom (IZR x) <= column_lon zoom (IZR x + 1) - / 16384)%R).
  { unfold column_lon. assert (Q : (IZR (2 ^ zoom) <= 256)%R) by (apply IZR_le; change 256 with (2 ^ 8); apply Z.pow_le_mono_r; lia).
    replace ((IZR x + 1) / IZR (2 ^ zoom))%R with (IZR x / IZR (2 ^ zoom) + / IZR (2 ^ zoom))%R by (field; lra).
    assert (/ 256 <= / IZR (2 ^ zoom))%R by (apply Rinv_le_contravar; lra). lra. }
  destruct (c34_column_proof chk m pw zoom x ltac:(lia) Hx Fw ltac:(cbn [lon pw]; rewrite Ew; lra)) as (tw & Etw & Xw).
  destruct (c34_columns_proof chk m zoom pw pa ltac:(lia) Fw Fd ltac:(cbn [lon pw]; lra) ltac:(cbn [lon pw pa]; lra) ltac:(cbn [lon pa]; lra)) as (s1 & t1 & E1 & E2 & _ & C1 & _).
  rewrite Etw in E1. injection E1 as <-. rewrite Ea in E2. injection E2 as <-.
  assert (C2 : t_x tb <= x).
  { destruct (Rle_lt_dec (column_lon zoom (IZR x)) (xr (lon (min_coord e)))) as [G|G].
    - destruct (c34_column_proof chk m pb zoom x ltac:(lia) Hx Fb ltac:(cbn [lon pb]; lra)) as (t & Et & Xt). rewrite Eb in Et. injection Et as <-. lia.
    - destruct (c34_columns_proof chk m zoom pb pw ltac:(lia) Fb Fw ltac:(cbn [lon pb]; lra) ltac:(cbn [lon pb pw]; lra) ltac:(cbn [lon pw]; lra)) as (s & t & Es & Et & _ & C & _).
      rewrite Eb in Es. injection Es as <-. rewrite Etw in Et. injection Et as <-. lia. }
  exists ta, tb. split; [exact Ea|]. split; [exact Eb|]. split; [unfold between; lia|]. cbn [lat pa pb] in *.
  pose proof (row_apart zoom (xr (lat (min_coord e))) (xr (lat p)) ltac:(lia) B1 ltac:(lra) ltac:(lra)) as Ma.
  pose proof (row_apart zoom (xr (lat p)) (xr (lat (max_coord e))) ltac:(lia) ltac:(lra) ltac:(lra) B3) as Mb.
  assert (Q : (IZR (2 ^ zoom) <= 256)%R) by (apply IZR_le; change 256 with (2 ^ 8); apply Z.pow_le_mono_r; lia). set (n := IZR (2 ^ zoom)) in *.
  assert (y <= t_y ta). { assert (Z : (IZR y < IZR (t_y ta) + 1)%R) by lra. rewrite <- plus_IZR in Z. apply lt_IZR in Z. lia. }
  assert (t_y tb <= y).
  { assert (Z : (IZR (t_y tb) < IZR y + 1)%R). { assert (0 <= IZR y)%R by (apply IZR_le; lia). unfold Rmax in Rb1. destruct (Rle_dec 0 _); lra. } rewrite <- plus_IZR in Z. apply lt_IZR in Z. lia. }
  unfold between. lia.
Qed.
Lemma inside_shown e w h cell zoom p o : inside_by zoom e p -> found_at e w h cell zoom p o -> shown_at e w h cell zoom p o.
Proof.
  intros [Lo La] [(_ & q & [C1 C2] & N)|H]; [|exact H]. exfalso. apply N. apply Rabs_le_inv in C1. apply Rabs_le_inv in C2. unfold in_extent. lra.
Qed.
Lemma inside_lat zoom e p : 0 <= zoom <= 8 -> on_map e -> inside_by zoom e p -> (Rabs (xr (lat p)) <= 851 / 10)%R.
Proof. intros Hz (_ & B1 & B2 & _) [_ La]. destruct (off_lon_min zoom Hz). apply Rabs_le. lra. Qed.
Section Published.
  Context (chk : bool) (m : libm) (Om : libm_ok m) (Am : libm_accurate m).
  Lemma c98_temperature_proof : forall run steps filter read tr s l zoom x y j i p,
    selected run steps filter read s l -> temp_render chk m false run steps filter read tr (Ok tt) -> regular l ->
    0 <= zoom <= last_zoom (run_model run) -> (Rabs (xr (lat p)) <= 851 / 10)%R -> pixel_of zoom p x y j i -> covers chk m (extent_of l) zoom x y ->
    exists d o c, (forall before, file_after (file_path run (st_nr s) (TileFile Temp2m zoom x y)) before tr = Some (Png d)) /\
      pixel d j i = Some c /\ temperature_colour o c /\ found_at (extent_of l) (fst (dims l)) (snd (dims l)) (cell_value l) zoom p o.
  Proof.
    intros run steps filter read tr s l zoom x y j i p S R G Hz B Px C. pose proof Px as (Hx & Hy & Hj & Hi & _).
    destruct (c64_temperature_proof chk m Om Am run steps filter read tr s l zoom x y S ltac:(unfold tile_number; auto) R G C) as (d & F & _ & _ & P).
    destruct (P j i ltac:(split; assumption)) as (q & o & c & D & V & Pc & T). exists d, o, c. split; [exact F|]. split; [exact Pc|]. split; [exact T|].
    apply (near_found l zoom p q o G); [|exact V]. eapply depicts_close; try eassumption. lia.
  Qed.
  Lemma c98_wind_proof : forall run steps filter read tr s l zoom x y j i p,
    selected run steps filter read s l -> wind_render chk m false run steps filter read tr (Ok tt) -> regular (wl_zonal l) -> regular (wl_meridional l) ->
    0 <= zoom <= last_zoom (run_model run) -> (Rabs (xr (lat p)) <= 851 / 10)%R -> pixel_of zoom p x y j i -> covers chk m (extent_of (wl_zonal l)) zoom x y ->
    exists d u v c, (forall before, file_after (file_path run (st_nr s) (TileFile Wind10m zoom x y)) before tr = Some (Png d)) /\
      pixel d j i = Some c /\ wind_colour u v c /\
      found_at (extent_of (wl_zonal l)) (fst (dims (wl_zonal l))) (snd (dims (wl_zonal l))) (cell_value (wl_zonal l)) zoom p u /\
      found_at (extent_of (wl_meridional l)) (fst (dims (wl_meridional l))) (snd (dims (wl_meridional l))) (cell_value (wl_meridional l)) zoom p v.
  Proof.
    intros run steps filter read tr s l zoom x y j i p S R G G' Hz B Px C. pose proof Px as (Hx & Hy & Hj & Hi & _).
    destruct (c64_wind_proof chk m Om Am run steps filter read tr s l zoom x y S ltac:(unfold tile_number; auto) R G G' C) as (d & F & _ & _ & P).
    destruct (P j i ltac:(split; assumption)) as (q & u & v & c & D & V & V' & Pc & T). exists d, u, v, c. split; [exact F|]. split; [exact Pc|]. split; [exact T|].
    assert (K : close_by zoom p q) by (eapply depicts_close; try eassumption; lia). split; eapply near_found; eassumption.
  Qed.
  Lemma c98_rain_proof : forall run steps filter read tr s l we zoom x y j i p,
    selected run steps filter read s (l, we) -> cloud_precip_render chk m false run steps filter read tr (Ok tt) ->
    regular (cp_cloud l) -> regular (cp_precip0 l) -> regular (cp_precip1 l) ->
    0 <= zoom <= last_zoom (run_model run) -> (Rabs (xr (lat p)) <= 851 / 10)%R -> pixel_of zoom p x y j i -> covers chk m (extent_of (cp_cloud l)) zoom x y ->
    exists d q cover before now c, (forall before, file_after (file_path run (st_nr s) (TileFile CloudPrecip zoom x y)) before tr = Some (Png d)) /\
      close_by zoom p q /\ pixel d j i = Some c /\ rain_colour cover before now c /\
      value_between (cp_cloud l) q cover /\ value_between (cp_precip0 l) q before /\ value_between (cp_precip1 l) q now.
  Proof.
    intros run steps filter read tr s l we zoom x y j i p S R G G0 G1 Hz B Px C. pose proof Px as (Hx & Hy & Hj & Hi & _).
    destruct (c64_rain_proof chk m Om Am run steps filter read tr s l we zoom x y S ltac:(unfold tile_number; auto) R G G0 G1 C) as (d & F & _ & _ & P).
    destruct (P j i ltac:(split; assumption)) as (q & cv & b & n & c & D & V & V0 & V1 & Pc & T). exists d, q, cv, b, n, c. split; [exact F|].
    split; [eapply depicts_close; try eassumption; lia|]. auto.
  Qed.
  Lemma c98_inside_temperature_proof : forall run steps filter read tr s l zoom x y j i p,
    selected run steps filter read s l -> temp_render chk m false run steps filter read tr (Ok tt) -> regular l -> on_map (extent_of l) ->
    0 <= zoom <= last_zoom (run_model run) -> pixel_of zoom p x y j i -> inside_by zoom (extent_of l) p ->
    exists d o c, (forall before, file_after (file_path run (st_nr s) (TileFile Temp2m zoom x y)) before tr = Some (Png d)) /\
      pixel d j i = Some c /\ temperature_colour o c /\ shown_at (extent_of l) (fst (dims l)) (snd (dims l)) (cell_value l) zoom p o.
  Proof.
    intros run steps filter read tr s l zoom x y j i p S R G M Hz Px N. pose proof (last_zoom_le (run_model run)) as Z8.
    destruct (c98_temperature_proof run steps filter read tr s l zoom x y j i p S R G Hz (inside_lat zoom _ p ltac:(lia) M N) Px
      (inside_covers chk m _ zoom x y j i p Am ltac:(lia) M Px N)) as (d & o & c & F & P & T & Q).
    exists d, o, c. split; [exact F|]. split; [exact P|]. split; [exact T|]. apply inside_shown; assumption.
  Qed.
  Lemma c98_inside_wind_proof : forall run steps filter read tr s l zoom x y j i p,
    selected run steps filter read s l -> wind_render chk m false run steps filter read tr (Ok tt) -> regular (wl_zonal l) -> regular (wl_meridional l) -> on_map (extent_of (wl_zonal l)) ->
    0 <= zoom <= last_zoom (run_model run) -> pixel_of zoom p x y j i -> inside_by zoom (extent_of (wl_zonal l)) p -> inside_by zoom (extent_of (wl_meridional l)) p ->
    exists d u v c, (forall before, file_after (file_path run (st_nr s) (TileFile Wind10m zoom x y)) before tr = Some (Png d)) /\
      pixel d j i = Some c /\ wind_colour u v c /\
      shown_at (extent_of (wl_zonal l)) (fst (dims (wl_zonal l))) (snd (dims (wl_zonal l))) (cell_value (wl_zonal l)) zoom p u /\
      shown_at (extent_of (wl_meridional l)) (fst (dims (wl_meridional l))) (snd (dims (wl_meridional l))) (cell_value (wl_meridional l)) zoom p v.
  Proof.
    intros run steps filter read tr s l zoom x y j i p S R G G' M Hz Px N N'. pose proof (last_zoom_le (run_model run)) as Z8.
    destruct (c98_wind_proof run steps filter read tr s l zoom x y j i p S R G G' Hz (inside_lat zoom _ p ltac:(lia) M N) Px
      (inside_covers chk m _ zoom x y j i p Am ltac:(lia) M Px N)) as (d & u & v & c & F & P & T & Q & Q').
    exists d, u, v, c. split; [exact F|]. split; [exact P|]. split; [exact T|]. split; apply inside_shown; assumption.
  Qed.
  Lemma c98_inside_rain_proof : forall run steps filter read tr s l we zoom x y j i p,
    selected run steps filter read s (l, we) -> cloud_precip_render chk m false run steps filter read tr (Ok tt) ->
    regular (cp_cloud l) -> regular (cp_precip0 l) -> regular (cp_precip1 l) -> on_map (extent_of (cp_cloud l)) ->
    0 <= zoom <= last_zoom (run_model run) -> pixel_of zoom p x y j i -> inside_by zoom (extent_of (cp_cloud l)) p ->
    exists d q cover before now c, (forall before, file_after (file_path run (st_nr s) (TileFile CloudPrecip zoom x y)) before tr = Some (Png d)) /\
      close_by zoom p q /\ in_extent (extent_of (cp_cloud l)) q /\ pixel d j i = Some c /\ rain_colour cover before now c /\
      value_between (cp_cloud l) q cover /\ value_between (cp_precip0 l) q before /\ value_between (cp_precip1 l) q now.
  Proof.
    intros run steps filter read tr s l we zoom x y j i p S R G G0 G1 M Hz Px N. pose proof (last_zoom_le (run_model run)) as Z8.
    destruct (c98_rain_proof run steps filter read tr s l we zoom x y j i p S R G G0 G1 Hz (inside_lat zoom _ p ltac:(lia) M N) Px
      (inside_covers chk m _ zoom x y j i p Am ltac:(lia) M Px N)) as (d & q & cv & b & n & c & F & C & K).
    exists d, q, cv, b, n, c. split; [exact F|]. split; [exact C|]. split; [|exact K].
    destruct N as [Lo La]. destruct C as [C1 C2]. apply Rabs_le_inv in C1. apply Rabs_le_inv in C2. unfold in_extent. lra.
  Qed.
End Published.
