(** Proofs about the zoom levels of the map (C96). *)
From Coquelicot Require Import Coquelicot.
From Coq Require Import Floats.SpecFloat.
From Coq Require Import ZArith Reals List Bool Lia Lra Psatz.
From Flocq Require Import Core.Core IEEE754.BinarySingleNaN.
From Verif Require Import Base F32 F32Facts GeoModel GeoSpec GeoProofs ImagingModel ImagingSpec ImagingProofs Par TileModel TileSpec TileProofs MercatorProofs
  ChartModel ChartSpec ForecastModel ForecastSpec ForecastProofs FetchSpec MapSpec MapProofs ZoomSpec.
Import ListNotations.
Open Scope Z_scope.

Lemma xr_inj a b : fin a -> fin b -> xr a = xr b -> xr a <> 0%R -> a = b.
Proof.
  intros [Va Fa] [Vb Fb] E N.
  rewrite <- (B2SF_SF2B 24 128 a Va), <- (B2SF_SF2B 24 128 b Vb). f_equal.
  assert (Xa : xr a = SF2R radix2 a) by (destruct a; try discriminate; reflexivity).
  assert (Xb : xr b = SF2R radix2 b) by (destruct b; try discriminate; reflexivity).
  apply B2R_inj.
  - rewrite is_finite_strict_SF2B. destruct a; try discriminate; [|reflexivity]. exfalso. apply N. reflexivity.
  - rewrite is_finite_strict_SF2B. destruct b; try discriminate; [|reflexivity]. exfalso. apply N. rewrite E. reflexivity.
  - rewrite !B2R_SF2B, <- Xa, <- Xb. exact E.
Qed.
Lemma positive_form a : fin a -> (0 < xr a)%R -> exists m e, a = S754_finite false m e.
Proof.
  intros [_ F] P. destruct a as [s| | |[] m e]; try discriminate; [cbn in P; lra| |eauto].
  exfalso. assert (xr (S754_finite true m e) < 0)%R; [|lra]. cbn. apply F2R_lt_0. reflexivity.
Qed.
Lemma negative_form a : fin a -> (xr a < 0)%R -> exists m e, a = S754_finite true m e.
Proof.
  intros [_ F] P. destruct a as [s| | |[] m e]; try discriminate; [cbn in P; lra|eauto|].
  exfalso. assert (0 < xr (S754_finite false m e))%R; [|lra]. cbn. apply F2R_gt_0. reflexivity.
Qed.
(** Adding minus zero changes nothing. *)
Lemma add_minus_zero a : fin a -> fadd a (S754_zero true) = a.
Proof. intros [_ F]. destruct a as [[]| | |]; try discriminate; reflexivity. Qed.

(** The same row at a deeper zoom level. *)
Lemma frac_same zoom k y : 0 <= zoom -> 0 <= k -> zoom + k <= 18 -> 0 <= y <= 2 ^ zoom ->
  fdiv (fmul (f32_of_Z 2) (f32_of_Z (2 ^ k * y))) (f32_of_Z (2 ^ (zoom + k))) = fdiv (fmul (f32_of_Z 2) (f32_of_Z y)) (f32_of_Z (2 ^ zoom)).
Proof.
  intros Hz Hk Hs Hy. pose proof (pow2_le zoom 18 ltac:(lia)) as B. change (2 ^ 18) with 262144 in B.
  pose proof (pow2_le (zoom + k) 18 ltac:(lia)) as B'. change (2 ^ 18) with 262144 in B'. pose proof (pow2_pos zoom ltac:(lia)) as P. pose proof (pow2_pos (zoom + k) ltac:(lia)) as P'.
  assert (Pk : 2 ^ (zoom + k) = 2 ^ zoom * 2 ^ k) by (apply Z.pow_add_r; lia). pose proof (pow2_le k 18 ltac:(lia)) as Bk.
  destruct (fin_Z 2 ltac:(lia)) as [F2 E2].
  assert (D : forall n z, 0 <= z <= 18 -> 0 <= n <= 2 ^ z -> fin (fdiv (fmul (f32_of_Z 2) (f32_of_Z n)) (f32_of_Z (2 ^ z))) /\
    xr (fdiv (fmul (f32_of_Z 2) (f32_of_Z n)) (f32_of_Z (2 ^ z))) = (IZR (2 * n) / IZR (2 ^ z))%R).
  { intros n z Hz' Hn. pose proof (pow2_le z 18 ltac:(lia)) as Bz. change (2 ^ 18) with 262144 in Bz. pose proof (pow2_pos z ltac:(lia)) as Pz.
    destruct (fin_Z n ltac:(lia)) as [Fn En]. destruct (fin_pow2 z ltac:(lia)) as [Fz Ez].
    assert (M : fin (fmul (f32_of_Z 2) (f32_of_Z n)) /\ xr (fmul (f32_of_Z 2) (f32_of_Z n)) = (IZR (2 * n))%R).
    { pose proof (fin_mul _ _ F2 Fn) as R. rewrite E2, En in R. replace (IZR (2 * n)) with (IZR (2 * n) / IZR (2 ^ 0))%R by (cbn; field).
      apply (exact_dyadic _ _ (2 * n) 0); [rewrite mult_IZR in *; replace (IZR 2 * IZR n / IZR (2 ^ 0))%R with (2 * IZR n)%R by (cbn; field); exact R|rewrite mult_IZR; cbn; field|lia|lia]. }
    destruct M as [Fm Em]. apply (exact_dyadic _ _ (2 * n) z); [rewrite <- Em, <- Ez; apply fin_div; [exact Fm|exact Fz|rewrite Ez; lra]|reflexivity|lia|lia]. }
  destruct (D y zoom ltac:(lia) Hy) as [F E]. destruct (D (2 ^ k * y) (zoom + k) ltac:(lia) ltac:(nia)) as [F' E'].
  destruct (Z.eq_dec y 0) as [->|Ny].
  - rewrite Z.mul_0_r. destruct (fin_pow2 zoom ltac:(lia)) as [Fa Ea]. destruct (fin_pow2 (zoom + k) ltac:(lia)) as [Fb Eb].
    destruct (positive_form _ Fa ltac:(rewrite Ea; exact P)) as (ma & ea & ->). destruct (positive_form _ Fb ltac:(rewrite Eb; exact P')) as (mb & eb & ->). reflexivity.
  - symmetry. apply xr_inj; try assumption.
    + rewrite E, E', Pk, !mult_IZR. pose proof (pow2_pos k Hk). field; lra.
    + rewrite E. apply Rgt_not_eq. apply Rdiv_lt_0_compat; [apply IZR_lt; lia|exact P].
Qed.

Lemma row_same m zoom k y : 0 <= zoom -> 0 <= k -> zoom + k <= 18 -> 0 <= y <= 2 ^ zoom -> row_deg m (zoom + k) (2 ^ k * y) = row_deg m zoom y.
Proof. intros Hz Hk Hs Hy. unfold row_deg. rewrite frac_same by assumption. reflexivity. Qed.
(** Rows differ in latitude. *)
Lemma cosh_21 c : (Rabs c <= 315 / 100 -> cosh c <= 21)%R.
Proof.
  intro B. pose proof (sinh_bound c B) as S. pose proof (cosh_sinh c) as E. pose proof (cosh_pos c) as P.
  assert (sinh c * sinh c <= 400)%R by (apply Rabs_le_inv in S; nra). destruct (Rle_lt_dec (cosh c) 21); [assumption|]. exfalso. nra.
Qed.
Lemma row_lat_down zoom y : 0 <= zoom <= 10 -> 0 <= y < 2 ^ zoom -> (row_lat zoom (IZR (y + 1)) + / 100 < row_lat zoom (IZR y))%R.
Proof.
  intros Hz Hy. rewrite !row_lat_gd. set (n := IZR (2 ^ zoom)). pose proof (pow2_pos zoom ltac:(lia)) as P. fold n in P.
  pose proof (pow2_le zoom 10 ltac:(lia)) as B. change (2 ^ 10) with 1024 in B. pose proof pi_bounds as PB.
  assert (Bn : (n <= 1024)%R) by (apply IZR_le; lia). assert (By : (0 <= IZR y <= n - 1)%R) by (split; [apply IZR_le; lia|unfold n; rewrite <- minus_IZR; apply IZR_le; lia]).
  set (a := (PI * (1 - 2 * IZR (y + 1) / n))%R). set (b := (PI * (1 - 2 * IZR y / n))%R).
  assert (Q0 : (0 <= IZR y / n)%R) by (apply Rmult_le_pos; [lra|left; apply Rinv_0_lt_compat; exact P]).
  assert (Q1 : (IZR y / n + / n <= 1)%R) by (apply Rmult_le_reg_r with n; [exact P|]; replace ((IZR y / n + / n) * n)%R with (IZR y + 1)%R by (field; lra); lra).
  assert (Q2 : (/ 1024 <= / n)%R) by (apply Rinv_le_contravar; lra).
  assert (Q3 : (0 < / n)%R) by (apply Rinv_0_lt_compat; exact P).
  assert (Ea : a = (PI * (1 - 2 * (IZR y / n + / n)))%R) by (unfold a; rewrite plus_IZR; field; lra).
  assert (Eb : b = (PI * (1 - 2 * (IZR y / n)))%R) by (unfold b; field; lra).
  assert (D : (b - a = 2 * PI * / n)%R) by (rewrite Ea, Eb; ring).
  assert (Ra : (- (315 / 100) <= a)%R) by (rewrite Ea; nra). assert (Rb : (b <= 315 / 100)%R) by (rewrite Eb; nra).
  assert (Dp : (6 / 1024 <= b - a)%R) by (rewrite D; nra).
  destruct (mvt gd (fun t => / cosh t)%R a b gd_derive) as (c & C & E). rewrite Rmin_left, Rmax_right in C by lra.
  assert (Cc : (cosh c <= 21)%R) by (apply cosh_21; apply Rabs_le; lra). pose proof (cosh_pos c) as Cp.
  assert (I : (/ 21 <= / cosh c)%R) by (apply Rinv_le_contravar; lra).
  assert (G : (/ 21 * (6 / 1024) <= gd b - gd a)%R) by (rewrite E; apply Rmult_le_compat; lra).
  unfold degrees. apply Rmult_lt_reg_r with (PI / 180)%R; [lra|].
  replace ((gd a * 180 / PI + / 100) * (PI / 180))%R with (gd a + PI / 18000)%R by (field; lra). replace (gd b * 180 / PI * (PI / 180))%R with (gd b)%R by (field; lra). lra.
Qed.
Lemma row_inc m zoom y : libm_ok m -> libm_accurate m -> 0 <= zoom <= 10 -> 0 <= y < 2 ^ zoom ->
  fin (row_deg m zoom y) /\ fmul (f32_of_Z 0) (fdiv (fsub (row_deg m zoom (y + 1)) (row_deg m zoom y)) (f32_of_Z 256)) = S754_zero true.
Proof.
  intros O A Hz Hy. destruct (row_deg_near m zoom y A ltac:(lia) ltac:(lia)) as [F0 E0]. destruct (row_deg_near m zoom (y + 1) A ltac:(lia) ltac:(lia)) as [F1 E1].
  split; [exact F0|]. pose proof (row_lat_down zoom y Hz Hy) as L. apply Rabs_le_inv in E0, E1.
  destruct (row_order m zoom y (y + 1) O ltac:(lia) ltac:(lia) ltac:(lia)) as (_ & _ & B1 & B2 & B3).
  set (a := row_deg m zoom (y + 1)) in *. set (b := row_deg m zoom y) in *.
  assert (T : (tiny <= / 1000000000)%R).
  { unfold MercatorProofs.tiny. lra. }
  destruct (op_near _ _ 180 (fin_sub a b F1 F0) ltac:(apply Rabs_le; lra) ltac:(lra)) as [Fs Es]. apply Rabs_le_inv in Es.
  destruct (fin_Z 256 ltac:(lia)) as [F2 E2].
  pose proof (fin_div _ _ Fs F2 ltac:(rewrite E2; lra)) as R. rewrite E2 in R.
  destruct (op_near _ _ 1 R ltac:(apply Rabs_le; lra) ltac:(lra)) as [Fd Ed]. apply Rabs_le_inv in Ed.
  destruct (negative_form _ Fd ltac:(lra)) as (ma & ea & ->). reflexivity.
Qed.

(** The same column at a deeper zoom level. *)
Lemma zero_column zoom x j : 0 <= zoom <= 10 -> 0 <= x < 2 ^ zoom -> 0 <= j < 256 -> column_lon zoom (IZR x + IZR j / 256) = 0%R ->
  256 * x + j = 2 ^ zoom * 128.
Proof.
  intros Hz Hx Hj E. pose proof (pow2_pos zoom ltac:(lia)) as P. apply eq_IZR. rewrite plus_IZR, !mult_IZR. unfold column_lon in E.
  assert (D : ((IZR x + IZR j / 256) = IZR (2 ^ zoom) / 2)%R).
  { apply Rmult_eq_reg_r with (/ IZR (2 ^ zoom))%R; [|apply Rinv_neq_0_compat; lra].
    change ((IZR x + IZR j / 256) * / IZR (2 ^ zoom))%R with ((IZR x + IZR j / 256) / IZR (2 ^ zoom))%R. replace (IZR (2 ^ zoom) / 2 * / IZR (2 ^ zoom))%R with (/ 2)%R by (field; lra). lra. }
  lra.
Qed.
Lemma zero_place m zoom x y j : 0 <= zoom <= 10 -> 0 <= x < 2 ^ zoom -> 0 <= j < 256 -> 256 * x + j = 2 ^ zoom * 128 ->
  lon (pixel_pos m zoom x y j 0) = S754_zero false.
Proof.
  intros Hz Hx Hj E. unfold pixel_pos, lat_lon_new. cbn [lon].
  assert (Z : zoom = 0 \/ 1 <= zoom) by lia. destruct Z as [->|Z].
  - change (2 ^ 0) with 1 in *. assert (x = 0) as -> by lia. assert (j = 128) as -> by lia. vm_compute. reflexivity.
  - assert (P : 2 ^ zoom = 2 * 2 ^ (zoom - 1)) by (rewrite <- Z.pow_succ_r by lia; f_equal; lia).
    assert (j = 0) as -> by lia. assert (x = 2 ^ (zoom - 1)) as -> by lia. clear P E Hx Hj.
    assert (C : In zoom [1; 2; 3; 4; 5; 6; 7; 8; 9; 10]) by (cbn; lia). clear Z Hz. cbn [In] in C.
    repeat (destruct C as [<-|C]; [vm_compute; reflexivity|]). destruct C.
Qed.
Lemma same_lon m zoom k x y j X Y J : 0 <= zoom -> 0 <= k -> zoom + k <= 10 -> 0 <= x < 2 ^ zoom -> 0 <= j < 256 -> 0 <= J < 256 ->
  256 * X + J = 2 ^ k * (256 * x + j) -> lon (pixel_pos m (zoom + k) X Y J 0) = lon (pixel_pos m zoom x y j 0).
Proof.
  intros Hz Hk Hs Hx Hj HJ E. pose proof (pow2_pos zoom ltac:(lia)) as P. pose proof (pow2_pos k ltac:(lia)) as Pk.
  assert (K1 : 1 <= 2 ^ k) by (pose proof (Z.pow_pos_nonneg 2 k); lia).
  assert (Pz : 2 ^ (zoom + k) = 2 ^ zoom * 2 ^ k) by (apply Z.pow_add_r; lia).
  assert (HX : 0 <= X < 2 ^ (zoom + k)) by (rewrite Pz; nia).
  destruct (pixel_lon m zoom x y j 0 ltac:(lia) Hx Hj) as [F L]. destruct (pixel_lon m (zoom + k) X Y J 0 ltac:(lia) HX HJ) as [F' L'].
  assert (S : column_lon (zoom + k) (IZR X + IZR J / 256) = column_lon zoom (IZR x + IZR j / 256)).
  { unfold column_lon. replace (IZR X + IZR J / 256)%R with (IZR (256 * X + J) / 256)%R by (rewrite plus_IZR, mult_IZR; field).
    replace (IZR x + IZR j / 256)%R with (IZR (256 * x + j) / 256)%R by (rewrite plus_IZR, mult_IZR; field).
    rewrite E, Pz, !mult_IZR. field. lra. }
  destruct (Req_dec (column_lon zoom (IZR x + IZR j / 256)) 0) as [Z0|N].
  - rewrite (zero_place m zoom x y j ltac:(lia) Hx Hj (zero_column zoom x j ltac:(lia) Hx Hj Z0)).
    apply zero_place; try assumption; [lia|]. apply zero_column; try assumption; [lia|]. rewrite S. exact Z0.
  - apply xr_inj; try assumption; rewrite L'; [rewrite L; exact S|rewrite S; exact N].
Qed.
Lemma same_place m zoom k x y j X J : libm_ok m -> libm_accurate m -> 0 <= zoom -> 0 <= k -> zoom + k <= 10 -> 0 <= x < 2 ^ zoom -> 0 <= y < 2 ^ zoom ->
  0 <= j < 256 -> 0 <= J < 256 -> 256 * X + J = 2 ^ k * (256 * x + j) ->
  pixel_pos m (zoom + k) X (2 ^ k * y) J 0 = pixel_pos m zoom x y j 0.
Proof.
  intros O A Hz Hk Hs Hx Hy Hj HJ E.
  pose proof (same_lon m zoom k x y j X (2 ^ k * y) J Hz Hk Hs Hx Hj HJ E) as L.
  assert (La : lat (pixel_pos m (zoom + k) X (2 ^ k * y) J 0) = lat (pixel_pos m zoom x y j 0)).
  { unfold pixel_pos, lat_lon_new. cbn [lat]. assert (K1 : 1 <= 2 ^ k) by (pose proof (Z.pow_pos_nonneg 2 k); lia).
    assert (Pz : 2 ^ (zoom + k) = 2 ^ zoom * 2 ^ k) by (apply Z.pow_add_r; lia).
    destruct (row_inc m zoom y O A ltac:(lia) Hy) as [F ->]. destruct (row_inc m (zoom + k) (2 ^ k * y) O A ltac:(lia) ltac:(rewrite Pz; nia)) as [F' ->].
    rewrite !add_minus_zero by assumption. rewrite row_same by lia. reflexivity. }
  destruct (pixel_pos m (zoom + k) X (2 ^ k * y) J 0) as [la lo]. destruct (pixel_pos m zoom x y j 0) as [la' lo']. cbn in L, La. congruence.
Qed.
Lemma c96_row_proof : forall chk m T (value : lat_lon -> outcome (option T)) color_fn zoom k x y j X J d d', libm_ok m -> libm_accurate m ->
  0 <= zoom -> 0 <= k -> zoom + k <= 10 -> 0 <= x < 2 ^ zoom -> 0 <= y < 2 ^ zoom -> 0 <= j < 256 -> 0 <= J < 256 -> 256 * X + J = 2 ^ k * (256 * x + j) ->
  create_single_tile chk m value color_fn {| t_x := x; t_y := y; t_zoom := zoom |} = Ok d ->
  create_single_tile chk m value color_fn {| t_x := X; t_y := 2 ^ k * y; t_zoom := zoom + k |} = Ok d' -> pixel d' J 0 = pixel d j 0.
Proof.
  intros chk m T value color_fn zoom k x y j X J d d' O A Hz Hk Hs Hx Hy Hj HJ E D D'.
  assert (K1 : 1 <= 2 ^ k) by (pose proof (Z.pow_pos_nonneg 2 k); lia). assert (Pz : 2 ^ (zoom + k) = 2 ^ zoom * 2 ^ k) by (apply Z.pow_add_r; lia).
  pose proof (pow2_le (zoom + k) 10 ltac:(lia)) as B. change (2 ^ 10) with 1024 in B.
  assert (HX : 0 <= X < 2 ^ (zoom + k)) by (rewrite Pz; nia). assert (HY : 0 <= 2 ^ k * y < 2 ^ (zoom + k)) by (rewrite Pz; nia).
  assert (2 ^ zoom <= 2 ^ (zoom + k)) by (apply Z.pow_le_mono_r; lia).
  pose proof (single_tile_spec chk m value color_fn zoom x y ltac:(lia) ltac:(lia) ltac:(lia)) as S. rewrite D in S.
  pose proof (single_tile_spec chk m value color_fn (zoom + k) X (2 ^ k * y) ltac:(lia) ltac:(lia) ltac:(lia)) as S'. rewrite D' in S'.
  destruct S as (_ & _ & _ & P). destruct S' as (_ & _ & _ & P'). destruct (P j 0) as (c & C1 & C2); [split; lia|]. destruct (P' J 0) as (c' & C1' & C2'); [split; lia|].
  rewrite (same_place m zoom k x y j X J) in C1' by assumption. rewrite C2, C2'. congruence.
Qed.

(** Published tiles. *)
Section Published.
  Context (chk : bool) (m : libm) (Om : libm_ok m) (Am : libm_accurate m).
  Lemma tiles_agree (kd : kind) run n tr l e T (value : lat_lon -> outcome (option T)) color_fn zoom k x y X :
    rendered chk m kd run n l tr -> k_tiles kd l = Some (e, create_single_tile chk m value color_fn) -> 0 <= k ->
    tile_number run zoom x y -> tile_number run (zoom + k) X (2 ^ k * y) -> covers chk m e zoom x y -> covers chk m e (zoom + k) X (2 ^ k * y) ->
    zooms_agree run n (k_type kd) tr zoom k x y X.
  Proof.
    intros RD Tl Hk (Hz & Hx & Hy) (Hz' & Hx' & Hy') C C'. pose proof (last_zoom_le (run_model run)) as Z8.
    destruct (published chk m kd run n tr l _ _ zoom x y RD Tl Hz C) as (d & Ed & F).
    destruct (published chk m kd run n tr l _ _ (zoom + k) X (2 ^ k * y) RD Tl Hz' C') as (d' & Ed' & F').
    exists d, d'. split; [exact F|]. split; [exact F'|]. intros j J Hj HJ E.
    destruct (pixels chk m Om Am value color_fn zoom x y d ltac:(lia) Hx Hy Ed) as (_ & _ & P).
    destruct (P j 0) as (p & c & _ & Px & _); [split; lia|]. exists c. split; [exact Px|]. rewrite <- Px.
    apply (c96_row_proof chk m T value color_fn zoom k x y j X J d d'); assumption || lia.
  Qed.
  Lemma c96_temperature_proof : forall run steps filter read tr s l zoom k x y X,
    selected run steps filter read s l -> temp_render chk m false run steps filter read tr (Ok tt) -> 0 <= k ->
    tile_number run zoom x y -> tile_number run (zoom + k) X (2 ^ k * y) ->
    covers chk m (extent_of l) zoom x y -> covers chk m (extent_of l) (zoom + k) X (2 ^ k * y) ->
    zooms_agree run (st_nr s) Temp2m tr zoom k x y X.
  Proof.
    intros run steps filter read tr s l zoom k x y X S R. intros.
    eapply (tiles_agree (temp_kind chk m)); try eassumption; [eapply selected_rendered; [right; right; left; reflexivity|exact S|exact R]|reflexivity].
  Qed.
  Lemma c96_wind_proof : forall run steps filter read tr s l zoom k x y X,
    selected run steps filter read s l -> wind_render chk m false run steps filter read tr (Ok tt) -> 0 <= k ->
    tile_number run zoom x y -> tile_number run (zoom + k) X (2 ^ k * y) ->
    covers chk m (extent_of (wl_zonal l)) zoom x y -> covers chk m (extent_of (wl_zonal l)) (zoom + k) X (2 ^ k * y) ->
    zooms_agree run (st_nr s) Wind10m tr zoom k x y X.
  Proof.
    intros run steps filter read tr s l zoom k x y X S R. intros.
    eapply (tiles_agree (wind_kind chk m)); try eassumption; [eapply selected_rendered; [right; left; reflexivity|exact S|exact R]|reflexivity].
  Qed.
  Lemma c96_rain_proof : forall run steps filter read tr s l we zoom k x y X,
    selected run steps filter read s (l, we) -> cloud_precip_render chk m false run steps filter read tr (Ok tt) -> 0 <= k ->
    tile_number run zoom x y -> tile_number run (zoom + k) X (2 ^ k * y) ->
    covers chk m (extent_of (cp_cloud l)) zoom x y -> covers chk m (extent_of (cp_cloud l)) (zoom + k) X (2 ^ k * y) ->
    zooms_agree run (st_nr s) CloudPrecip tr zoom k x y X.
  Proof.
    intros run steps filter read tr s l we zoom k x y X S R. intros.
    eapply (tiles_agree (cloud_precip_kind chk m)); try eassumption; [eapply selected_rendered; [left; reflexivity|exact S|exact R]|reflexivity].
  Qed.
End Published.
