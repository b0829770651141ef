(** Proofs about the published map and data files (C64, C65). *)
From Coquelicot Require Import Coquelicot.
From Coq Require Import Ascii String ZArith Reals List Bool Lia Lra.
From Coq Require Import Floats.SpecFloat.
From Flocq Require Import Core.Core.
From Verif Require Import Base F32 F32Facts GeoModel GeoSpec GeoProofs GeoValueProofs GeoRegridProofs ImagingModel ImagingSpec Par TileModel TileSpec TileProofs
  MercatorProofs ChartModel ChartSpec ChartProofs MetobinModel MetobinSpec MetobinProofs Text ForecastModel ForecastSpec ForecastProofs FetchSpec MapSpec.
Import ListNotations.
Open Scope Z_scope.

(** ** Values near a position *)
Lemma stored_spec (g : fgrid) i j : 0 <= i -> 0 <= j -> length (vg_values g) = Z.to_nat (g_w (vg_grid g) * g_h (vg_grid g)) ->
  exists o, value_by_xy f32_type g i j = Ok o /\ cell_value g i j o.
Proof.
  intros I J L. unfold value_by_xy, index_by_xy, cell_value, dims. cbv beta iota. change (carrier f32_type) with f32 in *.
  destruct (g_w (vg_grid g) <=? i) eqn:W; [exists None; split; [reflexivity|left; split; [apply Z.leb_le; exact W|reflexivity]]|].
  destruct (g_h (vg_grid g) <=? j) eqn:H; [exists None; split; [reflexivity|right; left; split; [apply Z.leb_le; exact H|reflexivity]]|].
  apply Z.leb_gt in W. apply Z.leb_gt in H. cbn [orb]. unfold index_vec.
  rewrite (Z.add_comm i).
  destruct (nth_error (vg_values g) (Z.to_nat (j * g_w (vg_grid g) + i))) as [v|] eqn:N.
  - cbn [omap v_eqb f32_type]. eexists. split; [reflexivity|]. right. right. split; [lia|]. split; [lia|]. exists v. split; [reflexivity|].
    destruct (feq v (vg_missing g)); cbn [negb]; auto.
  - exfalso. apply nth_error_None in N. rewrite L in N. nia.
Qed.
Lemma value_near_spec g p : regular g -> fin_coord p -> exists o, value_by_lat_lon f32_type g p = Ok o /\ value_near g p o.
Proof.
  intros (vs & missing & w & h & e & -> & G & L & _) F.
  assert (FE : fin_extent e) by (destruct G as [(A & B & _) (C & D & _)]; repeat split; assumption || apply A || apply B || apply C || apply D).
  destruct (c16_by_position_proof f32_type vs missing w h e p G F) as [N S]. pose proof (c15_defined_proof w h e p FE F) as D.
  destruct (xy_by_lat_lon (grid_new w h e) p) as [[x y]|] eqn:X.
  - destruct (S x y eq_refl) as (i & j & I & J & Bi & Bj & E).
    destruct (stored_spec (value_grid_new vs missing w h e) i j I J L) as (o & Eo & So). exists o. split; [exact (eq_trans E Eo)|].
    right. split; [apply D; discriminate|]. exists i, j. destruct (c15_accuracy_proof w h e p x y G F X) as [Ax Ay].
    replace (bpow radix2 (-21)) with (/ 2097152)%R in Ax, Ay by (cbn; lra).
    split; [|split; [|exact So]]; (split; [assumption|]); unfold cells_from, extent_of, dims, value_grid_new, vg_grid, grid_new, g_extent, g_w, g_h, fst, snd.
    + eapply Rle_trans; [|apply (Rplus_le_compat _ _ _ _ Bi Ax)]. eapply Rle_trans; [|apply Rabs_triang]. right. f_equal. lra.
    + eapply Rle_trans; [|apply (Rplus_le_compat _ _ _ _ Bj Ay)]. eapply Rle_trans; [|apply Rabs_triang]. right. f_equal. lra.
  - exists None. split; [exact (N eq_refl)|]. left. split; [|reflexivity]. intro A. apply D in A. contradiction.
Qed.
(** Interpolated values. *)
Lemma zfloor_parts r : (0 <= r)%R -> 0 <= Zfloor r /\ (0 <= r - IZR (Zfloor r) < 1)%R.
Proof.
  intro H. pose proof (Zfloor_lb r). pose proof (Zfloor_ub r). split; [|lra]. apply le_IZR. apply Rle_trans with (IZR (Zfloor 0)); [rewrite (Zfloor_IZR 0); lra|]. apply IZR_le, Zfloor_le. exact H.
Qed.
Lemma value_between_spec g p : regular g -> fin_coord p -> exists o, interpolate f32_type g p = Ok o /\ value_between g p o.
Proof.
  intros (vs & missing & w & h & e & -> & G & L & Vs) F.
  assert (FE : fin_extent e) by (destruct G as [(A & B & _) (C & D & _)]; repeat split; assumption || apply A || apply B || apply C || apply D).
  pose proof (c15_defined_proof w h e p FE F) as D. set (g := value_grid_new vs missing w h e).
  destruct (xy_by_lat_lon (grid_new w h e) p) as [[x y]|] eqn:X.
  2:{ exists None. split; [unfold interpolate; cbn [vg_grid g value_grid_new]; rewrite X; reflexivity|]. left. split; [|reflexivity]. intro A. apply D in A. contradiction. }
  destruct (xy_range w h e p x y G F X) as (Fx & Fy & Rx & Ry). destruct (c15_accuracy_proof w h e p x y G F X) as [Ax Ay].
  replace (bpow radix2 (-21)) with (/ 2097152)%R in Ax, Ay by (cbn; lra).
  destruct (interpolate_cases f32_type vs missing w h e p x y G F X) as (C1 & C2 & C3). fold g in C1, C2, C3.
  destruct (zfloor_parts (xr x) ltac:(apply Rx)) as [I0 Ix]. destruct (zfloor_parts (xr y) ltac:(apply Ry)) as [J0 Jy].
  set (i := Zfloor (xr x)) in *. set (j := Zfloor (xr y)) in *.
  assert (St : forall a b, 0 <= a -> 0 <= b -> exists o, value_by_xy f32_type g a b = Ok o /\ cell_value g a b o) by (intros a b A B; apply stored_spec; [exact A|exact B|exact L]).
  assert (Goal' : forall o, ((xr x - IZR i = 0 \/ xr y - IZR j = 0)%R /\ cell_value g i j o) \/
     ((0 < xr x - IZR i)%R /\ (0 < xr y - IZR j)%R /\ exists sw se nw ne, cell_value g i j sw /\ cell_value g (i + 1) j se /\ cell_value g i (j + 1) nw /\ cell_value g (i + 1) (j + 1) ne /\
        blend (xr x - IZR i) (xr y - IZR j) sw se nw ne o) -> value_between g p o).
  { intros o Q. right. split; [apply D; discriminate|]. exists i, j, (xr x - IZR i)%R, (xr y - IZR j)%R.
    split; [exact I0|]. split; [exact J0|]. split; [exact Ix|]. split; [exact Jy|].
    unfold cells_from, extent_of, dims, g, value_grid_new, vg_grid, grid_new, g_extent, g_w, g_h, fst, snd.
    split; [replace (IZR i + (xr x - IZR i))%R with (xr x) by ring; exact Ax|]. split; [replace (IZR j + (xr y - IZR j))%R with (xr y) by ring; exact Ay|exact Q]. }
  assert (Line : forall r, Zfloor r = Zceil r <-> (r - IZR (Zfloor r) = 0)%R).
  { intro r. split; intro E.
    - pose proof (Zfloor_lb r). pose proof (Zceil_ub r). rewrite <- E in *. lra.
    - assert (R : r = IZR (Zfloor r)) by lra. rewrite R at 2. rewrite Zceil_IZR. reflexivity. }
  assert (Up : forall r, Zfloor r <> Zceil r -> Zceil r = Zfloor r + 1).
  { intros r N. apply Zceil_floor_neq. intro E. apply N, Line. lra. }
  destruct (Z.le_gt_cases w i) as [O|Iw].
  { exists None. split; [apply C1; left; exact O|]. apply Goal'.
    assert (N : forall b, cell_value g i b None) by (intro b; unfold cell_value, dims; cbn [g vg_grid value_grid_new grid_new g_w g_h]; left; auto).
    destruct (Req_dec (xr x - IZR i) 0) as [Z|Z]; [left; auto|]. destruct (Req_dec (xr y - IZR j) 0) as [Z'|Z']; [left; auto|]. right.
    split; [lra|]. split; [lra|]. destruct (St (i + 1) j ltac:(lia) J0) as (se & _ & Se). destruct (St (i + 1) (j + 1) ltac:(lia) ltac:(lia)) as (ne & _ & Ne).
    exists None, se, None, ne. repeat split; auto. }
  destruct (Z.le_gt_cases h j) as [O|Jh].
  { exists None. split; [apply C1; right; exact O|]. apply Goal'.
    assert (N : forall a, cell_value g a j None) by (intro a; unfold cell_value, dims; cbn [g vg_grid value_grid_new grid_new g_w g_h]; right; left; auto).
    destruct (Req_dec (xr x - IZR i) 0) as [Z|Z]; [left; auto|]. destruct (Req_dec (xr y - IZR j) 0) as [Z'|Z']; [left; auto|]. right.
    split; [lra|]. split; [lra|]. destruct (St i (j + 1) ltac:(lia) ltac:(lia)) as (nw & _ & Nw). destruct (St (i + 1) (j + 1) ltac:(lia) ltac:(lia)) as (ne & _ & Ne).
    exists None, None, nw, ne. repeat split; auto. }
  destruct (Z.eq_dec (Zfloor (xr x)) (Zceil (xr x))) as [Lx|Nx].
  { destruct (St i j I0 J0) as (o & E & S). exists o. split; [exact (eq_trans (C2 Iw Jh (or_introl Lx)) E)|]. apply Goal'. left. split; [left; apply Line; exact Lx|exact S]. }
  destruct (Z.eq_dec (Zfloor (xr y)) (Zceil (xr y))) as [Ly|Ny].
  { destruct (St i j I0 J0) as (o & E & S). exists o. split; [exact (eq_trans (C2 Iw Jh (or_intror Ly)) E)|]. apply Goal'. left. split; [right; apply Line; exact Ly|exact S]. }
  destruct (St i j I0 J0) as (sw & Esw & Ssw). destruct (St (i + 1) j ltac:(lia) J0) as (se & Ese & Sse).
  destruct (St i (j + 1) I0 ltac:(lia)) as (nw & Enw & Snw). destruct (St (i + 1) (j + 1) ltac:(lia) ltac:(lia)) as (ne & Ene & Sne).
  specialize (C3 Iw Jh Nx Ny sw se nw ne). rewrite (Up _ Nx), (Up _ Ny) in C3. specialize (C3 Esw Ese Enw Ene).
  eexists. split; [exact C3|]. apply Goal'. right.
  assert (Zx : (xr x - IZR i <> 0)%R) by (intro Z; apply Nx, Line; exact Z). assert (Zy : (xr y - IZR j <> 0)%R) by (intro Z; apply Ny, Line; exact Z).
  split; [lra|]. split; [lra|]. exists sw, se, nw, ne. split; [exact Ssw|]. split; [exact Sse|]. split; [exact Snw|]. split; [exact Sne|].
  unfold blend. destruct sw as [a|]; [destruct se as [b|]; [destruct nw as [c|]; [destruct ne as [d|]|]|]|]; try reflexivity;
    try (destruct se; [destruct nw; [destruct ne|]|]; reflexivity).
  eexists. split; [reflexivity|]. intros mag [M1 M2] Al. inversion Al as [|? ? [Fa Ba] Al1]. inversion Al1 as [|? ? [Fb Bb] Al2]. inversion Al2 as [|? ? [Fc Bc] Al3]. inversion Al3 as [|? ? [Fd Bd] _].
  exact (f32_bilinear x y a b c d mag Fx Fy ltac:(apply Rx) ltac:(apply Ry) Nx Ny Fa Fb Fc Fd M1 M2 Ba Bb Bc Bd).
Qed.
Lemma stored_valid g i j v : regular g -> cell_value g i j (Some v) -> f32_valid v.
Proof.
  intros (vs & missing & w & h & e & -> & _ & _ & V) H. unfold cell_value in H. destruct (dims _) as [w' h'].
  destruct H as [[_ H]|[[_ H]|(_ & _ & u & N & [[_ H]|[_ H]])]]; try discriminate. injection H as ->. rewrite Forall_forall in V. apply V. eapply nth_error_In, N.
Qed.
Lemma value_near_valid g p v : regular g -> value_near g p (Some v) -> f32_valid v.
Proof. intros R [[_ H]|(_ & i & j & _ & _ & H)]; [discriminate|eapply stored_valid; eassumption]. Qed.
Lemma value_by_xy_valid (g : fgrid) x y (v : f32) : Forall f32_valid (vg_values g) -> value_by_xy f32_type g x y = Ok (Some v) -> f32_valid v.
Proof.
  intros V H. unfold value_by_xy in H. change (carrier f32_type) with f32 in *. destruct (index_by_xy (vg_grid g) x y) as [i|]; [|discriminate]. unfold index_vec in H.
  destruct (nth_error (vg_values g) (Z.to_nat i)) as [u|] eqn:N; [|discriminate]. cbn [omap v_eqb f32_type] in H. destruct (feq u (vg_missing g)); cbn [negb] in H; [discriminate|].
  injection H as <-. rewrite Forall_forall in V. apply V. eapply nth_error_In, N.
Qed.
Lemma interpolate_value_valid a b wa wb v : (forall u, a = Some u -> f32_valid u) -> (forall u, b = Some u -> f32_valid u) -> f32_valid wa -> f32_valid wb ->
  interpolate_value f32_type a wa b wb = Some v -> f32_valid v.
Proof.
  intros A B Wa Wb H. destruct a as [a|]; [|discriminate]. destruct b as [b|]; [|discriminate]. cbn in H. injection H as <-.
  apply fadd_valid; apply fmul_valid; auto.
Qed.
Lemma interpolate_valid (g : fgrid) p (v : f32) : regular g -> fin_coord p -> interpolate f32_type g p = Ok (Some v) -> f32_valid v.
Proof.
  intros (vs & missing & w & h & e & -> & G & _ & V) F H. set (g := value_grid_new vs missing w h e) in *.
  assert (V' : Forall f32_valid (vg_values g)) by exact V. clear V. revert H. unfold interpolate. change (carrier f32_type) with f32 in *. destruct (xy_by_lat_lon (vg_grid g) p) as [[x y]|] eqn:X; [|discriminate].
  destruct (xy_range w h e p x y G F X) as (Fx & Fy & _).
  cbv zeta. destruct (_ || _ || _ || _); [discriminate|]. destruct (_ || _); [apply value_by_xy_valid; exact V'|].
  set (x0 := f_to_usize (ffloor x)). set (y0 := f_to_usize (ffloor y)). set (x1 := f_to_usize (fceil x)). set (y1 := f_to_usize (fceil y)).
  destruct (value_by_xy f32_type g x0 y0) as [tl|?|] eqn:E1; try discriminate. cbn [obind].
  destruct (value_by_xy f32_type g x1 y0) as [tr|?|] eqn:E2; try discriminate. cbn [obind].
  destruct (value_by_xy f32_type g x0 y1) as [bl|?|] eqn:E3; try discriminate. cbn [obind].
  destruct (value_by_xy f32_type g x1 y1) as [br|?|] eqn:E4; try discriminate. cbn [obind]. intro H. injection H as H.
  assert (Ff : forall z, f32_valid z -> f32_valid (ffloor z)) by (intros z Hz; apply f_integral_valid; exact Hz).
  assert (Fc : forall z, f32_valid z -> f32_valid (fceil z)) by (intros z Hz; apply f_integral_valid; exact Hz).
  revert H. apply interpolate_value_valid; try (apply fsub_valid; (apply Ff || apply Fc || idtac); apply Fx || apply Fy).
  - intros u. apply interpolate_value_valid; try (apply fsub_valid; (apply Ff || apply Fc || idtac); apply Fx || apply Fy); intros u' ->; eapply value_by_xy_valid; eassumption.
  - intros u. apply interpolate_value_valid; try (apply fsub_valid; (apply Ff || apply Fc || idtac); apply Fx || apply Fy); intros u' ->; eapply value_by_xy_valid; eassumption.
Qed.

(** ** Files *)
Lemma selected_rendered chk m k : In k (kinds chk m) -> forall run steps filter read tr s l,
  selected run steps filter read s l -> k_render k false run steps filter read tr (Ok tt) -> rendered chk m k run (st_nr s) l tr.
Proof.
  intros K run steps filter read tr s l (VR & NN & ND & ST & Is & W & Rd) R.
  destruct (c46_success_proof chk m k K false run steps filter read tr VR NN R) as [_ S].
  destruct (S s Is W) as (l' & Rd' & Cm). pose proof (ST s l l' Rd Rd') as ->. split; [exact Cm|].
  intros f c P before. exact (proj1 (c47_files_proof chk m k K run steps filter read tr VR NN ND ST R) s l' f c Is W Rd P before).
Qed.
Lemma published chk m k run n tr l e make zoom x y : rendered chk m k run n l tr ->
  k_tiles k l = Some (e, make) -> 0 <= zoom <= last_zoom (run_model run) -> covers chk m e zoom x y ->
  exists d, make {| t_x := x; t_y := y; t_zoom := zoom |} = Ok d /\
    forall before, file_after (file_path run n (TileFile (k_type k) zoom x y)) before tr = Some (Png d).
Proof.
  intros [[Cm _] Fs] T Hz C.
  destruct (Cm zoom x y (make {| t_x := x; t_y := y; t_zoom := zoom |})) as (d & Ed); [exists e, make; auto|].
  exists d. split; [exact Ed|]. intro bf. apply Fs.
  split; [reflexivity|]. exists d. split; [|reflexivity]. exists e, make. auto.
Qed.
Lemma last_zoom_le mo : last_zoom mo <= 8. Proof. destruct mo; cbn; lia. Qed.

Section Pixels.
  Context (chk : bool) (m : libm) (Om : libm_ok m) (Am : libm_accurate m).
  Lemma pixels {T} (value : lat_lon -> outcome (option T)) color_fn zoom x y d :
    0 <= zoom <= 10 -> 0 <= x < 2 ^ zoom -> 0 <= y < 2 ^ zoom ->
    create_single_tile chk m value color_fn {| t_x := x; t_y := y; t_zoom := zoom |} = Ok d ->
    d_w d = 256 /\ d_h d = 256 /\
    forall j i, inside 256 256 j i -> exists p c, depicts zoom x y j i p /\ pixel d j i = Some c /\ colour_at value color_fn p = Ok c.
  Proof.
    intros Hz Hx Hy E. assert (2 ^ zoom <= 2 ^ 10) by (apply Z.pow_le_mono_r; lia).
    destruct (c33_any_tile_proof chk m zoom x y ltac:(lia) ltac:(lia) ltac:(lia)) as (pos0 & Q). specialize (Q T value color_fn). rewrite E in Q.
    destruct Q as (_ & W & H' & _). split; [exact W|]. split; [exact H'|]. intros j i I.
    destruct (c63_pixels_proof chk m zoom x y Om Am Hz Hx Hy) as (pos & B & P). destruct (P T value color_fn d E j i I) as (c & C1 & C2).
    exists (pos j i), c. destruct (B j i I) as (F1 & E1 & F2 & E2). repeat split; try assumption; apply F1 || apply F2.
  Qed.

  Lemma temperature_tiles : forall run n tr l zoom x y,
    rendered chk m (temp_kind chk m) run n l tr -> tile_number run zoom x y ->
    regular l -> covers chk m (extent_of l) zoom x y ->
    exists d, (forall before, file_after (file_path run n (TileFile Temp2m zoom x y)) before tr = Some (Png d)) /\ d_w d = 256 /\ d_h d = 256 /\
      forall j i, inside 256 256 j i -> exists p o c, depicts zoom x y j i p /\ value_near l p o /\ pixel d j i = Some c /\ temperature_colour o c.
  Proof.
    intros run n tr l zoom x y RD (Hz & Hx & Hy) G C. pose proof (last_zoom_le (run_model run)) as Z8.
    destruct (published chk m (temp_kind chk m) run n tr _ _ _ zoom x y RD eq_refl Hz C) as (d & Ed & F).
    exists d. split; [exact F|]. destruct (pixels _ _ zoom x y _ ltac:(lia) Hx Hy Ed) as (Dw & Dh & P). split; [exact Dw|]. split; [exact Dh|].
    intros j i I. destruct (P j i I) as (p & c & D & Px & Ca). destruct (value_near_spec l p G (proj1 D)) as (o & Eo & Vo).
    exists p, o, c. split; [exact D|]. split; [exact Vo|]. split; [exact Px|]. unfold colour_at, temp_by_lat_lon in Ca. rewrite Eo in Ca. cbn [obind] in Ca.
    destruct o as [k|]; injection Ca as <-; [|reflexivity]. apply temp_shade. eapply value_near_valid; eassumption.
  Qed.
  Lemma c64_temperature_proof : forall run steps filter read tr s l zoom x y,
    selected run steps filter read s l -> tile_number run zoom x y ->
    temp_render chk m false run steps filter read tr (Ok tt) -> regular l -> covers chk m (extent_of l) zoom x y ->
    exists d, (forall before, file_after (file_path run (st_nr s) (TileFile Temp2m zoom x y)) before tr = Some (Png d)) /\ d_w d = 256 /\ d_h d = 256 /\
      forall j i, inside 256 256 j i -> exists p o c, depicts zoom x y j i p /\ value_near l p o /\ pixel d j i = Some c /\ temperature_colour o c.
  Proof.
    intros run steps filter read tr s l zoom x y S T R. intros. eapply temperature_tiles; try eassumption. eapply selected_rendered; [right; right; left; reflexivity|exact S|exact R].
  Qed.
  Lemma wind_tiles : forall run n0 tr l zoom x y,
    rendered chk m (wind_kind chk m) run n0 l tr -> tile_number run zoom x y ->
    regular (wl_zonal l) -> regular (wl_meridional l) -> covers chk m (extent_of (wl_zonal l)) zoom x y ->
    exists d, (forall before, file_after (file_path run n0 (TileFile Wind10m zoom x y)) before tr = Some (Png d)) /\ d_w d = 256 /\ d_h d = 256 /\
      forall j i, inside 256 256 j i -> exists p e v c, depicts zoom x y j i p /\ value_near (wl_zonal l) p e /\ value_near (wl_meridional l) p v /\
        pixel d j i = Some c /\ wind_colour e v c.
  Proof.
    intros run n0 tr l zoom x y RD (Hz & Hx & Hy) Gu Gv C. pose proof (last_zoom_le (run_model run)) as Z8.
    destruct (published chk m (wind_kind chk m) run n0 tr _ _ _ zoom x y RD eq_refl Hz C) as (d & Ed & F).
    exists d. split; [exact F|]. destruct (pixels _ _ zoom x y _ ltac:(lia) Hx Hy Ed) as (Dw & Dh & P). split; [exact Dw|]. split; [exact Dh|].
    intros j i I. destruct (P j i I) as (p & c & D & Px & Ca).
    destruct (value_near_spec _ p Gu (proj1 D)) as (e & Ee & Ve). destruct (value_near_spec _ p Gv (proj1 D)) as (n & En & Vn).
    exists p, e, n, c. split; [exact D|]. split; [exact Ve|]. split; [exact Vn|]. split; [exact Px|].
    unfold colour_at, wind_tot_by_lat_lon, wind_e_n_by_lat_lon, wind_e_n in Ca. rewrite Ee, En in Ca. cbn [obind omap] in Ca.
    destruct e as [e|]; [destruct n as [n|]|]; cbn [option_map fst snd] in Ca; injection Ca as <-; try reflexivity.
    cbn [wind_colour]. assert (V1 := value_near_valid _ _ _ Gu Ve). assert (V2 := value_near_valid _ _ _ Gv Vn).
    exists (wind_speed e n). split.
    - apply wind_shade. apply fsqrt_valid, fadd_valid; apply fmul_valid; assumption.
    - intros [Fe Be] [Fn Bn]. exact (c39_speed_proof e n Fe Fn Be Bn).
  Qed.
  Lemma c64_wind_proof : forall run steps filter read tr s l zoom x y,
    selected run steps filter read s l -> tile_number run zoom x y ->
    wind_render chk m false run steps filter read tr (Ok tt) -> regular (wl_zonal l) -> regular (wl_meridional l) -> covers chk m (extent_of (wl_zonal l)) zoom x y ->
    exists d, (forall before, file_after (file_path run (st_nr s) (TileFile Wind10m zoom x y)) before tr = Some (Png d)) /\ d_w d = 256 /\ d_h d = 256 /\
      forall j i, inside 256 256 j i -> exists p e n c, depicts zoom x y j i p /\ value_near (wl_zonal l) p e /\ value_near (wl_meridional l) p n /\
        pixel d j i = Some c /\ wind_colour e n c.
  Proof.
    intros run steps filter read tr s l zoom x y S T R. intros. eapply wind_tiles; try eassumption. eapply selected_rendered; [right; left; reflexivity|exact S|exact R].
  Qed.
  Lemma or_zero_valid o : (forall v, o = Some v -> f32_valid v) -> f32_valid (or_zero o).
  Proof. intro H. destruct o as [v|]; [exact (H v eq_refl)|exact (f32_of_Z_valid 0)]. Qed.
  Lemma rain_tiles : forall run n tr l we zoom x y,
    rendered chk m (cloud_precip_kind chk m) run n (l, we) tr -> tile_number run zoom x y ->
    regular (cp_cloud l) -> regular (cp_precip0 l) -> regular (cp_precip1 l) ->
    covers chk m (extent_of (cp_cloud l)) zoom x y ->
    exists d, (forall before, file_after (file_path run n (TileFile CloudPrecip zoom x y)) before tr = Some (Png d)) /\ d_w d = 256 /\ d_h d = 256 /\
      forall j i, inside 256 256 j i -> exists p cover before now c, depicts zoom x y j i p /\
        value_between (cp_cloud l) p cover /\ value_between (cp_precip0 l) p before /\ value_between (cp_precip1 l) p now /\
        pixel d j i = Some c /\ rain_colour cover before now c.
  Proof.
    intros run n tr l we zoom x y RD (Hz & Hx & Hy) Gc G0 G1 C. pose proof (last_zoom_le (run_model run)) as Z8.
    destruct (published chk m (cloud_precip_kind chk m) run n tr _ _ _ zoom x y RD eq_refl Hz C) as (d & Ed & F).
    exists d. split; [exact F|]. destruct (pixels _ _ zoom x y _ ltac:(lia) Hx Hy Ed) as (Dw & Dh & P). split; [exact Dw|]. split; [exact Dh|].
    intros j i I. destruct (P j i I) as (p & c & D & Px & Ca).
    destruct (value_between_spec _ p Gc (proj1 D)) as (cc & Ec & Bc). destruct (value_between_spec _ p G0 (proj1 D)) as (c0 & E0 & B0). destruct (value_between_spec _ p G1 (proj1 D)) as (c1 & E1 & B1).
    exists p, cc, c0, c1, c. split; [exact D|]. split; [exact Bc|]. split; [exact B0|]. split; [exact B1|]. split; [exact Px|].
    unfold colour_at, cloud_and_precip_by_lat_lon, cloud_and_precip in Ca. cbn [fst] in Ca. rewrite Ec, E0, E1 in Ca. cbn [obind] in Ca.
    change (unwrap_or cc fzero) with (or_zero cc) in Ca. change (unwrap_or c0 fzero) with (or_zero c0) in Ca. change (unwrap_or c1 fzero) with (or_zero c1) in Ca.
    assert (V1 : f32_valid (or_zero cc)) by (apply or_zero_valid; intros v ->; eapply interpolate_valid; [exact Gc|apply D|exact Ec]).
    assert (V2 : f32_valid (fsub (or_zero c1) (or_zero c0))).
    { apply fsub_valid; apply or_zero_valid; intros v ->; eapply interpolate_valid; [exact G1|apply D|exact E1|exact G0|apply D|exact E0]. }
    destruct (c35_proof chk _ _ _ _ V1 V2 (rain_shade _ V2) (cloud_shade _ V1)) as (c' & Ec' & Co'). rewrite Ec' in Ca. injection Ca as <-.
    exists (rain_color (fsub (or_zero c1) (or_zero c0))), (cloud_color (or_zero cc)). split; [apply rain_shade; exact V2|]. split; [apply cloud_shade; exact V1|exact Co'].
  Qed.
  Lemma c64_rain_proof : forall run steps filter read tr s l we zoom x y,
    selected run steps filter read s (l, we) -> tile_number run zoom x y ->
    cloud_precip_render chk m false run steps filter read tr (Ok tt) -> regular (cp_cloud l) -> regular (cp_precip0 l) -> regular (cp_precip1 l) ->
    covers chk m (extent_of (cp_cloud l)) zoom x y ->
    exists d, (forall before, file_after (file_path run (st_nr s) (TileFile CloudPrecip zoom x y)) before tr = Some (Png d)) /\ d_w d = 256 /\ d_h d = 256 /\
      forall j i, inside 256 256 j i -> exists p cover before now c, depicts zoom x y j i p /\
        value_between (cp_cloud l) p cover /\ value_between (cp_precip0 l) p before /\ value_between (cp_precip1 l) p now /\
        pixel d j i = Some c /\ rain_colour cover before now c.
  Proof.
    intros run steps filter read tr s l we zoom x y S T R. intros. eapply rain_tiles; try eassumption. eapply selected_rendered; [left; reflexivity|exact S|exact R].
  Qed.
End Pixels.

(** ** Coverage *)
Open Scope R_scope.
Lemma row_at_mono zoom a b : (0 <= zoom)%Z -> - (851 / 10) <= a -> a <= b -> b <= 851 / 10 -> row_at zoom b <= row_at zoom a.
Proof.
  intros Hz A AB B. pose proof pi_bounds as PB. pose proof (pow2_pos zoom Hz) as P.
  assert (Ha : Rabs (radians a) <= 1487 / 1000) by (pose proof (radians_small a ltac:(apply Rabs_le; lra)); lra).
  assert (Hb : Rabs (radians b) <= 1487 / 1000) by (pose proof (radians_small b ltac:(apply Rabs_le; lra)); lra).
  assert (L : radians a <= radians b) by (unfold radians, Rdiv; apply Rmult_le_compat_r; [lra|]; apply Rmult_le_compat_r; lra).
  assert (M : ln (sect (radians a)) <= ln (sect (radians b))).
  { destruct (Req_dec (radians a) (radians b)) as [->|N]; [lra|].
    apply Rabs_le_inv in Ha. apply Rabs_le_inv in Hb.
    destruct (MVT_gen (fun t => ln (sect t)) (radians a) (radians b) (fun t => / cos t)) as (c & Bc & E).
    - intros x Bx. rewrite Rmin_left, Rmax_right in Bx by lra. assert (Q : Rabs x <= 1487 / 1000) by (apply Rabs_le; lra).
      destruct (sect_bounds x Q) as (S & _ & I). apply sect_deriv; [pose proof (cos_low x Q); lra|lra].
    - intros x Bx. rewrite Rmin_left, Rmax_right in Bx by lra. assert (Q : Rabs x <= 1487 / 1000) by (apply Rabs_le; lra).
      destruct (sect_bounds x Q) as (S & _ & I). apply derivable_continuous_pt. exists (/ cos x). apply is_derive_Reals. apply sect_deriv; [pose proof (cos_low x Q); lra|lra].
    - rewrite Rmin_left, Rmax_right in Bc by lra. assert (Q : Rabs c <= 1487 / 1000) by (apply Rabs_le; lra). destruct (sect_bounds c Q) as (_ & _ & I).
      assert (0 <= / cos c * (radians b - radians a)) by (apply Rmult_le_pos; lra). lra. }
  unfold row_at. fold (sect (radians a)). fold (sect (radians b)). unfold Rdiv. apply Rmult_le_compat_r; [lra|]. apply Rmult_le_compat_l; [lra|].
  apply Rplus_le_compat_l, Ropp_le_contravar. apply Rmult_le_compat_r; [left; apply Rinv_0_lt_compat; lra|exact M].
Qed.
Lemma c64_coverage_proof : forall chk m e zoom x y p, libm_accurate m -> (0 <= zoom <= 18)%Z -> (0 <= x < 2 ^ zoom)%Z -> (0 <= y)%Z ->
  on_map e -> fin_coord p -> in_extent e p -> well_within zoom x y p -> covers chk m e zoom x y.
Proof.
  intros chk m e zoom x y p A Hz Hx Hy ([[Fa Fb] [Fc Fd]] & B1 & [B2 B3] & B4 & [B5 B6]) [Fla Flo] [La Lo] [Wx Wy].
  set (pa := {| lat := lat (min_coord e); lon := lon (max_coord e) |}). set (pb := {| lat := lat (max_coord e); lon := lon (min_coord e) |}).
  destruct (c63_row_proof chk m pa zoom A ltac:(lia) Fa ltac:(apply Rabs_le; cbn [lat pa]; lra)) as (ta & Ea & Ra1 & Ra2).
  destruct (c63_row_proof chk m pb zoom A ltac:(lia) Fc ltac:(apply Rabs_le; cbn [lat pb]; lra)) as (tb & Eb & Rb1 & Rb2).
  destruct (c34_column_proof chk m p zoom x ltac:(lia) Hx Flo Wx) as (tp & Ep & Xp).
  destruct (c34_columns_proof chk m zoom p pa ltac:(lia) Flo Fd ltac:(lra) ltac:(cbn [lon pa]; lra) ltac:(cbn [lon pa]; lra)) as (s1 & t1 & E1 & E2 & _ & C1 & _).
  destruct (c34_columns_proof chk m zoom pb p ltac:(lia) Fb Flo ltac:(cbn [lon pb]; lra) ltac:(cbn [lon pb]; lra) ltac:(lra)) as (s2 & t2 & E3 & E4 & _ & C2 & _).
  rewrite Ep in E1, E4. injection E1 as <-. injection E4 as <-. rewrite Ea in E2. injection E2 as <-. rewrite Eb in E3. injection E3 as <-.
  exists ta, tb. split; [exact Ea|]. split; [exact Eb|]. split; [unfold between; lia|].
  cbn [lat pa pb] in *.
  pose proof (row_at_mono zoom (xr (lat (min_coord e))) (xr (lat p)) ltac:(lia) B1 (proj1 La) ltac:(lra)) as Ma. pose proof (row_at_mono zoom (xr (lat p)) (xr (lat (max_coord e))) ltac:(lia) ltac:(lra) (Rlt_le _ _ (proj2 La)) B3) as Mb.
  assert (P : 0 < IZR (2 ^ zoom)) by (apply pow2_pos; lia). set (n := IZR (2 ^ zoom)) in *.
  assert (y <= t_y ta)%Z. { assert (IZR y < IZR (t_y ta) + 1) by lra. rewrite <- plus_IZR in H. apply lt_IZR in H. lia. }
  assert (t_y tb <= y)%Z.
  { assert (IZR (t_y tb) < IZR y + 1). { apply IZR_le in Hy. unfold Rmax in Rb1. destruct (Rle_dec 0 _); lra. } rewrite <- plus_IZR in H0. apply lt_IZR in H0. lia. }
  unfold between. lia.
Qed.
Lemma c64_addressable_proof : forall chk m run e, libm_accurate m -> on_map e -> tiles_addressable chk m run e.
Proof.
  intros chk m run e A ([[Fa Fb] [Fc Fd]] & B1 & [B2 B3] & B4 & [B5 B6]) zoom x y Hz (a & b & Ea & Eb & X & Y). pose proof (last_zoom_le (run_model run)) as Z8.
  set (pa := {| lat := lat (min_coord e); lon := lon (max_coord e) |}) in *. set (pb := {| lat := lat (max_coord e); lon := lon (min_coord e) |}) in *.
  destruct (c63_row_proof chk m pa zoom A ltac:(lia) Fa ltac:(apply Rabs_le; cbn [lat pa]; lra)) as (ta & Ea' & Ra1 & _).
  destruct (c63_row_proof chk m pb zoom A ltac:(lia) Fc ltac:(apply Rabs_le; cbn [lat pb]; lra)) as (tb & Eb' & Rb1 & _).
  destruct (c34_columns_proof chk m zoom pb pa ltac:(lia) Fb Fd ltac:(cbn [lon pb]; lra) ltac:(cbn [lon pb pa]; lra) ltac:(cbn [lon pa]; lra)) as (s1 & t1 & E1 & E2 & C0 & C1 & _).
  rewrite Ea in Ea', E2. injection Ea' as <-. injection E2 as <-. rewrite Eb in Eb', E1. injection Eb' as <-. injection E1 as <-.
  cbn [lat pa pb] in *.
  assert (Pz : (2 ^ zoom <= 2 ^ 8)%Z) by (apply Z.pow_le_mono_r; lia).
  assert (U : forall la, - (851 / 10) <= la <= 851 / 10 -> row_at zoom la <= 3 * IZR (2 ^ zoom)).
  { intros la Bl. pose proof pi_bounds as PB. pose proof (pow2_pos zoom ltac:(lia)) as P. unfold row_at. fold (sect (radians la)).
    assert (Q : Rabs (radians la) <= 1487 / 1000) by (pose proof (radians_small la ltac:(apply Rabs_le; lra)); lra).
    destruct (sect_bounds _ Q) as (S & _). assert (L := ln_bound (sect (radians la)) ltac:(lra)). apply Rabs_le_inv in L.
    assert (I : / 4 < / PI < / 3) by (split; apply Rinv_lt_contravar; lra).
    assert (- (4 / 3) <= ln (sect (radians la)) / PI). { unfold Rdiv. assert (0 <= (ln (sect (radians la)) + 4) * / PI) by (apply Rmult_le_pos; lra). lra. }
    unfold Rdiv at 1. rewrite Rmult_assoc, (Rmult_comm 3). apply Rmult_le_compat_l; lra. }
  pose proof (U (xr (lat (min_coord e))) ltac:(lra)) as Ua. pose proof (U (xr (lat (max_coord e))) ltac:(lra)) as Ub.
  apply IZR_le in Pz. assert (P : 0 < IZR (2 ^ zoom)) by (apply pow2_pos; lia). set (n := IZR (2 ^ zoom)) in *. change (2 ^ 8)%Z with 256%Z in Pz.
  assert (Ta : (t_y a <= 1000)%Z) by (apply le_IZR; unfold Rmax in Ra1; destruct (Rle_dec 0 _); lra).
  assert (Tb : (t_y b <= 1000)%Z) by (apply le_IZR; unfold Rmax in Rb1; destruct (Rle_dec 0 _); lra).
  apply le_IZR in Pz. unfold between in *. lia.
Qed.

(** ** Data files *)
Open Scope Z_scope.
Lemma published_bin chk m k run n tr l b o : rendered chk m k run n l tr -> In (b, o) (k_bins k l) ->
  exists data, o = Ok data /\ forall before, file_after (file_path run n (BinFile b)) before tr = Some (Data data).
Proof.
  intros [[_ Cb] Fs] B. destruct (Cb b o B) as (data & ->). exists data. split; [reflexivity|]. intro bf. apply Fs. exists data. auto.
Qed.
Lemma regular_dims g : regular g -> 0 <= fst (dims g) /\ 0 <= snd (dims g) /\ complete g /\ length (vg_values g) = Z.to_nat (g_w (vg_grid g) * g_h (vg_grid g)).
Proof.
  intros (vs & missing & w & h & e & -> & [(_ & _ & A & _) (_ & _ & B & _)] & L & _). unfold complete, dims. cbn [vg_values vg_grid value_grid_new grid_new g_w g_h fst snd].
  repeat split; try exact L; nia.
Qed.
Lemma cell_spec g x y o : regular g -> 0 <= x -> 0 <= y -> value_by_xy f32_type g x y = Ok o -> cell_value g x y o.
Proof.
  intros R X Y E. destruct (regular_dims g R) as (_ & _ & _ & L). destruct (stored_spec g x y X Y L) as (o' & E' & S). rewrite E in E'. injection E' as ->. exact S.
Qed.
Lemma temp_code o : (forall k, o = Some k -> f32_valid k) -> temperature_code o (temp_byte o).
Proof.
  intro V. destruct o as [k|]; [|reflexivity]. cbn [temperature_code]. intro N.
  split; [exact (c41_cold_proof k N)|]. split; [intro H; apply c41_missing_proof; [exact V|right; eauto]|exact (c41_accurate_proof k N)].
Qed.
Lemma speed_code v : f32_valid v -> knots_code 128 v (speed_byte v).
Proof. intro V. split; [apply speed_byte_range; exact V|exact (c43_component_proof v)]. Qed.
Lemma gusts_code v : f32_valid v -> knots_code 0 v (gust_byte (Some v)).
Proof. intro V. split; [apply gust_byte_range; exact V|]. intro N. rewrite Rplus_0_r. exact (c43_gust_proof v N). Qed.
Lemma laid_out_impl k w h data (P Q : Z -> Z -> bytes -> Prop) : (forall x y rec, 0 <= x < w -> 0 <= y < h -> P x y rec -> Q x y rec) -> laid_out k w h data P -> laid_out k w h data Q.
Proof. intros I [S L]. split; [exact S|]. intros x y X Y. apply I; auto. Qed.
Lemma level_spec levels x y level o : 0 <= x -> 0 <= y -> level_value levels x y level = Ok o -> level_cell levels level x y o.
Proof.
  intros X Y E. unfold level_value, index_vec in E. unfold level_cell.
  destruct (nth_error levels (Z.to_nat level)) as [g|] eqn:N; [|discriminate]. exists g. split; [exact N|]. cbn [obind] in E.
  unfold value_by_xy, index_by_xy in E. unfold dims. change (carrier u8_type) with Z in *.
  destruct (g_w (vg_grid g) <=? x) eqn:W; [left; split; [apply Z.leb_le; exact W|cbn in E; congruence]|].
  destruct (g_h (vg_grid g) <=? y) eqn:H; [right; left; split; [apply Z.leb_le; exact H|cbn in E; congruence]|].
  apply Z.leb_gt in W. apply Z.leb_gt in H. cbn [orb] in E. unfold index_vec in E. rewrite (Z.add_comm x) in E.
  right. right. split; [lia|]. split; [lia|].
  destruct (nth_error (vg_values g) (Z.to_nat (y * g_w (vg_grid g) + x))) as [v|] eqn:Nv; [|discriminate].
  exists v. split; [reflexivity|]. cbn [omap v_eqb u8_type] in E. destruct (Z.eqb_spec v (vg_missing g)) as [Q|Q]; cbn [negb] in E; [left|right]; split; congruence.
Qed.

Section Bins.
  Context (chk : bool) (m : libm).
  Lemma temperature_file : forall run nr tr l,
    rendered chk m (temp_kind chk m) run nr l tr -> regular l ->
    exists data, (forall before, file_after (file_path run nr (BinFile BinTemp)) before tr = Some (Data data)) /\
      laid_out 1 (fst (dims l)) (snd (dims l)) data (fun x y rec => exists o b, cell_value l x y o /\ rec = [b] /\ temperature_code o b).
  Proof.
    intros run nr tr l RD G.
    destruct (published_bin chk m (temp_kind chk m) run nr tr _ BinTemp (temp_bin l) RD ltac:(left; reflexivity)) as (data & E & F).
    exists data. split; [exact F|]. destruct (regular_dims l G) as (W & H & C & _).
    destruct (c40_temp_proof l (fst (dims l)) (snd (dims l)) ltac:(destruct (dims l); reflexivity) W H C) as (data' & E' & L). rewrite E in E'. injection E' as <-.
    revert L. apply laid_out_impl. intros x y rec X Y (v & Ev & ->). exists v, (temp_byte v). assert (Q : cell_value l x y v) by (apply cell_spec; [exact G|lia|lia|exact Ev]).
    split; [exact Q|]. split; [reflexivity|]. apply temp_code. intros k ->. eapply stored_valid; eassumption.
  Qed.
  Lemma c65_temperature_proof : forall run steps filter read tr s l,
    selected run steps filter read s l -> temp_render chk m false run steps filter read tr (Ok tt) -> regular l ->
    exists data, (forall before, file_after (file_path run (st_nr s) (BinFile BinTemp)) before tr = Some (Data data)) /\
      laid_out 1 (fst (dims l)) (snd (dims l)) data (fun x y rec => exists o b, cell_value l x y o /\ rec = [b] /\ temperature_code o b).
  Proof.
    intros run steps filter read tr s l S R. intros. eapply temperature_file; try eassumption. eapply selected_rendered; [right; right; left; reflexivity|exact S|exact R].
  Qed.
  Lemma rain_file : forall run nr tr l we,
    rendered chk m (cloud_precip_kind chk m) run nr (l, we) tr -> 
    regular (cp_cloud l) -> regular (cp_precip0 l) -> regular (cp_precip1 l) ->
    exists data, (forall before, file_after (file_path run nr (BinFile BinPrecip)) before tr = Some (Data data)) /\
      laid_out 1 (fst (dims (cp_cloud l))) (snd (dims (cp_cloud l))) data (fun x y rec => exists before now b,
        cell_value (cp_precip0 l) x y before /\ cell_value (cp_precip1 l) x y now /\ rec = [b] /\ rain_code before now b).
  Proof.
    intros run nr tr l we RD Gc G0 G1.
    destruct (published_bin chk m (cloud_precip_kind chk m) run nr tr _ BinPrecip (precip_bin l) RD ltac:(left; reflexivity)) as (data & E & F).
    exists data. split; [exact F|]. destruct (regular_dims _ Gc) as (W & H & C & _). destruct (regular_dims _ G0) as (_ & _ & C0 & L0). destruct (regular_dims _ G1) as (_ & _ & C1 & L1).
    destruct (c40_precip_proof l _ _ (surjective_pairing (dims (cp_cloud l))) W H C C0 C1) as (data' & E' & L). rewrite E in E'. injection E' as <-.
    revert L. apply laid_out_impl. intros x y rec X Y (v & Ev & ->).
    unfold cloud_and_precip_by_xy, cloud_and_precip in Ev.
    destruct (value_by_xy f32_type (cp_cloud l) x y) as [cc|?|] eqn:Ec; try discriminate. cbn [obind] in Ev.
    destruct (value_by_xy f32_type (cp_precip0 l) x y) as [c0|?|] eqn:E0; try discriminate. cbn [obind] in Ev.
    destruct (value_by_xy f32_type (cp_precip1 l) x y) as [c1|?|] eqn:E1; try discriminate. cbn [obind] in Ev. injection Ev as <-.
    exists c0, c1. eexists. split; [apply cell_spec; [exact G0|lia|lia|exact E0]|]. split; [apply cell_spec; [exact G1|lia|lia|exact E1]|]. split; [reflexivity|].
    intro N. destruct (c42_spec_proof (unwrap_or cc fzero) _ N) as (A & B & D). split; [exact A|]. split; [exact B|]. intro Q. apply D, Q.
  Qed.
  Lemma c65_rain_proof : forall run steps filter read tr s l we,
    selected run steps filter read s (l, we) -> cloud_precip_render chk m false run steps filter read tr (Ok tt) ->
    regular (cp_cloud l) -> regular (cp_precip0 l) -> regular (cp_precip1 l) ->
    exists data, (forall before, file_after (file_path run (st_nr s) (BinFile BinPrecip)) before tr = Some (Data data)) /\
      laid_out 1 (fst (dims (cp_cloud l))) (snd (dims (cp_cloud l))) data (fun x y rec => exists before now b,
        cell_value (cp_precip0 l) x y before /\ cell_value (cp_precip1 l) x y now /\ rec = [b] /\ rain_code before now b).
  Proof.
    intros run steps filter read tr s l we S R. intros. eapply rain_file; try eassumption. eapply selected_rendered; [left; reflexivity|exact S|exact R].
  Qed.
  Lemma wind_file : forall run nr tr l,
    rendered chk m (wind_kind chk m) run nr l tr -> 
    regular (wl_zonal l) -> regular (wl_meridional l) -> (forall g, wl_gusts l = Some g -> regular g) ->
    exists data, (forall before, file_after (file_path run nr (BinFile BinWind)) before tr = Some (Data data)) /\
      laid_out 3 (fst (dims (wl_zonal l))) (snd (dims (wl_zonal l))) data (fun x y rec => exists e n gust,
        cell_value (wl_zonal l) x y e /\ cell_value (wl_meridional l) x y n /\ cell_value_opt (wl_gusts l) x y gust /\ wind_code e n gust rec).
  Proof.
    intros run nr tr l RD Gu Gv Gg.
    destruct (published_bin chk m (wind_kind chk m) run nr tr _ BinWind (wind_bin l) RD ltac:(left; reflexivity)) as (data & E & F).
    exists data. split; [exact F|]. destruct (regular_dims _ Gu) as (W & H & Cu & _). destruct (regular_dims _ Gv) as (_ & _ & Cv & _).
    destruct (c40_wind_proof l _ _ (surjective_pairing (dims (wl_zonal l))) W H Cu Cv (fun g Eg => proj1 (proj2 (proj2 (regular_dims g (Gg g Eg)))))) as (data' & E' & L).
    rewrite E in E'. injection E' as <-. revert L. apply laid_out_impl. intros x y rec X Y (e_n & g & Een & Eg & ->).
    unfold wind_e_n_by_xy, wind_e_n in Een.
    destruct (value_by_xy f32_type (wl_zonal l) x y) as [e|?|] eqn:Ee; try discriminate. cbn [obind] in Een.
    destruct (value_by_xy f32_type (wl_meridional l) x y) as [n|?|] eqn:En; try discriminate. cbn [obind] in Een. injection Een as <-.
    assert (Qe : cell_value (wl_zonal l) x y e) by (apply cell_spec; [exact Gu|lia|lia|exact Ee]).
    assert (Qn : cell_value (wl_meridional l) x y n) by (apply cell_spec; [exact Gv|lia|lia|exact En]).
    assert (Qg : cell_value_opt (wl_gusts l) x y g /\ forall v, g = Some v -> f32_valid v).
    { unfold gusts_by_xy, gusts in Eg. destruct (wl_gusts l) as [gg|] eqn:El; cbn [cell_value_opt].
      - assert (Q : cell_value gg x y g) by (apply cell_spec; [exact (Gg gg eq_refl)|lia|lia|exact Eg]). split; [exact Q|]. intros v ->. eapply stored_valid; [exact (Gg gg eq_refl)|exact Q].
      - injection Eg as <-. split; [reflexivity|discriminate]. }
    destruct Qg as [Qg Vg]. exists e, n, g. split; [exact Qe|]. split; [exact Qn|]. split; [exact Qg|].
    destruct e as [e|]; [destruct n as [n|]|]; cbn [wind_code]; try reflexivity.
    do 3 eexists. split; [reflexivity|]. split; [apply speed_code; eapply stored_valid; [exact Gu|exact Qe]|]. split; [apply speed_code; eapply stored_valid; [exact Gv|exact Qn]|].
    destruct g as [g|]; [apply gusts_code; apply Vg; reflexivity|reflexivity].
  Qed.
  Lemma c65_wind_proof : forall run steps filter read tr s l,
    selected run steps filter read s l -> wind_render chk m false run steps filter read tr (Ok tt) ->
    regular (wl_zonal l) -> regular (wl_meridional l) -> (forall g, wl_gusts l = Some g -> regular g) ->
    exists data, (forall before, file_after (file_path run (st_nr s) (BinFile BinWind)) before tr = Some (Data data)) /\
      laid_out 3 (fst (dims (wl_zonal l))) (snd (dims (wl_zonal l))) data (fun x y rec => exists e n gust,
        cell_value (wl_zonal l) x y e /\ cell_value (wl_meridional l) x y n /\ cell_value_opt (wl_gusts l) x y gust /\ wind_code e n gust rec).
  Proof.
    intros run steps filter read tr s l S R. intros. eapply wind_file; try eassumption. eapply selected_rendered; [right; left; reflexivity|exact S|exact R].
  Qed.
  Lemma weather_file : forall run nr tr cp l,
    rendered chk m (cloud_precip_kind chk m) run nr (cp, l) tr -> 
    regular (we_clct l) -> regular (we_ceiling l) -> (forall g, we_ww l = Some g -> regular g) ->
    exists data, (forall before, file_after (file_path run nr (BinFile BinWeather)) before tr = Some (Data data)) /\
      laid_out 2 (fst (dims (we_clct l))) (snd (dims (we_clct l))) data (fun x y rec => exists ww cover ceiling,
        cell_value_opt (we_ww l) x y ww /\ cell_value (we_clct l) x y cover /\ cell_value (we_ceiling l) x y ceiling /\ weather_code ww cover ceiling rec).
  Proof.
    intros run nr tr cp l RD Gc Gh Gw.
    destruct (published_bin chk m (cloud_precip_kind chk m) run nr tr _ BinWeather (weather_bin l) RD ltac:(right; left; reflexivity)) as (data & E & F).
    exists data. split; [exact F|]. destruct (regular_dims _ Gc) as (W & H & Cc & _). destruct (regular_dims _ Gh) as (_ & _ & Ch & _).
    pose proof (c40_weather_proof l _ _ (surjective_pairing (dims (we_clct l))) W H Cc Ch) as L. rewrite E in L.
    revert L. apply laid_out_impl. intros x y rec X Y (ww & cover & ceiling & Ew & Ec & Eh & ->).
    assert (Qc : cell_value (we_clct l) x y cover) by (apply cell_spec; [exact Gc|lia|lia|exact Ec]).
    assert (Qh : cell_value (we_ceiling l) x y ceiling) by (apply cell_spec; [exact Gh|lia|lia|exact Eh]).
    assert (Qw : exists o, cell_value_opt (we_ww l) x y o /\ match o with Some v => f32_valid v /\ omap Some (weather_from_value (f_to_u8 v)) = Ok ww | None => ww = None end).
    { unfold ww_by_xy in Ew. destruct (we_ww l) as [g|] eqn:El; cbn [cell_value_opt]; [|exists None; split; [reflexivity|now injection Ew]].
      destruct (value_by_xy f32_type g x y) as [o|?|] eqn:Eo; try discriminate. cbn [obind] in Ew. exists o.
      assert (Q : cell_value g x y o) by (apply cell_spec; [exact (Gw g eq_refl)|lia|lia|exact Eo]). split; [exact Q|].
      destruct o as [v|]; [|now injection Ew]. split; [eapply stored_valid; [exact (Gw g eq_refl)|exact Q]|exact Ew]. }
    destruct Qw as (o & Qo & Vo). exists o, cover, ceiling. split; [exact Qo|]. split; [exact Qc|]. split; [exact Qh|].
    do 2 eexists. split; [reflexivity|].
    assert (Code : forall v, o = Some v -> num v -> exists w, ww = Some w /\ In (weather_to_value w) wmo_codes /\ weather_to_value w = floor_within (xr v)).
    { intros v -> N. destruct Vo as [_ Vo]. destruct (weather_from_value (f_to_u8 v)) as [w|?|] eqn:Fw; try discriminate. injection Vo as <-. exists w. split; [reflexivity|].
      pose proof (c45_from_to_proof _ _ Fw) as Q. split; [apply c45_to_from_proof|]. rewrite Q. exact (c57_cover_proof v N). }
    split; [|split].
    - intros v Ev N. destruct (Code v Ev N) as (w & -> & I & Q). rewrite <- Q. split; [exact I|]. intro G4. apply c44_significant_proof. exact G4.
    - intro Small. assert (Sm : forall w, ww = Some w -> weather_to_value w <= 4).
      { intros w ->. destruct o as [v|]; [|discriminate]. destruct (Small v eq_refl) as [N B]. destruct (Code v eq_refl N) as (w' & Ew' & _ & Q). injection Ew' as <-. lia. }
      destruct cover as [cv|]; [intro N; apply c44_sky_proof; assumption|apply c44_none_proof; exact Sm].
    - destruct ceiling as [ce|]; [exact (c44_ceiling_proof ce)|reflexivity].
  Qed.
  Lemma c65_weather_proof : forall run steps filter read tr s cp l,
    selected run steps filter read s (cp, l) -> cloud_precip_render chk m false run steps filter read tr (Ok tt) ->
    regular (we_clct l) -> regular (we_ceiling l) -> (forall g, we_ww l = Some g -> regular g) ->
    exists data, (forall before, file_after (file_path run (st_nr s) (BinFile BinWeather)) before tr = Some (Data data)) /\
      laid_out 2 (fst (dims (we_clct l))) (snd (dims (we_clct l))) data (fun x y rec => exists ww cover ceiling,
        cell_value_opt (we_ww l) x y ww /\ cell_value (we_clct l) x y cover /\ cell_value (we_ceiling l) x y ceiling /\ weather_code ww cover ceiling rec).
  Proof.
    intros run steps filter read tr s cp l S R. intros. eapply weather_file; try eassumption. eapply selected_rendered; [left; reflexivity|exact S|exact R].
  Qed.
  Lemma vertical_cloud_file : forall run nr tr hhl clc l g w h n,
    rendered chk m vertical_cloud_kind run nr l tr -> 
    vertical_cloud_new hhl clc = Ok l -> hd_error clc = Some g -> dims g = (w, h) -> 0 <= w -> 0 <= h ->
    n = Z.of_nat (length clc) -> Forall complete hhl -> Forall complete clc ->
    exists data, (forall before, file_after (file_path run nr (BinFile BinVerticalClouds)) before tr = Some (Data data)) /\
      laid_out (2 * n) w h data (fun x y rec => forall level, 0 <= level < n -> exists a b,
        level_cell hhl level x y a /\ level_cell clc level x y b /\ slice rec (2 * level) 2 = [file_byte a; file_byte b]).
  Proof.
    intros run nr tr hhl clc l g w h n RD N G D W H En Ch Cc.
    destruct (published_bin chk m vertical_cloud_kind run nr tr _ BinVerticalClouds (vertical_cloud_bin l) RD ltac:(left; reflexivity)) as (data & E & F).
    exists data. split; [exact F|]. destruct (c40_vertical_cloud_proof hhl clc l g w h n N G D W H En Ch Cc) as (data' & E' & L). rewrite E in E'. injection E' as <-.
    refine (laid_out_impl _ _ _ _ _ _ _ L). intros x y rec X Y Q level I. destruct (Q level I) as (u & v & A & B & T). exists u, v. repeat split; [apply level_spec; [lia|lia|exact A]|apply level_spec; [lia|lia|exact B]|exact T].
  Qed.
  Lemma c65_vertical_cloud_proof : forall run steps filter read tr s hhl clc l g w h n,
    selected run steps filter read s l -> vertical_cloud_render false run steps filter read tr (Ok tt) ->
    vertical_cloud_new hhl clc = Ok l -> hd_error clc = Some g -> dims g = (w, h) -> 0 <= w -> 0 <= h ->
    n = Z.of_nat (length clc) -> Forall complete hhl -> Forall complete clc ->
    exists data, (forall before, file_after (file_path run (st_nr s) (BinFile BinVerticalClouds)) before tr = Some (Data data)) /\
      laid_out (2 * n) w h data (fun x y rec => forall level, 0 <= level < n -> exists a b,
        level_cell hhl level x y a /\ level_cell clc level x y b /\ slice rec (2 * level) 2 = [file_byte a; file_byte b]).
  Proof.
    intros run steps filter read tr s hhl clc l g w h n S R. intros. eapply vertical_cloud_file; try eassumption. eapply selected_rendered; [right; right; right; left; reflexivity|exact S|exact R].
  Qed.
  Lemma vertical_wind_file : forall run nr tr hhl u v l g w h n,
    rendered chk m vertical_wind_kind run nr l tr -> 
    vertical_wind_new hhl u v = Ok l -> hd_error u = Some g -> dims g = (w, h) -> 0 <= w -> 0 <= h ->
    n = Z.of_nat (length u) -> Forall complete hhl -> Forall complete u -> Forall complete v ->
    exists data, (forall before, file_after (file_path run nr (BinFile BinVerticalWind)) before tr = Some (Data data)) /\
      laid_out (3 * n) w h data (fun x y rec => forall level, 0 <= level < n -> exists a b c,
        level_cell hhl level x y a /\ level_cell u level x y b /\ level_cell v level x y c /\
        slice rec (3 * level) 3 = file_byte a :: match b, c with Some b', Some c' => [b'; c'] | _, _ => [255; 255] end).
  Proof.
    intros run nr tr hhl u v l g w h n RD N G D W H En Ch Cu Cv.
    destruct (published_bin chk m vertical_wind_kind run nr tr _ BinVerticalWind (vertical_wind_bin l) RD ltac:(left; reflexivity)) as (data & E & F).
    exists data. split; [exact F|]. destruct (c40_vertical_wind_proof hhl u v l g w h n N G D W H En Ch Cu Cv) as (data' & E' & L). rewrite E in E'. injection E' as <-.
    refine (laid_out_impl _ _ _ _ _ _ _ L). intros x y rec X Y Q level I. destruct (Q level I) as (p & q & r & A & B & C & T). exists p, q, r.
    repeat split; [apply level_spec; [lia|lia|exact A]|apply level_spec; [lia|lia|exact B]|apply level_spec; [lia|lia|exact C]|exact T].
  Qed.
  Lemma c65_vertical_wind_proof : forall run steps filter read tr s hhl u v l g w h n,
    selected run steps filter read s l -> vertical_wind_render false run steps filter read tr (Ok tt) ->
    vertical_wind_new hhl u v = Ok l -> hd_error u = Some g -> dims g = (w, h) -> 0 <= w -> 0 <= h ->
    n = Z.of_nat (length u) -> Forall complete hhl -> Forall complete u -> Forall complete v ->
    exists data, (forall before, file_after (file_path run (st_nr s) (BinFile BinVerticalWind)) before tr = Some (Data data)) /\
      laid_out (3 * n) w h data (fun x y rec => forall level, 0 <= level < n -> exists a b c,
        level_cell hhl level x y a /\ level_cell u level x y b /\ level_cell v level x y c /\
        slice rec (3 * level) 3 = file_byte a :: match b, c with Some b', Some c' => [b'; c'] | _, _ => [255; 255] end).
  Proof.
    intros run steps filter read tr s hhl u v l g w h n S R. intros. eapply vertical_wind_file; try eassumption. eapply selected_rendered; [right; right; right; right; left; reflexivity|exact S|exact R].
  Qed.
End Bins.
