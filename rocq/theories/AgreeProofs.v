(** Proofs about the map and the data file of a step (C84). *)
From Coquelicot Require Import Coquelicot.
From Coq Require Import Ascii String ZArith Reals List Bool Lia Lra.
From Flocq Require Import Core.Core.
From Verif Require Import Base F32 F32Facts GeoModel GeoSpec GeoProofs GeoValueProofs GeoRegridProofs ImagingModel ImagingSpec Par TileModel TileSpec TileProofs
  MercatorProofs ChartModel ChartSpec ChartProofs MetobinModel MetobinSpec MetobinProofs Text ForecastModel ForecastSpec ForecastProofs FetchSpec MapSpec MapProofs AgreeSpec.
Import ListNotations.
Open Scope Z_scope.

(** ** Cells *)
Lemma cell_value_fun g i j o o' : cell_value g i j o -> cell_value g i j o' -> o = o'.
Proof.
  unfold cell_value. destruct (dims g) as [w h].
  intros [[A ->]|[[A ->]|(A & B & v & N & C)]] [[A' ->]|[[A' ->]|(A' & B' & v' & N' & C')]]; try reflexivity; try lia.
  rewrite N in N'. injection N' as <-. destruct C as [[C ->]|[C ->]], C' as [[C' ->]|[C' ->]]; congruence.
Qed.
Lemma cell_beyond g i j o : fst (dims g) <= i \/ snd (dims g) <= j -> cell_value g i j o -> o = None.
Proof.
  unfold cell_value. destruct (dims g) as [w h]. cbn [fst snd]. intros B [[_ ->]|[[_ ->]|(A & A' & _)]]; auto. lia.
Qed.
Lemma cell_in g i j v : cell_value g i j (Some v) -> In v (vg_values g).
Proof.
  unfold cell_value. destruct (dims g) as [w h]. intros [[_ H]|[[_ H]|(_ & _ & u & N & [[_ H]|[_ H]])]]; try discriminate. injection H as ->. exact (nth_error_In _ _ N).
Qed.
(** Two grids with the same cells are asked for the same cell. *)
Lemma both_near g g' p : regular g -> regular g' -> dims g = dims g' -> extent_of g = extent_of g' -> fin_coord p ->
  exists o o', value_by_lat_lon f32_type g p = Ok o /\ value_by_lat_lon f32_type g' p = Ok o' /\
    ((~ in_extent (extent_of g) p /\ o = None /\ o' = None) \/
     (in_extent (extent_of g) p /\ exists i j, closest (lon (min_coord (extent_of g))) (lon (max_coord (extent_of g))) (fst (dims g)) (lon p) i /\
        closest (lat (min_coord (extent_of g))) (lat (max_coord (extent_of g))) (snd (dims g)) (lat p) j /\ cell_value g i j o /\ cell_value g' i j o')).
Proof.
  intros (vs & missing & w & h & e & -> & G & L & _) (vs' & missing' & w' & h' & e' & -> & _ & L' & _) D E F.
  unfold dims, extent_of, value_grid_new, vg_grid, grid_new, g_extent, g_w, g_h in D, E. injection D as <- <-. subst e'.
  assert (FE : fin_extent e) by (destruct G as [(A & B & _) (C & H & _)]; repeat split; assumption || apply A || apply B || apply C || apply H).
  pose proof (c15_defined_proof w h e p FE F) as D. unfold value_by_lat_lon. change (vg_grid (value_grid_new vs missing w h e)) with (grid_new w h e).
  change (vg_grid (value_grid_new vs' missing' w h e)) with (grid_new w h e).
  destruct (xy_by_lat_lon (grid_new w h e) p) as [[x y]|] eqn:X.
  - destruct (xy_range w h e p x y G F X) as (Fx & Fy & Rx & Ry).
    assert (Hw : 1 <= w <= 2 ^ 24) by apply G. assert (Hh : 1 <= h <= 2 ^ 24) by apply G.
    destruct (cell_of x w Fx Hw Rx) as (_ & _ & A & _ & _ & A0 & _). destruct (cell_of y h Fy Hh Ry) as (_ & _ & B & _ & _ & B0 & _). rewrite A, B.
    destruct (stored_spec (value_grid_new vs missing w h e) _ _ A0 B0 L) as (o & Eo & So). destruct (stored_spec (value_grid_new vs' missing' w h e) _ _ A0 B0 L') as (o' & Eo' & So').
    exists o, o'. split; [exact Eo|]. split; [exact Eo'|]. right. split; [apply D; discriminate|]. exists (Zround (xr x)), (Zround (xr y)).
    destruct (c15_accuracy_proof w h e p x y G F X) as [Ax Ay]. replace (bpow radix2 (-21)) with (/ 2097152)%R in Ax, Ay by (cbn; lra).
    pose proof (Zround_nearest (xr x)) as Bi. pose proof (Zround_nearest (xr y)) as Bj.
    split; [|split; [|split; [exact So|exact So']]]; (split; [assumption|]); unfold cells_from, extent_of, dims, value_grid_new, vg_grid, grid_new, g_extent, g_w, g_h, fst, snd.
    + eapply Rle_trans; [|apply (Rplus_le_compat _ _ _ _ Bi Ax)]. eapply Rle_trans; [|apply Rabs_triang]. right. f_equal. lra.
    + eapply Rle_trans; [|apply (Rplus_le_compat _ _ _ _ Bj Ay)]. eapply Rle_trans; [|apply Rabs_triang]. right. f_equal. lra.
  - exists None, None. split; [reflexivity|]. split; [reflexivity|]. left. split; [|split; reflexivity]. intro A. apply D in A. contradiction.
Qed.

(** ** Temperature *)
Open Scope R_scope.
Lemma temperature_matches o b c : (forall k, o = Some k -> num k) -> temperature_colour o c -> temperature_code o b -> temperature_agrees [b] c.
Proof.
  intros V C B. exists b. split; [reflexivity|]. destruct o as [k|]; [|cbn in B, C; subst; split; [lia|left; auto]].
  pose proof (V k eq_refl) as N. cbn [temperature_colour temperature_code] in C, B. rewrite (proj2 N) in C. destruct (B N) as (B1 & B2 & B3).
  destruct (Rle_dec (celsius k) (-64.25)) as [H|H]; [rewrite (B1 H); split; [lia|]; right; exists (celsius k); split; [exact C|right; split; [lia|split; [lra|left; reflexivity]]]|].
  destruct (Rle_dec 63.25 (celsius k)) as [H'|H']; [rewrite (B2 H'); split; [lia|]; right; exists (celsius k); split; [exact C|left; split; [reflexivity|exact H']]|].
  destruct (B3 ltac:(lra)) as [Q1 Q2]. apply Rabs_le_inv in Q2. split; [lia|]. right. exists (celsius k). split; [exact C|]. right. split; [lia|]. split; [lra|right; lra].
Qed.
Section Agree.
  Variables (chk : bool) (m : libm).
  Hypothesis LO : libm_ok m.
  Hypothesis LA : libm_accurate m.
  Lemma c84_temperature_proof : forall run steps filter read tr s l zoom x y,
    selected run steps filter read s l -> tile_number run zoom x y -> temp_render chk m false run steps filter read tr (Ok tt) ->
    regular l -> Forall num (vg_values l) -> covers chk m (extent_of l) zoom x y ->
    exists d data, (forall before, file_after (file_path run (st_nr s) (TileFile Temp2m zoom x y)) before tr = Some (Png d)) /\
      (forall before, file_after (file_path run (st_nr s) (BinFile BinTemp)) before tr = Some (Data data)) /\
      forall j i, inside 256 256 j i -> exists p c, depicts zoom x y j i p /\ pixel d j i = Some c /\
        shown (extent_of l) 1 (fst (dims l)) (snd (dims l)) data temperature_agrees p c.
  Proof.
    intros run steps filter read tr s l zoom x y S T R G N C.
    destruct (c64_temperature_proof chk m LO LA run steps filter read tr s l zoom x y S T R G C) as (d & F & _ & _ & P).
    destruct (c65_temperature_proof chk m run steps filter read tr s l S R G) as (data & Fd & _ & L).
    exists d, data. split; [exact F|]. split; [exact Fd|]. intros j i I. destruct (P j i I) as (p & o & c & D & V & Px & Cl). exists p, c. split; [exact D|]. split; [exact Px|].
    destruct V as [[Out ->]|(In' & a & b & Ca & Cb & Ce)]; [left; auto|right]. split; [exact In'|]. exists a, b. split; [exact Ca|]. split; [exact Cb|].
    destruct (Z_lt_dec a (fst (dims l))) as [Wa|Wa]; [destruct (Z_lt_dec b (snd (dims l))) as [Wb|Wb]|].
    2,3: left; split; [lia|]; rewrite (cell_beyond l a b o ltac:(lia) Ce) in Cl; exact Cl.
    right. split; [lia|]. destruct (L a b (conj (proj1 Ca) Wa) (conj (proj1 Cb) Wb)) as (o' & by' & Ce' & -> & Co).
    rewrite (cell_value_fun _ _ _ _ _ Ce' Ce) in Co. apply (temperature_matches o); [|exact Cl|exact Co].
    intros k ->. rewrite Forall_forall in N. exact (N k (cell_in _ _ _ _ Ce)).
  Qed.
End Agree.

(** ** Wind *)
Definition hyp (a b : R) : R := sqrt (a * a + b * b).
Lemma hyp_triangle a b c d : hyp (a + c) (b + d) <= hyp a b + hyp c d.
Proof.
  pose proof (triangle (a + c) (b + d) 0 0 c d) as T. unfold dist_euc, Rsqr in T. unfold hyp.
  replace (a + c - 0) with (a + c) in T by ring. replace (b + d - 0) with (b + d) in T by ring. replace (a + c - c) with a in T by ring. replace (b + d - d) with b in T by ring.
  replace (c - 0) with c in T by ring. replace (d - 0) with d in T by ring. exact T.
Qed.
Lemma hyp_pos a b : 0 <= hyp a b.
Proof. apply sqrt_pos. Qed.
Lemma hyp_opp a b : hyp (- a) (- b) = hyp a b.
Proof. unfold hyp. f_equal. ring. Qed.
Lemma hyp_mono a b c d : Rabs a <= Rabs c -> Rabs b <= Rabs d -> hyp a b <= hyp c d.
Proof. intros A B. unfold hyp. apply sqrt_le_1_alt. apply Rsqr_le_abs_1 in A. apply Rsqr_le_abs_1 in B. unfold Rsqr in *. lra. Qed.
Lemma hyp_near a b c d e : Rabs (a - c) <= e -> Rabs (b - d) <= e -> e <= 501 / 1000 -> Rabs (hyp a b - hyp c d) <= 71 / 100.
Proof.
  intros A B E.
  assert (S : hyp (a - c) (b - d) <= 71 / 100).
  { apply Rle_trans with (hyp (501 / 1000) (501 / 1000)); [apply hyp_mono; rewrite (Rabs_pos_eq (501 / 1000)) by lra; lra|].
    unfold hyp. rewrite <- (sqrt_square (71 / 100)) by lra. apply sqrt_le_1_alt. lra. }
  pose proof (hyp_triangle c d (a - c) (b - d)) as T1. pose proof (hyp_triangle a b (c - a) (d - b)) as T2.
  replace (c + (a - c)) with a in T1 by ring. replace (d + (b - d)) with b in T1 by ring. replace (a + (c - a)) with c in T2 by ring. replace (b + (d - b)) with d in T2 by ring.
  replace (c - a) with (- (a - c)) in T2 by ring. replace (d - b) with (- (b - d)) in T2 by ring. rewrite hyp_opp in T2. apply Rabs_le. lra.
Qed.
Lemma hyp_scale a b k : 0 <= k -> hyp (a * k) (b * k) = hyp a b * k.
Proof.
  intro K. unfold hyp. replace (a * k * (a * k) + b * k * (b * k)) with ((a * a + b * b) * (k * k)) by ring.
  rewrite sqrt_mult_alt by (pose proof (Rle_0_sqr a); pose proof (Rle_0_sqr b); unfold Rsqr in *; lra). rewrite sqrt_square by exact K. reflexivity.
Qed.
(** A byte and the number it stands for. *)
Lemma clamp_small r : Rabs (within 0 254 (r + 128) - 128) <= Rabs r /\ Rabs (within 0 254 (r + 128) - 128) <= 128.
Proof. unfold within, Rmax, Rmin. destruct (Rle_dec 254 (r + 128)); destruct (Rle_dec 0 _); unfold Rabs; repeat destruct (Rcase_abs _); lra. Qed.
Lemma clamp_inside b r : Rabs (IZR b - within 0 254 r) <= / 2 + / 16384 -> (0 < b < 254)%Z -> within 0 254 r = r.
Proof.
  intros B I. apply Rabs_le_inv in B. assert (1 <= IZR b <= 253) by (split; apply IZR_le; lia).
  unfold within, Rmax, Rmin in *. destruct (Rle_dec 254 r); destruct (Rle_dec 0 _); lra.
Qed.
Lemma wind_matches oe on og rec c : (forall v, oe = Some v -> moderate v) -> (forall v, on = Some v -> moderate v) ->
  wind_colour oe on c -> wind_code oe on og rec -> wind_agrees rec c.
Proof.
  intros Me Mn C B. destruct oe as [e|]; [destruct on as [n|]|]; cbn [wind_colour wind_code] in C, B; try (left; auto; fail).
  destruct C as (s & Sh & Sp). destruct B as (be & bn & bg & -> & (Re & Be) & (Rn & Bn) & _).
  destruct (Sp (Me e eq_refl) (Mn n eq_refl)) as (Fs & Ps & Le). pose proof (fin_num e (proj1 (Me e eq_refl))) as Ne. pose proof (fin_num n (proj1 (Mn n eq_refl))) as Nn.
  specialize (Be Ne). specialize (Bn Nn). right. exists be, bn, bg, (xr s). split; [reflexivity|]. split; [exact Re|]. split; [exact Rn|].
  split; [unfold shade in Sh; rewrite (proj2 (fin_num s Fs)) in Sh; exact Sh|]. cbv zeta.
  destruct knots_const as (_ & _ & K). set (q := decimal 194384 100000) in *.
  fold (hyp (IZR be - 128) (IZR bn - 128)). unfold length_of in Le. fold (hyp (xr e) (xr n)) in Le. unfold in_knots in Be, Bn. fold q in Be, Bn.
  assert (H0 : hyp (xr e * q) (xr n * q) = hyp (xr e) (xr n) * q) by (apply hyp_scale; lra).
  set (we := within 0 254 (xr e * q + 128)) in *. set (wn := within 0 254 (xr n * q + 128)) in *.
  assert (D : Rabs (hyp (IZR be - 128) (IZR bn - 128) - hyp (we - 128) (wn - 128)) <= 71 / 100).
  { apply hyp_near with (/ 2 + / 16384); [| |lra].
    - replace (IZR be - 128 - (we - 128)) with (IZR be - we) by ring. exact Be.
    - replace (IZR bn - 128 - (wn - 128)) with (IZR bn - wn) by ring. exact Bn. }
  destruct (clamp_small (xr e * q)) as [C1 C2]. destruct (clamp_small (xr n * q)) as [C3 C4]. fold we in C1, C2. fold wn in C3, C4.
  pose proof (hyp_mono _ _ _ _ C1 C3) as M. rewrite H0 in M. pose proof (hyp_pos (xr e) (xr n)) as P0. set (v := hyp (xr e) (xr n)) in *.
  assert (T : hyp (we - 128) (wn - 128) <= 256).
  { apply Rle_trans with (hyp 128 128); [apply hyp_mono; rewrite (Rabs_pos_eq 128) by lra; assumption|]. unfold hyp. rewrite <- (sqrt_square 256) by lra. apply sqrt_le_1_alt. lra. }
  pose proof (hyp_pos (we - 128) (wn - 128)) as T0. set (t := hyp (we - 128) (wn - 128)) in *. apply Rabs_le_inv in D. apply Rabs_le_inv in Le.
  change (2 ^ 21)%Z with 2097152%Z in Le. assert (S73 : 0 < / IZR (2 ^ 73) <= / 2097152).
  { split; [apply Rinv_0_lt_compat, IZR_lt; reflexivity|]. apply Rinv_le; [lra|]. apply IZR_le. vm_compute. discriminate. }
  set (z := / IZR (2 ^ 73)) in *.
  assert (U : v * (1 - / 2097152) - z <= xr s <= v * (1 + / 2097152) + z) by lra.
  assert (Us : v * (1 - / 2097152) * q - z * q <= xr s * q <= v * (1 + / 2097152) * q + z * q).
  { split; [replace (v * (1 - / 2097152) * q - z * q) with ((v * (1 - / 2097152) - z) * q) by ring|replace (v * (1 + / 2097152) * q + z * q) with ((v * (1 + / 2097152) + z) * q) by ring];
      apply Rmult_le_compat_r; lra. }
  assert (Zq : z * q <= / 1000) by (apply Rle_trans with (/ 2097152 * 2); [apply Rmult_le_compat; lra|lra]).
  split.
  - assert (t * (1 - / 2097152) <= v * q * (1 - / 2097152)) by (apply Rmult_le_compat_r; lra). lra.
  - intros Ie In'. pose proof (clamp_inside _ _ Be Ie) as Ee. pose proof (clamp_inside _ _ Bn In') as En. fold we in Ee. fold wn in En.
    assert (Q : t = v * q). { unfold t. rewrite Ee, En. replace (xr e * q + 128 - 128) with (xr e * q) by ring. replace (xr n * q + 128 - 128) with (xr n * q) by ring. exact H0. }
    rewrite <- Q in *. assert (t * / 2097152 <= 256 * / 2097152) by (apply Rmult_le_compat_r; lra). lra.
Qed.
Section Wind.
  Variables (chk : bool) (m : libm).
  Hypothesis LO : libm_ok m.
  Hypothesis LA : libm_accurate m.
  Lemma c84_wind_proof : forall run steps filter read tr s l zoom x y,
    selected run steps filter read s l -> tile_number run zoom x y -> wind_render chk m false run steps filter read tr (Ok tt) ->
    regular (wl_zonal l) -> regular (wl_meridional l) -> (forall g, wl_gusts l = Some g -> regular g) ->
    dims (wl_zonal l) = dims (wl_meridional l) -> extent_of (wl_zonal l) = extent_of (wl_meridional l) ->
    Forall moderate (vg_values (wl_zonal l)) -> Forall moderate (vg_values (wl_meridional l)) -> covers chk m (extent_of (wl_zonal l)) zoom x y ->
    exists d data, (forall before, file_after (file_path run (st_nr s) (TileFile Wind10m zoom x y)) before tr = Some (Png d)) /\
      (forall before, file_after (file_path run (st_nr s) (BinFile BinWind)) before tr = Some (Data data)) /\
      forall j i, inside 256 256 j i -> exists p c, depicts zoom x y j i p /\ pixel d j i = Some c /\
        shown (extent_of (wl_zonal l)) 3 (fst (dims (wl_zonal l))) (snd (dims (wl_zonal l))) data wind_agrees p c.
  Proof.
    intros run steps filter read tr s l zoom x y S T R Gu Gv Gg D E Mu Mv C.
    destruct (c65_wind_proof chk m run steps filter read tr s l S R Gu Gv Gg) as (data & Fd & _ & L).
    assert (RD : rendered chk m (wind_kind chk m) run (st_nr s) l tr) by (eapply selected_rendered; [right; left; reflexivity|exact S|exact R]).
    destruct T as (Hz & Hx & Hy). pose proof (last_zoom_le (run_model run)) as Z8.
    destruct (published chk m (wind_kind chk m) run (st_nr s) tr _ _ _ zoom x y RD eq_refl Hz C) as (d & Ed & F).
    exists d, data. split; [exact F|]. split; [exact Fd|]. destruct (pixels chk m LO LA _ _ zoom x y _ ltac:(lia) Hx Hy Ed) as (_ & _ & P).
    intros j i I. destruct (P j i I) as (p & c & Dp & Px & Ca). exists p, c. split; [exact Dp|]. split; [exact Px|].
    destruct (both_near _ _ p Gu Gv D E (proj1 Dp)) as (e & n & Ee & En & H).
    assert (Cl : wind_colour e n c /\ (forall v, e = Some v -> f32_valid v -> True)).
    { split; [|trivial]. unfold colour_at, wind_tot_by_lat_lon, wind_e_n_by_lat_lon, wind_e_n in Ca. rewrite Ee, En in Ca. cbn [obind omap] in Ca.
      destruct e as [e|]; [destruct n as [n|]|]; cbn [option_map fst snd] in Ca; injection Ca as <-; try reflexivity.
      destruct H as [(_ & H & _)|(_ & a & b & _ & _ & He & Hn)]; [discriminate|]. cbn [wind_colour]. assert (V1 := stored_valid _ _ _ _ Gu He). assert (V2 := stored_valid _ _ _ _ Gv Hn).
      exists (wind_speed e n). split.
      - apply wind_shade. apply fsqrt_valid, fadd_valid; apply fmul_valid; assumption.
      - intros [Fe Be] [Fn Bn]. exact (c39_speed_proof e n Fe Fn Be Bn). }
    destruct Cl as [Cl _]. destruct H as [(Out & -> & ->)|(In' & a & b & Ka & Kb & He & Hn)]; [left; split; [exact Out|exact Cl]|right].
    split; [exact In'|]. exists a, b. split; [exact Ka|]. split; [exact Kb|].
    destruct (Z_lt_dec a (fst (dims (wl_zonal l)))) as [Wa|Wa]; [destruct (Z_lt_dec b (snd (dims (wl_zonal l)))) as [Wb|Wb]|].
    2,3: left; split; [lia|]; rewrite (cell_beyond (wl_zonal l) a b e ltac:(lia) He) in Cl; exact Cl.
    right. split; [lia|]. destruct (L a b (conj (proj1 Ka) Wa) (conj (proj1 Kb) Wb)) as (e' & n' & g' & He' & Hn' & _ & Co).
    rewrite (cell_value_fun _ _ _ _ _ He' He), (cell_value_fun _ _ _ _ _ Hn' Hn) in Co. rewrite Forall_forall in Mu, Mv.
    apply (wind_matches e n g'); [intros v ->; exact (Mu v (cell_in _ _ _ _ He))|intros v ->; exact (Mv v (cell_in _ _ _ _ Hn))|exact Cl|exact Co].
  Qed.
End Wind.

(** ** Precipitation *)
Lemma all_between w h e p : grid_ok w h e -> fin_coord p ->
  (~ in_extent e p /\ forall vs missing, length vs = Z.to_nat (w * h) -> Forall f32_valid vs -> interpolate f32_type (value_grid_new vs missing w h e) p = Ok None) \/
  (in_extent e p /\ exists i j fx fy, (0 <= i)%Z /\ (0 <= j)%Z /\ 0 <= fx < 1 /\ 0 <= fy < 1 /\
    Rabs (IZR i + fx - cells_from (lon (min_coord e)) (lon (max_coord e)) w (lon p)) <= IZR w / 2097152 /\
    Rabs (IZR j + fy - cells_from (lat (min_coord e)) (lat (max_coord e)) h (lat p)) <= IZR h / 2097152 /\
    forall vs missing, length vs = Z.to_nat (w * h) -> Forall f32_valid vs -> let g := value_grid_new vs missing w h e in exists o, interpolate f32_type g p = Ok o /\
    (((fx = 0 \/ fy = 0) /\ cell_value g i j o) \/
     (0 < fx /\ 0 < fy /\ exists sw se nw ne, cell_value g i j sw /\ cell_value g (i + 1)%Z j se /\ cell_value g i (j + 1)%Z nw /\ cell_value g (i + 1)%Z (j + 1)%Z ne /\
        blend fx fy sw se nw ne o))).
Proof.
  intros G F.
  assert (FE : fin_extent e) by (destruct G as [(A & B & _) (C & D & _)]; repeat split; assumption || apply A || apply B || apply C || apply D).
  pose proof (c15_defined_proof w h e p FE F) as D.
  destruct (xy_by_lat_lon (grid_new w h e) p) as [[x y]|] eqn:X.
  2:{ left. split; [intro A; apply D in A; contradiction|]. intros vs missing _ _. unfold interpolate. cbn [vg_grid value_grid_new]. rewrite X. reflexivity. }
  right. split; [apply D; discriminate|].
  destruct (xy_range w h e p x y G F X) as (Fx & Fy & Rx & Ry). destruct (c15_accuracy_proof w h e p x y G F X) as [Ax Ay].
  replace (bpow radix2 (-21)) with (/ 2097152)%R in Ax, Ay by (cbn; lra).
  destruct (zfloor_parts (xr x) ltac:(apply Rx)) as [I0 Ix]. destruct (zfloor_parts (xr y) ltac:(apply Ry)) as [J0 Jy].
  set (i := Zfloor (xr x)) in *. set (j := Zfloor (xr y)) in *.
  exists i, j, (xr x - IZR i)%R, (xr y - IZR j)%R. split; [exact I0|]. split; [exact J0|]. split; [exact Ix|]. split; [exact Jy|].
  split; [replace (IZR i + (xr x - IZR i))%R with (xr x) by ring; exact Ax|]. split; [replace (IZR j + (xr y - IZR j))%R with (xr y) by ring; exact Ay|].
  intros vs missing L Vs g.
  destruct (interpolate_cases f32_type vs missing w h e p x y G F X) as (C1 & C2 & C3). fold g in C1, C2, C3. fold i j in C1, C2, C3.
  assert (St : forall a b, (0 <= a)%Z -> (0 <= b)%Z -> exists o, value_by_xy f32_type g a b = Ok o /\ cell_value g a b o) by (intros a b A B; apply stored_spec; [exact A|exact B|exact L]).
  assert (Line : forall r, Zfloor r = Zceil r <-> (r - IZR (Zfloor r) = 0)%R).
  { intro r. split; intro E.
    - pose proof (Zfloor_lb r). pose proof (Zceil_ub r). rewrite <- E in *. lra.
    - assert (R : r = IZR (Zfloor r)) by lra. rewrite R at 2. rewrite Zceil_IZR. reflexivity. }
  assert (Up : forall r, Zfloor r <> Zceil r -> Zceil r = (Zfloor r + 1)%Z).
  { intros r N. apply Zceil_floor_neq. intro E. apply N, Line. lra. }
  destruct (Z.le_gt_cases w i) as [O|Iw].
  { exists None. split; [apply C1; left; exact O|].
    assert (N : forall b, cell_value g i b None) by (intro b; unfold cell_value, dims; cbn [g vg_grid value_grid_new grid_new g_w g_h]; left; auto).
    destruct (Req_dec (xr x - IZR i) 0) as [Z|Z]; [left; auto|]. destruct (Req_dec (xr y - IZR j) 0) as [Z'|Z']; [left; auto|]. right.
    split; [lra|]. split; [lra|]. destruct (St (i + 1)%Z j ltac:(lia) J0) as (se & _ & Se). destruct (St (i + 1)%Z (j + 1)%Z ltac:(lia) ltac:(lia)) as (ne & _ & Ne).
    exists None, se, None, ne. repeat split; auto. }
  destruct (Z.le_gt_cases h j) as [O|Jh].
  { exists None. split; [apply C1; right; exact O|].
    assert (N : forall a, cell_value g a j None) by (intro a; unfold cell_value, dims; cbn [g vg_grid value_grid_new grid_new g_w g_h]; right; left; auto).
    destruct (Req_dec (xr x - IZR i) 0) as [Z|Z]; [left; auto|]. destruct (Req_dec (xr y - IZR j) 0) as [Z'|Z']; [left; auto|]. right.
    split; [lra|]. split; [lra|]. destruct (St i (j + 1)%Z ltac:(lia) ltac:(lia)) as (nw & _ & Nw). destruct (St (i + 1)%Z (j + 1)%Z ltac:(lia) ltac:(lia)) as (ne & _ & Ne).
    exists None, None, nw, ne. repeat split; auto. }
  destruct (Z.eq_dec (Zfloor (xr x)) (Zceil (xr x))) as [Lx|Nx].
  { destruct (St i j I0 J0) as (o & E & S). exists o. split; [exact (eq_trans (C2 Iw Jh (or_introl Lx)) E)|]. left. split; [left; apply Line; exact Lx|exact S]. }
  destruct (Z.eq_dec (Zfloor (xr y)) (Zceil (xr y))) as [Ly|Ny].
  { destruct (St i j I0 J0) as (o & E & S). exists o. split; [exact (eq_trans (C2 Iw Jh (or_intror Ly)) E)|]. left. split; [right; apply Line; exact Ly|exact S]. }
  destruct (St i j I0 J0) as (sw & Esw & Ssw). destruct (St (i + 1)%Z j ltac:(lia) J0) as (se & Ese & Sse).
  destruct (St i (j + 1)%Z I0 ltac:(lia)) as (nw & Enw & Snw). destruct (St (i + 1)%Z (j + 1)%Z ltac:(lia) ltac:(lia)) as (ne & Ene & Sne).
  specialize (C3 Iw Jh Nx Ny sw se nw ne). rewrite (Up _ Nx), (Up _ Ny) in C3. specialize (C3 Esw Ese Enw Ene).
  eexists. split; [exact C3|]. right.
  assert (Zx : (xr x - IZR i <> 0)%R) by (intro Z; apply Nx, Line; exact Z). assert (Zy : (xr y - IZR j <> 0)%R) by (intro Z; apply Ny, Line; exact Z).
  split; [lra|]. split; [lra|]. exists sw, se, nw, ne. split; [exact Ssw|]. split; [exact Sse|]. split; [exact Snw|]. split; [exact Sne|].
  unfold blend. destruct sw as [a|]; [destruct se as [b|]; [destruct nw as [c|]; [destruct ne as [d|]|]|]|]; try reflexivity;
    try (destruct se; [destruct nw; [destruct ne|]|]; reflexivity).
  eexists. split; [reflexivity|]. intros mag [M1 M2] Al. inversion Al as [|? ? [Fa Ba] Al1]. inversion Al1 as [|? ? [Fb Bb] Al2]. inversion Al2 as [|? ? [Fc Bc] Al3]. inversion Al3 as [|? ? [Fd Bd] _].
  exact (f32_bilinear x y a b c d mag Fx Fy ltac:(apply Rx) ltac:(apply Ry) Nx Ny Fa Fb Fc Fd M1 M2 Ba Bb Bc Bd).
Qed.
(** The difference of two totals. *)
Lemma small_sub a b : fin a -> fin b -> Rabs (xr a) <= 1025 -> Rabs (xr b) <= 1025 -> fin (fsub a b) /\ Rabs (xr (fsub a b) - (xr a - xr b)) <= / 4096.
Proof.
  intros Fa Fb Ba Bb. apply Rabs_le_inv in Ba. apply Rabs_le_inv in Bb.
  assert (B : Rabs (xr a - xr b) <= 2050) by (apply Rabs_le; lra).
  destruct (rounds_err _ _ (fin_sub a b Fa Fb)) as [F E].
  { apply rnd_lt_big. apply Rle_trans with (bpow radix2 12); [cbn; lra|apply bpow_le; lia]. }
  split; [exact F|]. eapply Rle_trans; [exact E|]. assert (bpow radix2 (-150) <= / 16384) by (apply Rle_trans with (bpow radix2 (-14)); [apply bpow_le; lia|cbn; lra]).
  assert (ulp_half * Rabs (xr a - xr b) <= / 16777216 * 2050).
  { apply Rmult_le_compat; [unfold ulp_half; apply bpow_ge_0|apply Rabs_pos|unfold ulp_half; cbn; lra|exact B]. }
  lra.
Qed.
Lemma bilinear_bound fx fy a b c d k : 0 <= fx < 1 -> 0 <= fy < 1 -> Rabs a <= k -> Rabs b <= k -> Rabs c <= k -> Rabs d <= k -> Rabs (bilinear fx fy a b c d) <= k.
Proof.
  intros X Y A B C D. apply Rabs_le_inv in A. apply Rabs_le_inv in B. apply Rabs_le_inv in C. apply Rabs_le_inv in D. unfold bilinear.
  assert (M : forall t u v, 0 <= t < 1 -> - k <= u <= k -> - k <= v <= k -> - k <= u * (1 - t) + v * t <= k).
  { intros t u v T U V. assert (0 <= (k - u) * (1 - t) + (k - v) * t) by (apply Rplus_le_le_0_compat; apply Rmult_le_pos; lra).
    assert (0 <= (k + u) * (1 - t) + (k + v) * t) by (apply Rplus_le_le_0_compat; apply Rmult_le_pos; lra). lra. }
  apply Rabs_le. apply M; [exact Y|apply M; assumption|apply M; assumption].
Qed.
Lemma bilinear_sub fx fy a b c d a' b' c' d' : bilinear fx fy a b c d - bilinear fx fy a' b' c' d' = bilinear fx fy (a - a') (b - b') (c - c') (d - d').
Proof. unfold bilinear. ring. Qed.
Lemma two_tenths : decimal 2 10 <= 1 / 2.
Proof.
  unfold decimal. replace (1 / 2) with (rnd (1 / 2)); [apply rnd_mono; lra|]. apply rnd_gen. replace (1 / 2) with (bpow radix2 (-1)) by (cbn; lra). apply generic_format_bpow. vm_compute. discriminate.
Qed.
Lemma amount_code before now b : num (fsub (or_zero now) (or_zero before)) -> rain_code before now b -> amount_of b (xr (fsub (or_zero now) (or_zero before))).
Proof.
  intros N C. unfold rain_code in C. cbv zeta in C. destruct (C N) as (C1 & C2 & C3). clear C. set (p := xr (fsub (or_zero now) (or_zero before))) in *.
  pose proof two_tenths as T. destruct (Rlt_dec p (decimal 2 10)) as [H|H]; [left; split; [exact (C1 H)|exact H]|].
  destruct (Rlt_dec p (1 / 2)) as [H'|H']; [right; left; split; [apply C2; lra|lra]|]. specialize (C3 ltac:(lra)). rewrite C3.
  pose proof (Zround_nearest (2 * p)) as Q. set (z := Zround (2 * p)) in *. apply Rabs_le_inv in Q. assert (Z1 : (1 <= z)%Z).
  { assert (IZR 0 < IZR z) by lra. apply lt_IZR in H0. lia. }
  destruct (Z.eq_dec z 1) as [->|Nz]; [right; left; split; [reflexivity|lra]|].
  destruct (Z_le_dec z 254) as [Lz|Lz].
  - right. right. left. rewrite Z.min_r by lia. split; [lia|]. apply Rabs_le. lra.
  - right. right. right. rewrite Z.min_l by lia. split; [reflexivity|]. assert (255 <= IZR z) by (apply IZR_le; lia). lra.
Qed.
Lemma cell_present w h e vs missing i j o : Forall (plain_total (value_grid_new vs missing w h e)) vs -> (i < w)%Z -> (j < h)%Z -> cell_value (value_grid_new vs missing w h e) i j o ->
  exists v, o = Some v /\ fin v /\ Rabs (xr v) <= 1024.
Proof.
  intros P I J C. unfold cell_value, dims in C. cbn [vg_grid value_grid_new grid_new g_w g_h vg_values vg_missing] in C.
  destruct C as [[C _]|[[C _]|(_ & _ & v & N & C)]]; [lia|lia|]. rewrite Forall_forall in P. destruct (P v (nth_error_In _ _ N)) as (M & F & B). cbn [vg_missing value_grid_new] in M.
  destruct C as [[C _]|[_ ->]]; [congruence|]. exists v. auto.
Qed.
Lemma sub_zeros : xr (fsub (or_zero None) (or_zero None)) = 0 /\ num (fsub (or_zero None) (or_zero None)).
Proof. split; [reflexivity|split; [apply fsub_valid; exact (f32_of_Z_valid 0)|reflexivity]]. Qed.
(** The amount that is shown, and the records. *)
Lemma amounts w h e p vs0 missing0 vs1 missing1 data : grid_ok w h e -> fin_coord p ->
  length vs0 = Z.to_nat (w * h) -> length vs1 = Z.to_nat (w * h) ->
  let g0 := value_grid_new vs0 missing0 w h e in let g1 := value_grid_new vs1 missing1 w h e in
  Forall (plain_total g0) vs0 -> Forall (plain_total g1) vs1 ->
  (forall x y, (0 <= x < w)%Z -> (0 <= y < h)%Z -> exists before now b, cell_value g0 x y before /\ cell_value g1 x y now /\ slice data (1 * (y * w + x)) 1 = [b] /\ rain_code before now b) ->
  exists o0 o1, interpolate f32_type g0 p = Ok o0 /\ interpolate f32_type g1 p = Ok o1 /\ num (fsub (or_zero o1) (or_zero o0)) /\
    amount_shown e w h data p (xr (fsub (or_zero o1) (or_zero o0))).
Proof.
  intros G F L0 L1 g0 g1 P0 P1 L.
  assert (V0 : Forall f32_valid vs0) by (revert P0; apply Forall_impl; intros v (_ & Q & _); exact (proj1 (fin_num v Q))).
  assert (V1 : Forall f32_valid vs1) by (revert P1; apply Forall_impl; intros v (_ & Q & _); exact (proj1 (fin_num v Q))).
  destruct sub_zeros as [Z0 Zn].
  destruct (all_between w h e p G F) as [[O I]|(I & i & j & fx & fy & I0 & J0 & Fx & Fy & Ax & Ay & H)].
  { exists None, None. split; [exact (I vs0 missing0 L0 V0)|]. split; [exact (I vs1 missing1 L1 V1)|]. split; [exact Zn|]. left. split; [exact O|exact Z0]. }
  destruct (H vs0 missing0 L0 V0) as (o0 & E0 & C0). destruct (H vs1 missing1 L1 V1) as (o1 & E1 & C1). fold g0 in E0, C0. fold g1 in E1, C1.
  exists o0, o1. split; [exact E0|]. split; [exact E1|].
  assert (Told : forall a b u0 u1, (0 <= a)%Z -> (0 <= b)%Z -> (a < w)%Z -> (b < h)%Z -> cell_value g0 a b u0 -> cell_value g1 a b u1 ->
    exists v0 v1, u0 = Some v0 /\ u1 = Some v1 /\ fin v0 /\ fin v1 /\ Rabs (xr v0) <= 1024 /\ Rabs (xr v1) <= 1024 /\
      fin (fsub v1 v0) /\ Rabs (xr (fsub v1 v0) - (xr v1 - xr v0)) <= / 4096 /\
      (0 <= a < w /\ 0 <= b < h)%Z /\ exists r, slice data (b * w + a) 1 = [r] /\ amount_of r (xr (fsub v1 v0))).
  { intros a b u0 u1 A B A' B' U0 U1. destruct (cell_present w h e vs0 missing0 a b u0 P0 A' B' U0) as (v0 & -> & F0 & B0). destruct (cell_present w h e vs1 missing1 a b u1 P1 A' B' U1) as (v1 & -> & F1 & B1).
    exists v0, v1. split; [reflexivity|]. split; [reflexivity|]. split; [exact F0|]. split; [exact F1|]. split; [exact B0|]. split; [exact B1|].
    destruct (small_sub v1 v0 F1 F0 ltac:(lra) ltac:(lra)) as [Fs Es]. split; [exact Fs|]. split; [exact Es|]. split; [lia|].
    destruct (L a b ltac:(lia) ltac:(lia)) as (q0 & q1 & r & Q0 & Q1 & Sl & Rc). rewrite (cell_value_fun _ _ _ _ _ Q0 U0), (cell_value_fun _ _ _ _ _ Q1 U1) in Rc.
    rewrite Z.mul_1_l in Sl. exists r. split; [exact Sl|]. exact (amount_code (Some v0) (Some v1) r (fin_num _ Fs) Rc). }
  assert (Beyond : forall g a b u, dims g = (w, h) -> (w <= a \/ h <= b)%Z -> cell_value g a b u -> u = None).
  { intros g a b u D B. apply cell_beyond. rewrite D. exact B. }
  assert (Shown : forall r, (((fx = 0 \/ fy = 0) /\ ((w <= i \/ h <= j)%Z /\ r = 0 \/ (0 <= i < w /\ 0 <= j < h)%Z /\ exists b, slice data (j * w + i) 1 = [b] /\ amount_of b r)) \/
     (0 < fx /\ 0 < fy /\ ((w <= i + 1 \/ h <= j + 1)%Z /\ r = 0 \/
        exists sw se nw ne, ((0 <= i < w /\ 0 <= j < h)%Z /\ exists b, slice data (j * w + i) 1 = [b] /\ amount_of b sw) /\
          ((0 <= i + 1 < w /\ 0 <= j < h)%Z /\ exists b, slice data (j * w + (i + 1)) 1 = [b] /\ amount_of b se) /\
          ((0 <= i < w /\ 0 <= j + 1 < h)%Z /\ exists b, slice data ((j + 1) * w + i) 1 = [b] /\ amount_of b nw) /\
          ((0 <= i + 1 < w /\ 0 <= j + 1 < h)%Z /\ exists b, slice data ((j + 1) * w + (i + 1)) 1 = [b] /\ amount_of b ne) /\
          Rabs (r - bilinear fx fy sw se nw ne) <= / 100))) -> amount_shown e w h data p r).
  { intros r Q. right. split; [exact I|]. exists i, j, fx, fy. split; [exact I0|]. split; [exact J0|]. split; [exact Fx|]. split; [exact Fy|]. split; [exact Ax|]. split; [exact Ay|exact Q]. }
  destruct C0 as [[Ln C0]|(X0 & Y0 & sw & se & nw & ne & S1 & S2 & S3 & S4 & B0)]; destruct C1 as [[Ln' C1]|(X1 & Y1 & sw' & se' & nw' & ne' & T1 & T2 & T3 & T4 & B1)]; try (exfalso; lra).
  - destruct (Z_lt_dec i w) as [Iw|Iw]; [destruct (Z_lt_dec j h) as [Jh|Jh]|].
    2,3: rewrite (Beyond g0 i j o0 eq_refl ltac:(lia) C0), (Beyond g1 i j o1 eq_refl ltac:(lia) C1); split; [exact Zn|]; apply Shown; left; split; [exact Ln|]; left; split; [lia|exact Z0].
    destruct (Told i j o0 o1 I0 J0 Iw Jh C0 C1) as (v0 & v1 & -> & -> & _ & _ & _ & _ & Fs & _ & Td). cbn [or_zero]. split; [exact (fin_num _ Fs)|].
    apply Shown. left. split; [exact Ln|]. right. exact Td.
  - destruct (Z_lt_dec (i + 1) w) as [Iw|Iw]; [destruct (Z_lt_dec (j + 1) h) as [Jh|Jh]|].
    2:{ rewrite (Beyond g0 i (j + 1)%Z nw eq_refl ltac:(lia) S3) in B0. rewrite (Beyond g1 i (j + 1)%Z nw' eq_refl ltac:(lia) T3) in B1.
        assert (o0 = None) as -> by (destruct sw, se, ne; exact B0). assert (o1 = None) as -> by (destruct sw', se', ne'; exact B1).
        split; [exact Zn|]. apply Shown. right. split; [exact X0|]. split; [exact Y0|]. left. split; [lia|exact Z0]. }
    2:{ rewrite (Beyond g0 (i + 1)%Z j se eq_refl ltac:(lia) S2) in B0. rewrite (Beyond g1 (i + 1)%Z j se' eq_refl ltac:(lia) T2) in B1.
        assert (o0 = None) as -> by (destruct sw, nw, ne; exact B0). assert (o1 = None) as -> by (destruct sw', nw', ne'; exact B1).
        split; [exact Zn|]. apply Shown. right. split; [exact X0|]. split; [exact Y0|]. left. split; [lia|exact Z0]. }
    destruct (Told i j sw sw' I0 J0 ltac:(lia) ltac:(lia) S1 T1) as (a0 & a1 & -> & -> & Fa0 & Fa1 & Ba0 & Ba1 & _ & Da & Ta).
    destruct (Told (i + 1)%Z j se se' ltac:(lia) J0 ltac:(lia) ltac:(lia) S2 T2) as (b0 & b1 & -> & -> & Fb0 & Fb1 & Bb0 & Bb1 & _ & Db & Tb).
    destruct (Told i (j + 1)%Z nw nw' I0 ltac:(lia) ltac:(lia) ltac:(lia) S3 T3) as (c0 & c1 & -> & -> & Fc0 & Fc1 & Bc0 & Bc1 & _ & Dc & Tc).
    destruct (Told (i + 1)%Z (j + 1)%Z ne ne' ltac:(lia) ltac:(lia) ltac:(lia) ltac:(lia) S4 T4) as (d0 & d1 & -> & -> & Fd0 & Fd1 & Bd0 & Bd1 & _ & Dd & Td).
    cbn [blend] in B0, B1. destruct B0 as (v0 & -> & B0). destruct B1 as (v1 & -> & B1).
    assert (K : 1 <= 1024 <= bpow radix2 100) by (split; [lra|]; apply Rle_trans with (bpow radix2 10); [cbn; lra|apply bpow_le; lia]).
    destruct (B0 1024 K (Forall_cons _ (conj Fa0 Ba0) (Forall_cons _ (conj Fb0 Bb0) (Forall_cons _ (conj Fc0 Bc0) (Forall_cons _ (conj Fd0 Bd0) (Forall_nil _)))))) as [Fv0 Ev0]. destruct (B1 1024 K (Forall_cons _ (conj Fa1 Ba1) (Forall_cons _ (conj Fb1 Bb1) (Forall_cons _ (conj Fc1 Bc1) (Forall_cons _ (conj Fd1 Bd1) (Forall_nil _)))))) as [Fv1 Ev1].
    replace (1024 * bpow radix2 (-18)) with (/ 256) in Ev0, Ev1 by (cbn; lra).
    pose proof (bilinear_bound fx fy _ _ _ _ 1024 Fx Fy Ba0 Bb0 Bc0 Bd0) as M0. pose proof (bilinear_bound fx fy _ _ _ _ 1024 Fx Fy Ba1 Bb1 Bc1 Bd1) as M1.
    pose proof (bilinear_bound fx fy _ _ _ _ (/ 4096) Fx Fy Da Db Dc Dd) as Md. rewrite <- !bilinear_sub in Md.
    set (q0 := bilinear fx fy (xr a0) (xr b0) (xr c0) (xr d0)) in *. set (q1 := bilinear fx fy (xr a1) (xr b1) (xr c1) (xr d1)) in *.
    apply Rabs_le_inv in Ev0. apply Rabs_le_inv in Ev1. apply Rabs_le_inv in M0. apply Rabs_le_inv in M1. apply Rabs_le_inv in Md.
    destruct (small_sub v1 v0 Fv1 Fv0 ltac:(apply Rabs_le; lra) ltac:(apply Rabs_le; lra)) as [Fs Es]. apply Rabs_le_inv in Es. cbn [or_zero]. split; [exact (fin_num _ Fs)|].
    apply Shown. right. split; [exact X0|]. split; [exact Y0|]. right.
    exists (xr (fsub a1 a0)), (xr (fsub b1 b0)), (xr (fsub c1 c0)), (xr (fsub d1 d0)). split; [exact Ta|]. split; [exact Tb|]. split; [exact Tc|]. split; [exact Td|].
    apply Rabs_le. lra.
Qed.
Section Rain.
  Variables (chk : bool) (m : libm).
  Hypothesis LO : libm_ok m.
  Hypothesis LA : libm_accurate m.
  Lemma c84_rain_proof : forall run steps filter read tr s l we zoom x y,
    selected run steps filter read s (l, we) -> tile_number run zoom x y -> cloud_precip_render chk m false run steps filter read tr (Ok tt) ->
    regular (cp_cloud l) -> regular (cp_precip0 l) -> regular (cp_precip1 l) ->
    dims (cp_cloud l) = dims (cp_precip0 l) -> dims (cp_cloud l) = dims (cp_precip1 l) -> extent_of (cp_cloud l) = extent_of (cp_precip0 l) -> extent_of (cp_cloud l) = extent_of (cp_precip1 l) ->
    Forall (plain_total (cp_precip0 l)) (vg_values (cp_precip0 l)) -> Forall (plain_total (cp_precip1 l)) (vg_values (cp_precip1 l)) -> covers chk m (extent_of (cp_cloud l)) zoom x y ->
    exists d data, (forall before, file_after (file_path run (st_nr s) (TileFile CloudPrecip zoom x y)) before tr = Some (Png d)) /\
      (forall before, file_after (file_path run (st_nr s) (BinFile BinPrecip)) before tr = Some (Data data)) /\
      forall j i, inside 256 256 j i -> exists p c r rain v cloud, depicts zoom x y j i p /\ pixel d j i = Some c /\
        amount_shown (extent_of (cp_cloud l)) (fst (dims (cp_cloud l))) (snd (dims (cp_cloud l))) data p r /\
        class_of rain_legend r rain /\ shade cloud_legend v cloud /\ composed rain cloud c.
  Proof.
    intros run steps filter read tr s l we zoom x y S T R Gc G0 G1 D0 D1 X0 X1 P0 P1 C.
    destruct (c65_rain_proof chk m run steps filter read tr s l we S R Gc G0 G1) as (data & Fd & _ & L).
    assert (RD : rendered chk m (cloud_precip_kind chk m) run (st_nr s) (l, we) tr) by (eapply selected_rendered; [left; reflexivity|exact S|exact R]).
    destruct T as (Hz & Hx & Hy). pose proof (last_zoom_le (run_model run)) as Z8.
    destruct (published chk m (cloud_precip_kind chk m) run (st_nr s) tr _ _ _ zoom x y RD eq_refl Hz C) as (d & Ed & F).
    exists d, data. split; [exact F|]. split; [exact Fd|]. destruct (pixels chk m LO LA _ _ zoom x y _ ltac:(lia) Hx Hy Ed) as (_ & _ & P).
    intros j i I. destruct (P j i I) as (p & c & Dp & Px & Ca).
    destruct (value_between_spec _ p Gc (proj1 Dp)) as (cc & Ec & _).
    assert (Vc : f32_valid (or_zero cc)) by (apply or_zero_valid; intros v ->; eapply interpolate_valid; [exact Gc|apply Dp|exact Ec]).
    destruct G0 as (vs0 & missing0 & w0 & h0 & e0 & E0 & K0 & L0 & _). destruct G1 as (vs1 & missing1 & w1 & h1 & e1 & E1 & K1 & L1 & _).
    rewrite E0 in *. rewrite E1 in *. set (w := fst (dims (cp_cloud l))) in *. set (h := snd (dims (cp_cloud l))) in *. set (e := extent_of (cp_cloud l)) in *.
    assert (Ew : w0 = w /\ w1 = w /\ h0 = h /\ h1 = h) by (unfold w, h; split; [now rewrite D0|]; split; [now rewrite D1|]; split; [now rewrite D0|now rewrite D1]).
    destruct Ew as (-> & -> & -> & ->). change (e = e0) in X0. change (e = e1) in X1. subst e0 e1.
    destruct (amounts w h e p vs0 missing0 vs1 missing1 data K0 (proj1 Dp) L0 L1 P0 P1 L) as (o0 & o1 & Eo0 & Eo1 & N & A).
    unfold colour_at, cloud_and_precip_by_lat_lon, cloud_and_precip in Ca. cbn [fst] in Ca. rewrite Ec, E0, E1, Eo0, Eo1 in Ca. cbn [obind] in Ca.
    change (unwrap_or cc fzero) with (or_zero cc) in Ca. change (unwrap_or o0 fzero) with (or_zero o0) in Ca. change (unwrap_or o1 fzero) with (or_zero o1) in Ca.
    destruct (c35_proof chk _ _ _ _ Vc (proj1 N) (rain_shade _ (proj1 N)) (cloud_shade _ Vc)) as (c' & Ec' & Co'). rewrite Ec' in Ca. injection Ca as <-.
    eexists p, c', _, _, _, _. split; [exact Dp|]. split; [exact Px|]. split; [exact A|]. split; [|split; [exact (cloud_shade _ Vc)|exact Co']].
    pose proof (rain_shade _ (proj1 N)) as Sh. unfold shade in Sh. rewrite (proj2 N) in Sh. exact Sh.
  Qed.
End Rain.
