(** Proofs about lookups by place (C73). *)
From Coq Require Import ZArith Reals List Bool Lia Lra.
From Coq Require Import Floats.SpecFloat.
From Flocq Require Import Core.Core.
From Verif Require Import Base F32 F32Facts GeoModel GeoSpec GeoProofs GeoValueProofs GeoLookupProofs GeoRegridProofs ChartModel ChartSpec ChartProofs MetobinModel MetobinSpec MetobinProofs FetchModel MapSpec MapProofs SwissPlaceProofs PlaceModel PlaceSpec.
Import ListNotations.
Open Scope Z_scope.

(** ** Squares of distances *)
Open Scope R_scope.
Definition close (s D : R) : Prop := Rabs (s - D * D) <= / 2000000 * (D * D) + / 100000000000000000.
Lemma square_reach D d s : 0 <= D -> 0 <= d <= 64 -> close s D -> s <= d * d + / 16777216 * (d * d) + / 100000000000000000 -> D <= d + / 8192.
Proof.
  intros P B E L. unfold close in E. apply Rabs_le_inv in E. apply Rnot_lt_le. intro H.
  assert (H1 : (d + / 8192) * (d + / 8192) <= D * D) by (apply Rmult_le_compat; lra).
  assert (H2 : d * d <= 64 * d) by nra.
  assert (H3 : D * D - / 2000000 * (D * D) - / 100000000000000000 <= s) by lra.
  assert (H4 : (1 - / 2000000) * ((d + / 8192) * (d + / 8192)) <= (1 - / 2000000) * (D * D)) by (apply Rmult_le_compat_l; lra).
  nra.
Qed.
Lemma square_beyond D d s : 0 <= D -> 0 <= d <= 64 -> close s D -> d * d - / 16777216 * (d * d) - / 100000000000000000 <= s -> d - / 8192 <= D.
Proof.
  intros P B E L. unfold close in E. apply Rabs_le_inv in E. apply Rnot_lt_le. intro H.
  assert (H1 : D * D <= (d - / 8192) * (d - / 8192)) by (apply Rmult_le_compat; lra).
  assert (H2 : d * d <= 64 * d) by nra.
  assert (H4 : (1 + / 2000000) * (D * D) <= (1 + / 2000000) * ((d - / 8192) * (d - / 8192))) by (apply Rmult_le_compat_l; lra).
  assert (/ 8192 < d) by lra. nra.
Qed.
Lemma square_nearer D D' s s' : 0 <= D <= 65 -> 0 <= D' -> close s D -> close s' D' -> s <= s' -> D <= D' + / 8192.
Proof.
  intros P P' E E' L. unfold close in E, E'. apply Rabs_le_inv in E, E'. apply Rnot_lt_le. intro H.
  assert (H1 : D' * D' <= (D - / 8192) * (D - / 8192)) by (apply Rmult_le_compat; lra).
  assert (H4 : (1 + / 2000000) * (D' * D') <= (1 + / 2000000) * ((D - / 8192) * (D - / 8192))) by (apply Rmult_le_compat_l; lra).
  assert (D * D <= 65 * D) by nra. assert (/ 8192 < D) by lra. nra.
Qed.

(** ** Distances *)
Lemma dist_sum a b u v : dist_euc a b u v <= Rabs (a - u) + Rabs (b - v).
Proof.
  unfold dist_euc. pose proof (Rabs_pos (a - u)). pose proof (Rabs_pos (b - v)). apply Rsqr_incr_0; [|apply sqrt_pos|lra].
  rewrite Rsqr_sqrt by (apply Rplus_le_le_0_compat; apply Rle_0_sqr). rewrite (Rsqr_abs (a - u)), (Rsqr_abs (b - v)). unfold Rsqr. nra.
Qed.
Lemma dist_shift a b u v u' v' e : Rabs (u - u') <= e -> Rabs (v - v') <= e -> Rabs (dist_euc a b u v - dist_euc a b u' v') <= 2 * e.
Proof.
  intros U V. pose proof (dist_sum u v u' v') as S. pose proof (triangle a b u v u' v') as T1. pose proof (triangle a b u' v' u v) as T2.
  rewrite (distance_symm u' v' u v) in T1. apply Rabs_le. lra.
Qed.
Lemma dist_box a b u v s t : Rabs (a - u) <= s -> Rabs (b - v) <= t -> dist_euc a b u v <= dist_euc 0 0 s t.
Proof.
  intros A B. unfold dist_euc. apply sqrt_le_1_alt. rewrite (Rsqr_abs (a - u)), (Rsqr_abs (b - v)). unfold Rsqr.
  pose proof (Rabs_pos (a - u)). pose proof (Rabs_pos (b - v)). nra.
Qed.
Lemma dist_pos a b u v : 0 <= dist_euc a b u v. Proof. apply sqrt_pos. Qed.
Open Scope Z_scope.

(** ** Middles of cells *)
Lemma middle_near mn mx n i : axis_geo mn mx n -> 0 <= i < n -> fin (centre mn mx n i) /\ (Rabs (xr (centre mn mx n i) - middle mn mx n i) <= / 5000)%R.
Proof.
  intros G I. destruct (centre_spec mn mx n G i I) as [F E]. split; [exact F|]. destruct (geo_inc mn mx n G) as (_ & _ & N). unfold middle, cell_size.
  set (inc := fdiv (fsub mx mn) (f32_of_Z n)) in *. assert (N0 : (1 <= IZR n)%R) by (apply IZR_le; lia).
  assert (I0 : (0 <= IZR i <= IZR n - 1)%R) by (split; [apply IZR_le; lia|rewrite <- minus_IZR; apply IZR_le; lia]).
  assert (D : (Rabs ((IZR i + / 2) * xr inc - (IZR i + / 2) * ((xr mx - xr mn) / IZR n)) <= / 8192)%R).
  { replace ((IZR i + / 2) * xr inc - (IZR i + / 2) * ((xr mx - xr mn) / IZR n))%R with (((IZR i + / 2) / IZR n) * (IZR n * xr inc - (xr mx - xr mn)))%R by (field; lra).
    rewrite Rabs_mult. assert (Q : (0 <= (IZR i + / 2) / IZR n <= 1)%R).
    { split; [apply Rmult_le_pos; [lra|left; apply Rinv_0_lt_compat; lra]|]. apply Rmult_le_reg_r with (IZR n); [lra|]. unfold Rdiv. rewrite Rmult_assoc, Rinv_l by lra. lra. }
    rewrite (Rabs_pos_eq _ (proj1 Q)). pose proof (Rabs_pos (IZR n * xr inc - (xr mx - xr mn))). apply Rle_trans with (1 * Rabs (IZR n * xr inc - (xr mx - xr mn)))%R; [apply Rmult_le_compat_r; [assumption|apply Q]|lra]. }
  apply Rabs_le_inv in D, E. apply Rabs_le. lra.
Qed.

Section Grid.
  Context (w h : Z) (e : extent) (GG : geo_grid w h e).
  Definition spot (i j : Z) : lat_lon :=
    {| lat := centre (lat (min_coord e)) (lat (max_coord e)) h j; lon := centre (lon (min_coord e)) (lon (max_coord e)) w i |}.
  Lemma from_spot i j c : 0 <= i < w -> 0 <= j < h -> (Rabs (from_middle w h e i j c - straight c (spot i j)) <= / 2500)%R.
  Proof.
    intros I J. destruct GG as [A B]. destruct (middle_near _ _ _ _ A I) as [_ E1]. destruct (middle_near _ _ _ _ B J) as [_ E2]. unfold from_middle, straight, spot. cbn [lat lon].
    rewrite Rabs_minus_sym. eapply Rle_trans; [apply dist_shift; [exact E2|exact E1]|]. lra.
  Qed.
  Lemma spot_fin i j : 0 <= i < w -> 0 <= j < h -> fin_coord (spot i j) /\ (Rabs (xr (lat (spot i j))) <= 181)%R /\ (Rabs (xr (lon (spot i j))) <= 181)%R.
  Proof.
    intros I J. destruct GG as [A B]. destruct (middle_near _ _ _ _ A I) as [F1 _]. destruct (middle_near _ _ _ _ B J) as [F2 _].
    split; [split; assumption|]. split; apply centre_bound; assumption.
  Qed.

  Context (cs : list lat_lon) (d : f32) (Fd : fin d) (Bd : (0 <= xr d <= 64)%R) (Cl : Forall (clear_of_antimeridian d) cs).
  Lemma reach_square_spec : fin (fmul d d) /\ (Rabs (xr (fmul d d) - xr d * xr d) <= / 16777216 * (xr d * xr d) + / 100000000000000000)%R.
  Proof.
    assert (K4 : (0 <= rnd (xr d * xr d) <= 4096)%R) by (apply rnd_between; [apply (gen_Z 0); lia|apply (gen_Z 4096); lia|nra]).
    destruct (rounds_fin _ _ (fin_mul d d Fd Fd)) as [Fq Eq]; [lt_big|]. split; [exact Fq|]. rewrite Eq.
    pose proof (rnd_err (xr d * xr d)) as E. rewrite ulp_half_val, (Rabs_pos_eq (xr d * xr d)) in E by nra. pose proof tiny as S. lra.
  Qed.
  Lemma point_distance c i j : In c cs -> 0 <= i < w -> 0 <= j < h ->
    fin (dist_squared c (spot i j)) /\ close (xr (dist_squared c (spot i j))) (straight c (spot i j)).
  Proof.
    intros C I J. rewrite Forall_forall in Cl. destruct (Cl c C) as (Fc & A & O). destruct (spot_fin i j I J) as (Fs & S1 & S2). apply distance_close; try assumption; lra.
  Qed.
  Lemma nearby_spot c i j s : 0 <= i < w -> 0 <= j < h -> nearby (grid_new w h e) d c i j s <-> s = dist_squared c (spot i j) /\ fgt s (fmul d d) = false.
  Proof.
    intros I J. unfold nearby. rewrite (geo_centre w h e i j GG I J). fold (spot i j). split.
    - intros (p & E & -> & R). injection E as <-. auto.
    - intros (-> & R). exists (spot i j). auto.
  Qed.
  Lemma of_points_spec chk u {T} (vs : list T) missing i j :
    calc_coord_dist_lookup_map chk (unstructured_new None w h e cs) d = Ok u -> 0 <= i -> 0 <= j ->
    exists o, unstructured_value_by_xy {| uv_grid := u; uv_values := vs; uv_missing := missing |} i j = Ok o /\ of_points w h e cs vs d i j o.
  Proof.
    intros U I J. assert (Gu : ug_grid u = grid_new w h e).
    { pose proof U as U'. unfold calc_coord_dist_lookup_map, calc_lookup in U'. destruct (visit_coords _ _ _ _ _ _ _) as [m| |]; cbn [omap obind] in U'; try discriminate U'. injection U' as <-. reflexivity. }
    unfold unstructured_value_by_xy. cbn [uv_grid uv_values].
    destruct (Z_lt_dec i w) as [Iw|Iw]; [destruct (Z_lt_dec j h) as [Jh|Jh]|].
    2,3: exists None; split; [unfold get_coord_dist, index_by_xy; rewrite Gu; cbn [grid_new g_w g_h]; destruct (Z.leb_spec w i); destruct (Z.leb_spec h j); try lia; reflexivity|left; split; [lia|reflexivity]].
    assert (Ii : 0 <= i < w) by lia. assert (Jj : 0 <= j < h) by lia.
    destruct (c19_complete_proof chk w h e cs d u i j GG Fd Bd Cl U Ii Jj) as [S N].
    destruct (c19_total_proof chk w h e cs d ltac:(lia) ltac:(lia)) as (u' & U' & T'). rewrite U in U'. injection U' as <-.
    destruct (T' i j Ii Jj) as ([[k s]|] & O); rewrite O; cbn [omap obind].
    - destruct (S k s O) as (K & c & Nc & Ne & Mi). eexists. split; [reflexivity|]. right. split; [exact Ii|]. split; [exact Jj|]. left. exists (Z.to_nat k), c.
      split; [exact Nc|]. split; [reflexivity|]. pose proof (nth_error_In _ _ Nc) as Ic. apply nearby_spot in Ne; [|exact Ii|exact Jj]. destruct Ne as [-> R].
      destruct (point_distance c i j Ic Ii Jj) as [Fs Es]. destruct reach_square_spec as [Fq Eq]. pose proof R as R'. apply fgt_false in R; [|exact Fs|exact Fq]. apply Rabs_le_inv in Eq.
      pose proof (straight_pos c (spot i j)) as P0. assert (Q : (straight c (spot i j) <= xr d + / 8192)%R) by (eapply square_reach; [exact P0|exact Bd|exact Es|lra]).
      pose proof (from_spot i j c Ii Jj) as A. apply Rabs_le_inv in A. split; [lra|].
      intros c' Ic'. destruct (point_distance c' i j Ic' Ii Jj) as [Fs' Es']. pose proof (from_spot i j c' Ii Jj) as A'. apply Rabs_le_inv in A'.
      assert (L : (xr (dist_squared c (spot i j)) <= xr (dist_squared c' (spot i j)))%R).
      { destruct (fgt (dist_squared c' (spot i j)) (fmul d d)) eqn:G'.
        - apply fgt_fin in G'; [lra|exact Fs'|exact Fq].
        - destruct (In_nth_error _ _ Ic') as (k' & Nc'). destruct (Mi k' c' (dist_squared c' (spot i j)) Nc'); [apply nearby_spot; [exact Ii|exact Jj|auto]|assumption]. }
      assert (P1 : (0 <= straight c (spot i j) <= 65)%R) by lra. pose proof (square_nearer _ _ _ _ P1 (straight_pos c' _) Es Es' L). lra.
    - exists None. split; [reflexivity|]. right. split; [exact Ii|]. split; [exact Jj|]. right. split; [reflexivity|]. intros c Ic.
      destruct (point_distance c i j Ic Ii Jj) as [Fs Es]. destruct reach_square_spec as [Fq Eq]. apply Rabs_le_inv in Eq.
      destruct (fgt (dist_squared c (spot i j)) (fmul d d)) eqn:G'; [|exfalso; apply (N O c (dist_squared c (spot i j)) Ic); apply nearby_spot; [exact Ii|exact Jj|auto]].
      apply fgt_fin in G'; [|exact Fs|exact Fq]. assert (L : (xr d * xr d - / 16777216 * (xr d * xr d) - / 100000000000000000 <= xr (dist_squared c (spot i j)))%R) by lra. pose proof (square_beyond _ _ _ (straight_pos c _) Bd Es L). pose proof (from_spot i j c Ii Jj) as A. apply Rabs_le_inv in A. lra.
  Qed.
End Grid.

(** ** Lookups by place *)
Lemma asked_spec {T} w h e p (get : Z -> Z -> outcome (option T)) (cell : Z -> Z -> option T -> Prop) : grid_ok w h e -> fin_coord p ->
  (forall i j, 0 <= i -> 0 <= j -> exists o, get i j = Ok o /\ cell i j o) ->
  exists o, match xy_by_lat_lon (grid_new w h e) p with None => Ok None | Some (x0, y0) => get (f_to_usize (fround x0)) (f_to_usize (fround y0)) end = Ok o /\
    asked e w h cell p o.
Proof.
  intros G F C. pose proof (c15_defined_proof w h e p (grid_ok_extent w h e G) F) as D.
  destruct (xy_by_lat_lon (grid_new w h e) p) as [[x y]|] eqn:X.
  - destruct (xy_range w h e p x y G F X) as (Fx & Fy & Rx & Ry).
    assert (Hw : 1 <= w <= 2 ^ 24) by apply G. assert (Hh : 1 <= h <= 2 ^ 24) by apply G.
    destruct (cell_of x w Fx Hw Rx) as (_ & _ & A & _ & _ & A0 & _). destruct (cell_of y h Fy Hh Ry) as (_ & _ & B & _ & _ & B0 & _). rewrite A, B.
    destruct (C _ _ A0 B0) as (o & E & Co). exists o. split; [exact E|]. right. split; [apply D; discriminate|]. exists (Zround (xr x)), (Zround (xr y)).
    destruct (c15_accuracy_proof w h e p x y G F X) as [Ax Ay]. replace (bpow radix2 (-21)) with (/ 2097152)%R in Ax, Ay by (cbn; lra).
    pose proof (Zround_nearest (xr x)) as Bi. pose proof (Zround_nearest (xr y)) as Bj.
    split; [|split; [|exact Co]]; (split; [assumption|]); unfold cells_from.
    + eapply Rle_trans; [|apply (Rplus_le_compat _ _ _ _ Bi Ax)]. eapply Rle_trans; [|apply Rabs_triang]. right. f_equal. lra.
    + eapply Rle_trans; [|apply (Rplus_le_compat _ _ _ _ Bj Ay)]. eapply Rle_trans; [|apply Rabs_triang]. right. f_equal. lra.
  - exists None. split; [reflexivity|]. left. split; [|reflexivity]. intro A. apply D in A. contradiction.
Qed.
Lemma lookup_grid chk w h e cs d u : calc_coord_dist_lookup_map chk (unstructured_new None w h e cs) d = Ok u -> ug_grid u = grid_new w h e.
Proof.
  intro U. unfold calc_coord_dist_lookup_map, calc_lookup in U. destruct (visit_coords _ _ _ _ _ _ _) as [m| |]; cbn [omap obind] in U; try discriminate U. injection U as <-. reflexivity.
Qed.
Lemma c73_points_proof : forall T chk w h e cs d u (vs : list T) missing p, geo_grid w h e -> fin d -> (0 <= xr d <= 64)%R -> Forall (clear_of_antimeridian d) cs ->
  calc_coord_dist_lookup_map chk (unstructured_new None w h e cs) d = Ok u -> fin_coord p ->
  exists o, unstructured_value_by_lat_lon {| uv_grid := u; uv_values := vs; uv_missing := missing |} p = Ok o /\ asked e w h (of_points w h e cs vs d) p o.
Proof.
  intros T chk w h e cs d u vs missing p G Fd Bd Cl U Fp. unfold unstructured_value_by_lat_lon. cbn [uv_grid]. rewrite (lookup_grid _ _ _ _ _ _ _ U).
  apply asked_spec; [apply geo_grid_ok; exact G|exact Fp|]. intros i j I J. eapply of_points_spec; eassumption.
Qed.

(** From a place to the middle of its cell. *)
Lemma place_middle mn mx n v i : axis_geo mn mx n -> closest mn mx n v i -> (Rabs (xr v - middle mn mx n i) <= cell_size mn mx n + / 5000)%R.
Proof.
  intros G [_ C]. unfold middle, cell_size in *. destruct G as (_ & _ & N & L & U & S). assert (N0 : (1 <= IZR n)%R) by (apply IZR_le; lia).
  set (r := (xr mx - xr mn)%R) in *. assert (R0 : (0 < r <= 360)%R) by (unfold r in *; split; [|lra]; assert (0 < IZR n * / 512)%R by lra; lra).
  assert (E : (xr v - xr mn = cells_from mn mx n v * (r / IZR n))%R) by (unfold cells_from; fold r; field; lra).
  assert (Z0 : (0 < r / IZR n)%R) by (apply Rdiv_lt_0_compat; lra).
  replace (xr v - (xr mn + (IZR i + / 2) * (r / IZR n)))%R with ((cells_from mn mx n v - IZR i - / 2) * (r / IZR n))%R by (rewrite <- (Rmult_1_r (xr v)); lra).
  rewrite Rabs_mult, (Rabs_pos_eq (r / IZR n)) by lra. apply Rabs_le_inv in C.
  apply Rle_trans with ((1 + IZR n / 2097152) * (r / IZR n))%R; [apply Rmult_le_compat_r; [lra|apply Rabs_le; lra]|].
  replace ((1 + IZR n / 2097152) * (r / IZR n))%R with (r / IZR n + r / 2097152)%R by (field; lra). lra.
Qed.
Lemma size_pos mn mx n : axis_geo mn mx n -> (0 <= cell_size mn mx n)%R.
Proof.
  intros (_ & _ & N & L & U & S). assert (N0 : (1 <= IZR n)%R) by (apply IZR_le; lia). apply Rmult_le_pos; [|left; apply Rinv_0_lt_compat; lra]. lra.
Qed.
Lemma place_cell w h e p c i j : geo_grid w h e -> closest (lon (min_coord e)) (lon (max_coord e)) w (lon p) i -> closest (lat (min_coord e)) (lat (max_coord e)) h (lat p) j ->
  (Rabs (between c p - from_middle w h e i j c) <= diagonal w h e + / 2500)%R.
Proof.
  intros [A B] I J. pose proof (place_middle _ _ _ _ _ A I) as Mi. pose proof (place_middle _ _ _ _ _ B J) as Mj. unfold between, from_middle, diagonal.
  set (mi := middle (lon (min_coord e)) _ _ _) in *. set (mj := middle (lat (min_coord e)) _ _ _) in *. set (si := cell_size (lon (min_coord e)) _ _) in *. set (sj := cell_size (lat (min_coord e)) _ _) in *.
  pose proof (dist_box _ _ _ _ _ _ Mj Mi) as D. pose proof (triangle 0 0 (sj + / 5000) (si + / 5000) sj si) as T. pose proof (dist_sum sj si (sj + / 5000) (si + / 5000)) as S.
  replace (sj - (sj + / 5000))%R with (- / 5000)%R in S by ring. replace (si - (si + / 5000))%R with (- / 5000)%R in S by ring. rewrite Rabs_Ropp, Rabs_pos_eq in S by lra.
  pose proof (triangle (xr (lat c)) (xr (lon c)) (xr (lat p)) (xr (lon p)) mj mi) as T1. pose proof (triangle (xr (lat c)) (xr (lon c)) mj mi (xr (lat p)) (xr (lon p))) as T2.
  rewrite (distance_symm mj mi (xr (lat p)) (xr (lon p))) in T1. apply Rabs_le. lra.
Qed.
Lemma c73_near_proof : forall T chk w h e cs d u (vs : list T) missing p v, geo_grid w h e -> fin d -> (0 <= xr d <= 64)%R -> Forall (clear_of_antimeridian d) cs ->
  calc_coord_dist_lookup_map chk (unstructured_new None w h e cs) d = Ok u -> fin_coord p ->
  unstructured_value_by_lat_lon {| uv_grid := u; uv_values := vs; uv_missing := missing |} p = Ok (Some v) ->
  exists k c, nth_error cs k = Some c /\ nth_error vs k = Some v /\ (between c p <= xr d + diagonal w h e + / 500)%R /\
    forall c', In c' cs -> (between c p <= between c' p + 2 * diagonal w h e + / 500)%R.
Proof.
  intros T chk w h e cs d u vs missing p v G Fd Bd Cl U Fp E. destruct (c73_points_proof T chk w h e cs d u vs missing p G Fd Bd Cl U Fp) as (o & E' & A).
  rewrite E in E'. injection E' as <-. destruct A as [[_ A]|(_ & i & j & Ci & Cj & [[_ A]|(_ & _ & [(k & c & Nc & Nv & R & M)|[A _]])])]; try discriminate A.
  exists k, c. split; [exact Nc|]. split; [symmetry; exact Nv|]. pose proof (place_cell w h e p c i j G Ci Cj) as D. apply Rabs_le_inv in D. split; [lra|].
  intros c' Ic'. pose proof (place_cell w h e p c' i j G Ci Cj) as D'. apply Rabs_le_inv in D'. specialize (M c' Ic'). lra.
Qed.
Lemma c73_found_proof : forall T chk w h e cs d u (vs : list T) missing p c, geo_grid w h e -> fin d -> (0 <= xr d <= 64)%R -> Forall (clear_of_antimeridian d) cs ->
  calc_coord_dist_lookup_map chk (unstructured_new None w h e cs) d = Ok u -> fin_coord p -> length vs = length cs -> well_inside w h e p ->
  In c cs -> (between c p + diagonal w h e + / 500 <= xr d)%R ->
  exists v, unstructured_value_by_lat_lon {| uv_grid := u; uv_values := vs; uv_missing := missing |} p = Ok (Some v).
Proof.
  intros T chk w h e cs d u vs missing p c G Fd Bd Cl U Fp L (I & Wx & Wy) Ic Near. destruct (c73_points_proof T chk w h e cs d u vs missing p G Fd Bd Cl U Fp) as (o & E & A).
  destruct A as [[A _]|(_ & i & j & Ci & Cj & A)]; [contradiction|].
  assert (Li : i < w) by (apply lt_IZR; destruct Ci as [_ Q]; apply Rabs_le_inv in Q; lra). assert (Lj : j < h) by (apply lt_IZR; destruct Cj as [_ Q]; apply Rabs_le_inv in Q; lra).
  destruct A as [[A _]|(_ & _ & [(k & c' & Nc & Nv & _)|[_ A]])]; [lia| |].
  - destruct o as [v|]; [exists v; exact E|]. symmetry in Nv. apply nth_error_None in Nv. assert (nth_error cs k <> None) as Q by congruence. apply nth_error_Some in Q. lia.
  - specialize (A c Ic). pose proof (place_cell w h e p c i j G Ci Cj) as D. apply Rabs_le_inv in D. lra.
Qed.

(** The regular grid made from it. *)
Lemma c73_regular_proof : forall (V : value_type) chk w h e cs d u (vs : list (carrier V)) missing p, grid_ok w h e -> fin_coord p ->
  calc_coord_dist_lookup_map chk (unstructured_new None w h e cs) d = Ok u -> v_eqb V missing missing = true ->
  let grid := {| uv_grid := u; uv_values := vs; uv_missing := missing |} in
  exists g o, create_regular_grid grid = Ok g /\ unstructured_value_by_lat_lon grid p = Ok o /\
    value_by_lat_lon V g p = Ok (match o with Some v => if v_eqb V v missing then None else Some v | None => None end).
Proof.
  intros V chk w h e cs d u vs missing p G Fp U Q grid. pose proof (lookup_grid _ _ _ _ _ _ _ U) as Gu.
  assert (Hw : 1 <= w) by apply G. assert (Hh : 1 <= h) by apply G.
  destruct (lookup_map_slots chk w h e cs d Hw Hh) as (m & E & L & S). rewrite U in E. injection E as E.
  assert (Lm : length (ug_map u) = Z.to_nat (w * h)) by (rewrite E; exact L).
  destruct (c20_values_proof (carrier V) grid) as (gs & Eg & Lg & Vg); [cbn [grid uv_grid]; rewrite Gu; cbn [grid_new g_w g_h]; lia|cbn [grid uv_grid]; rewrite Gu; cbn [grid_new g_w g_h]; lia|cbn [grid uv_grid]; rewrite Gu; exact Lm|].
  unfold unstructured_value_by_lat_lon, value_by_lat_lon. exists (value_grid_new gs missing w h e).
  cbn [grid uv_grid uv_missing] in Eg, Lg, Vg. rewrite Gu in Eg, Lg, Vg. cbn [grid_new g_w g_h g_extent] in Eg, Lg, Vg. cbn [grid uv_grid vg_grid value_grid_new]. rewrite Gu.
  destruct (xy_by_lat_lon (grid_new w h e) p) as [[x y]|] eqn:X; [|exists None; split; [exact Eg|split; reflexivity]].
  destruct (xy_range w h e p x y G Fp X) as (Fx & Fy & Rx & Ry).
  assert (Hw' : 1 <= w <= 2 ^ 24) by apply G. assert (Hh' : 1 <= h <= 2 ^ 24) by apply G.
  destruct (cell_of x w Fx Hw' Rx) as (_ & _ & A & _ & _ & A0 & _). destruct (cell_of y h Fy Hh' Ry) as (_ & _ & B & _ & _ & B0 & _). rewrite A, B.
  set (i := Zround (xr x)) in *. set (j := Zround (xr y)) in *. unfold value_by_xy, unstructured_value_by_xy. cbn [vg_grid uv_grid uv_values vg_values vg_missing value_grid_new].
  destruct (Z_lt_dec i w) as [Iw|Iw]; [destruct (Z_lt_dec j h) as [Jh|Jh]|].
  2,3: exists None; split; [exact Eg|]; unfold get_coord_dist; change (uv_grid grid) with u; rewrite Gu; unfold index_by_xy; cbn [grid_new g_w g_h]; destruct (Z.leb_spec w i); destruct (Z.leb_spec h j); try lia; split; reflexivity.
  destruct (Vg i j ltac:(lia) ltac:(lia)) as (o & Eo & Nv). change (uv_grid grid) with u; rewrite Eo. unfold index_by_xy. cbn [grid_new g_w g_h]. destruct (Z.leb_spec w i); [lia|]. destruct (Z.leb_spec h j); [lia|]. cbn [orb].
  unfold index_vec. rewrite (Z.add_comm i), Nv. cbn [omap obind uv_values grid]. eexists. split; [exact Eg|]. split; [reflexivity|].
  destruct o as [[k s]|]; [|cbn [omap]; rewrite Q; reflexivity]. destruct (nth_error vs (Z.to_nat k)) as [v|] eqn:N.
  - rewrite (nth_error_nth _ _ missing N). cbn [omap]. destruct (v_eqb V v missing); reflexivity.
  - rewrite nth_overflow by (apply nth_error_None; exact N). cbn [omap]. rewrite Q. reflexivity.
Qed.

(** ** Layers *)
Lemma c73_weather_proof : forall l p, regular (we_clct l) -> regular (we_ceiling l) -> fin_coord p ->
  (exists o, clct_by_lat_lon l p = Ok o /\ value_near (we_clct l) p o) /\ (exists o, ceiling_by_lat_lon l p = Ok o /\ value_near (we_ceiling l) p o) /\
  (we_ww l = None -> ww_by_lat_lon l p = Ok None) /\
  (forall g, we_ww l = Some g -> regular g -> exists o, value_near g p o /\
     match o with
     | None => ww_by_lat_lon l p = Ok None
     | Some v => num v -> (exists c, In (floor_within (xr v), c) wmo_table /\ ww_by_lat_lon l p = Ok (Some c)) \/ (~ In (floor_within (xr v)) wmo_codes /\ ww_by_lat_lon l p = Panic)
     end).
Proof.
  intros l p A B F. split; [apply value_near_spec; assumption|]. split; [apply value_near_spec; assumption|].
  split; [intro N; unfold ww_by_lat_lon; rewrite N; reflexivity|]. intros g N R. destruct (value_near_spec g p R F) as (o & E & V). exists o. split; [exact V|].
  unfold ww_by_lat_lon. rewrite N. change fgrid with (value_grid (carrier f32_type)) in g. rewrite E. cbn [obind]. destruct o as [v|]; [|reflexivity]. intro Nv.
  pose proof (c57_cover_proof v Nv) as C. unfold clc_transform in C. rewrite C. destruct (c45_domain_proof (floor_within (xr v))) as [(J & c & Ec)|[J Ec]].
  - left. exists c. split; [exact (proj1 (proj1 (c45_table_proof _ _)) Ec)|]. rewrite Ec. reflexivity.
  - right. split; [exact J|]. rewrite Ec. reflexivity.
Qed.
Lemma c73_plain_proof : forall l p, regular l -> fin_coord p -> exists o, plain_by_lat_lon l p = Ok o /\ value_near l p o.
Proof. intros l p. apply value_near_spec. Qed.

(** ** Three neighbours *)
Lemma c73_three_proof : forall (V : value_type) sum w h e (u : unstructured triple) (vs : list (carrier V)) missing p, grid_ok w h e -> fin_coord p -> ug_grid u = grid_new w h e ->
  let grid := {| uv_grid := u; uv_values := vs; uv_missing := missing |} in
  (~ in_extent e p /\ unstructured_value_by_lat_lon1 V sum grid p = Ok None) \/
  (in_extent e p /\ exists i j, closest (lon (min_coord e)) (lon (max_coord e)) w (lon p) i /\ closest (lat (min_coord e)) (lat (max_coord e)) h (lat p) j /\
     unstructured_value_by_lat_lon1 V sum grid p = unstructured_value_by_xy1 V sum grid i j).
Proof.
  intros V sum w h e u vs missing p G F Gu grid. unfold unstructured_value_by_lat_lon1. cbn [grid uv_grid]. rewrite Gu. fold grid.
  destruct (@asked_spec (Z * Z) w h e p (fun i j => Ok (Some (i, j))) (fun i j o => o = Some (i, j)) G F) as (o & E & A); [intros i j _ _; eexists; split; reflexivity|].
  destruct A as [[N ->]|(I & i & j & Ci & Cj & ->)].
  - left. split; [exact N|]. destruct (xy_by_lat_lon (grid_new w h e) p) as [[x y]|]; [discriminate E|reflexivity].
  - right. split; [exact I|]. exists i, j. split; [exact Ci|]. split; [exact Cj|]. destruct (xy_by_lat_lon (grid_new w h e) p) as [[x y]|]; [|discriminate E]. injection E as -> ->. reflexivity.
Qed.
Lemma c73_plain_cell_proof : forall l w h x y, dims l = (w, h) -> complete l -> 0 <= x -> 0 <= y ->
  exists o, plain_by_xy l x y = Ok o /\ forall v, o = Some v <-> x < w /\ y < h /\ nth_error (vg_values l) (Z.to_nat (y * w + x)) = Some v /\ feq v (vg_missing l) = false.
Proof.
  intros l w h x y D C X Y. unfold complete in C. unfold dims in *. injection D as <- <-. cbn [fst snd] in C.
  exact (GeoValueProofs.value_by_xy_spec f32_type l x y X Y ltac:(change (carrier f32_type) with f32; lia)).
Qed.
