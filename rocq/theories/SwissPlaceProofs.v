(** Proofs about the distances between the stations and the cells of the Swiss forecasts (C72). *)
From Coq Require Import ZArith Reals Psatz Bool List Lia Lra.
From Coq Require Import Floats.SpecFloat.
From Flocq Require Import Core.Core IEEE754.BinarySingleNaN.
From Verif Require Import Base F32 F32Facts GeoModel GeoSpec GeoProofs GeoValueProofs GeoLookupProofs SwissCells SwissMapSpec.
Import ListNotations.
Open Scope Z_scope.

Lemma tiny : (bpow radix2 (-150) <= / 4294967296 * / 4294967296 * / 4294967296)%R.
Proof. apply Rle_trans with (bpow radix2 (-96)); [apply bpow_le; lia|]. cbn. lra. Qed.

(** ** Centres of cells *)

Definition south : f32 := f32_lit 4203 100.
Definition north : f32 := f32_lit 5050 100.
Definition west : f32 := f32_lit (-81) 100.
Definition east : f32 := f32_lit 1770 100.
Ltac known x F := let E := fresh "E" in assert (E : exists z, x = z) by eauto; destruct E as (? & E); rewrite E; vm_compute in E; subst; F.

Lemma area_axes : axis_geo south north 847 /\ axis_geo west east 1851.
Proof.
  unfold axis_geo. split.
  - known south idtac. known north idtac. unfold xr, SF2R, F2R. cbn. repeat split; try lia; try lra; reflexivity.
  - known west idtac. known east idtac. unfold xr, SF2R, F2R. cbn. repeat split; try lia; try lra; reflexivity.
Qed.
Lemma lat_inc : (Rabs (xr south - 42.03) <= / 400000 /\ Rabs (847 * (xr (fdiv (fsub north south) (f32_of_Z 847)) - / 100)) <= / 400000)%R.
Proof. known (fdiv (fsub north south) (f32_of_Z 847)) idtac. known south idtac. unfold xr, SF2R, F2R. cbn. split; apply Rabs_le; lra. Qed.
Lemma lon_inc : (Rabs (xr west - - 0.81) <= / 400000 /\ Rabs (1851 * (xr (fdiv (fsub east west) (f32_of_Z 1851)) - / 100)) <= / 400000)%R.
Proof. known (fdiv (fsub east west) (f32_of_Z 1851)) idtac. known west idtac. unfold xr, SF2R, F2R. cbn. split; apply Rabs_le; lra. Qed.

(** The computed centre of a cell, on one axis. *)
Lemma centre_close mn mx n x m0 : axis_geo mn mx n -> 0 <= x < n -> (1 <= IZR n)%R ->
  (-64 <= xr mn)%R -> (xr mx <= 63)%R -> (xr mx - xr mn <= 20)%R ->
  (Rabs (xr mn - m0) <= / 400000)%R -> (Rabs (IZR n * (xr (fdiv (fsub mx mn) (f32_of_Z n)) - / 100)) <= / 400000)%R ->
  fin (centre mn mx n x) /\ (Rabs (xr (centre mn mx n x) - (m0 + (IZR x + / 2) / 100)) <= / 65536)%R.
Proof.
  intros G Hx N0 L0 L1 L2 M0 I0. pose proof (geo_n mn mx n G) as Hn. destruct (geo_inc mn mx n G) as (Fi & Li & Ni). pose proof G as (F1 & F2 & H1 & H2 & H3 & H4).
  destruct (half_plus mn mx n G x Hx) as [Fp Ep]. set (inc := fdiv (fsub mx mn) (f32_of_Z n)) in *.
  assert (X1 : (0 <= IZR x <= IZR n - 1)%R). { split; [apply IZR_le; lia|]. rewrite <- minus_IZR. apply IZR_le. lia. }
  assert (Q : (Rabs ((IZR x + / 2) * (xr inc - / 100)) <= / 400000)%R).
  { rewrite Rabs_mult in *. rewrite (Rabs_pos_eq (IZR n)) in I0 by lra. rewrite Rabs_pos_eq by lra. eapply Rle_trans; [|exact I0]. apply Rmult_le_compat_r; [apply Rabs_pos|lra]. }
  set (t := ((IZR x + / 2) * xr inc)%R) in *. pose proof tiny as S.
  apply Rabs_le_inv in Ni, Q, M0.
  assert (T : (0 <= t <= xr mx - xr mn - / 1026 + / 8192)%R).
  { unfold t. split; [nra|]. assert ((IZR x + / 2) * xr inc <= (IZR n - / 2) * xr inc)%R by nra. nra. }
  pose proof (fin_mul _ _ Fp Fi) as R1. rewrite Ep in R1. fold t in R1.
  pose proof (rnd_err t) as E1. rewrite ulp_half_val, (Rabs_pos_eq t) in E1 by lra. apply Rabs_le_inv in E1.
  destruct (rounds_fin _ _ R1) as [Fm Em]; [lt_big|].
  pose proof (fin_add _ _ F1 Fm) as R2. rewrite Em in R2. set (s := (xr mn + rnd t)%R) in *.
  assert (T0 : (0 <= rnd t)%R) by (rewrite <- rnd_0 at 1; apply rnd_mono; lra).
  assert (Sa : (Rabs s <= 64)%R) by (unfold s; apply Rabs_le; lra).
  pose proof (rnd_err s) as E2. rewrite ulp_half_val in E2. assert (E2' : (Rabs (rnd s - s) <= / 200000)%R) by lra. apply Rabs_le_inv in E2', Sa.
  destruct (rounds_fin _ _ R2) as [Fs Es]; [lt_big|].
  unfold centre. fold inc. rewrite normalize_id; [|exact Fs|rewrite Es; lra].
  split; [exact Fs|]. rewrite Es. replace ((IZR x + / 2) / 100)%R with (t - (IZR x + / 2) * (xr inc - / 100))%R by (unfold t; field). apply Rabs_le. unfold s in *. lra.
Qed.

(** ** Squared distances *)

(** One coordinate. *)
Lemma square_close a b : fin a -> fin b -> (Rabs (xr a) <= 181)%R -> (Rabs (xr b) <= 181)%R ->
  fin (fmul (fsub a b) (fsub a b)) /\ (0 <= xr (fmul (fsub a b) (fsub a b)) <= 500000)%R /\
  (Rabs (xr (fmul (fsub a b) (fsub a b)) - (xr a - xr b) * (xr a - xr b)) <= 5 * / 16777216 * ((xr a - xr b) * (xr a - xr b)) + / 1000000000000000000)%R.
Proof.
  intros Fa Fb Ba Bb. apply Rabs_le_inv in Ba, Bb. pose proof tiny as S. set (t := bpow radix2 (-150)) in *. assert (T0 : (0 <= t)%R) by apply bpow_ge_0.
  assert (K : (-400 <= rnd (xr a - xr b) <= 400)%R) by (apply rnd_between; [apply (gen_Z (-400)); lia|apply (gen_Z 400); lia|lra]).
  destruct (rounds_fin _ _ (fin_sub a b Fa Fb)) as [Fs Es]; [lt_big|].
  pose proof (rnd_err (xr a - xr b)) as E1. rewrite ulp_half_val in E1. fold t in E1. rewrite <- Es in E1, K. set (u := xr (fsub a b)) in *. set (v := (xr a - xr b)%R) in *.
  assert (K2 : (0 <= rnd (u * u) <= 500000)%R) by (apply rnd_between; [apply (gen_Z 0); lia|apply (gen_Z 500000); lia|nra]).
  destruct (rounds_fin _ _ (fin_mul _ _ Fs Fs)) as [Fm Em]; [fold u; lt_big|]. fold u in Em. rewrite Em. split; [exact Fm|]. split; [exact K2|].
  pose proof (rnd_err (u * u)) as E2. rewrite ulp_half_val in E2. fold t in E2. rewrite (Rabs_pos_eq (u * u)) in E2 by nra.
  set (A := Rabs v) in *. assert (A0 : (0 <= A <= 362)%R) by (unfold A, v; split; [apply Rabs_pos|apply Rabs_le; lra]).
  assert (VV : (v * v = A * A)%R) by (unfold A, Rabs; destruct Rcase_abs; ring).
  assert (D : (Rabs (u * u - v * v) <= (/ 16777216 * A + t) * (2 * A + / 16777216 * A + t))%R).
  { replace (u * u - v * v)%R with ((u - v) * (u + v))%R by ring. rewrite Rabs_mult. apply Rmult_le_compat; [apply Rabs_pos|apply Rabs_pos|exact E1|].
    replace (u + v)%R with (2 * v + (u - v))%R by ring. eapply Rle_trans; [apply Rabs_triang|]. rewrite Rabs_mult, (Rabs_pos_eq 2) by lra. fold A. lra. }
  set (k := (/ 16777216)%R) in *. assert (K0 : (0 < k <= / 1000000)%R) by (unfold k; lra).
  assert (D' : (Rabs (u * u - v * v) <= 3 * k * (A * A) + 2000 * t)%R).
  { eapply Rle_trans; [exact D|]. assert (0 <= A * A)%R by nra. assert (k * (A * A) <= A * A)%R by nra. assert (t * A <= 362 * t)%R by nra. assert (k * (t * A) <= t * A)%R by (assert (0 <= t * A)%R by nra; nra). assert (t * t <= t)%R by nra.
    replace ((k * A + t) * (2 * A + k * A + t))%R with (2 * k * (A * A) + k * (k * (A * A)) + 2 * (k * (t * A)) + 2 * (t * A) + t * t)%R by ring.
    assert (k * (k * (A * A)) <= k * (A * A))%R by (apply Rmult_le_compat_l; lra). lra. }
  rewrite VV in *. apply Rabs_le_inv in D', E2. assert (P : (0 <= A * A)%R) by nra.
  assert (U : (k * (u * u) <= k * (2 * (A * A) + 2000 * t))%R) by (apply Rmult_le_compat_l; [lra|]; assert (3 * k * (A * A) <= A * A)%R by nra; lra).
  assert (k * t <= t)%R by nra. apply Rabs_le. lra.
Qed.
(** The computed square of the distance. *)
Definition straight (c p : lat_lon) : R := dist_euc (xr (lat c)) (xr (lon c)) (xr (lat p)) (xr (lon p)).
Lemma straight_pos c p : (0 <= straight c p)%R. Proof. apply sqrt_pos. Qed.
Lemma distance_close c p : fin_coord c -> fin_coord p -> (Rabs (xr (lat c)) <= 181)%R -> (Rabs (xr (lon c)) <= 181)%R ->
  (Rabs (xr (lat p)) <= 181)%R -> (Rabs (xr (lon p)) <= 181)%R ->
  fin (dist_squared c p) /\ (Rabs (xr (dist_squared c p) - straight c p * straight c p) <= / 2000000 * (straight c p * straight c p) + / 100000000000000000)%R.
Proof.
  intros [C1 C2] [P1 P2] B1 B2 B3 B4. destruct (square_close _ _ C1 P1 B1 B3) as (F1 & R1 & E1). destruct (square_close _ _ C2 P2 B2 B4) as (F2 & R2 & E2).
  unfold dist_squared. pose proof (fin_add _ _ F1 F2) as R. set (q1 := fmul _ _) in *. set (q2 := fmul (fsub (lon c) _) _) in *.
  assert (K3 : (0 <= rnd (xr q1 + xr q2) <= 1000000)%R) by (apply rnd_between; [apply (gen_Z 0); lia|apply (gen_Z 1000000); lia|lra]).
  destruct (rounds_fin _ _ R) as [Fs Es]; [lt_big|]. split; [exact Fs|]. rewrite Es.
  pose proof (rnd_err (xr q1 + xr q2)) as E3. rewrite ulp_half_val, (Rabs_pos_eq (xr q1 + xr q2)) in E3 by lra. pose proof tiny as S.
  assert (Sq : (straight c p * straight c p = (xr (lat c) - xr (lat p)) * (xr (lat c) - xr (lat p)) + (xr (lon c) - xr (lon p)) * (xr (lon c) - xr (lon p)))%R).
  { unfold straight, dist_euc. rewrite sqrt_sqrt; [reflexivity|]. apply Rplus_le_le_0_compat; apply Rle_0_sqr. }
  rewrite Sq. set (a := ((xr (lat c) - xr (lat p)) * (xr (lat c) - xr (lat p)))%R) in *. set (b := ((xr (lon c) - xr (lon p)) * (xr (lon c) - xr (lon p)))%R) in *.
  assert (0 <= a)%R by apply Rle_0_sqr. assert (0 <= b)%R by apply Rle_0_sqr. apply Rabs_le_inv in E1, E2, E3. apply Rabs_le. lra.
Qed.

(** ** Reach *)

Lemma reach_square : fin (fmul (f32_lit 1 100) (f32_lit 1 100)) /\ (Rabs (xr (fmul (f32_lit 1 100) (f32_lit 1 100)) - / 10000) <= / 100000000000)%R.
Proof. known (fmul (f32_lit 1 100) (f32_lit 1 100)) idtac. split; [split; reflexivity|]. unfold xr, SF2R, F2R. cbn. apply Rabs_le. lra. Qed.

(** Comparisons of squares. *)
Lemma within_reach D s : (0 <= D)%R -> (Rabs (s - D * D) <= / 2000000 * (D * D) + / 100000000000000000)%R -> (s <= / 10000 + / 100000000000)%R -> (D <= / 100 + / 1000000)%R.
Proof. intros P E L. apply Rabs_le_inv in E. apply Rnot_lt_le. intro H. assert ((/ 100 + / 1000000) * (/ 100 + / 1000000) <= D * D)%R by nra. lra. Qed.
Lemma beyond_reach D s : (0 <= D)%R -> (Rabs (s - D * D) <= / 2000000 * (D * D) + / 100000000000000000)%R -> (/ 10000 - / 100000000000 <= s)%R -> (/ 100 - / 1000000 <= D)%R.
Proof. intros P E L. apply Rabs_le_inv in E. apply Rnot_lt_le. intro H. assert (D * D <= (/ 100 - / 1000000) * (/ 100 - / 1000000))%R by nra. lra. Qed.
Lemma nearer D D' s s' : (0 <= D)%R -> (0 <= D')%R -> (D <= / 50)%R -> (Rabs (s - D * D) <= / 2000000 * (D * D) + / 100000000000000000)%R ->
  (Rabs (s' - D' * D') <= / 2000000 * (D' * D') + / 100000000000000000)%R -> (s <= s')%R -> (D <= D' + / 1000000)%R.
Proof.
  intros P P' B E E' L. apply Rabs_le_inv in E, E'. apply Rnot_lt_le. intro H.
  assert (H1 : (D' * D' <= (D - / 1000000) * (D - / 1000000))%R) by nra.
  assert (H2 : ((D - / 1000000) * (D - / 1000000) <= D * D - / 1000000 * D)%R) by nra.
  assert (D * D <= / 50 * D)%R by nra. lra.
Qed.

(** ** A station and a cell *)

Definition cell_middle (x y : Z) : lat_lon := {| lat := centre south north 847 y; lon := centre west east 1851 x |}.
Lemma middle_close x y : 0 <= x < 1851 -> 0 <= y < 847 -> fin_coord (cell_middle x y) /\
  (Rabs (xr (lat (cell_middle x y)) - cell_lat y) <= / 65536)%R /\ (Rabs (xr (lon (cell_middle x y)) - cell_lon x) <= / 65536)%R.
Proof.
  intros X Y. destruct area_axes as [Ga Go].
  assert (B : (-64 <= xr south /\ xr north <= 63 /\ xr north - xr south <= 20 /\ -64 <= xr west /\ xr east <= 63 /\ xr east - xr west <= 20)%R).
  { known south idtac. known north idtac. known west idtac. known east idtac. unfold xr, SF2R, F2R. cbn. repeat split; lra. }
  destruct B as (B1 & B2 & B3 & B4 & B5 & B6).
  destruct (centre_close south north 847 y 42.03 Ga Y ltac:(lra) B1 B2 B3 (proj1 lat_inc) (proj2 lat_inc)) as [F1 E1].
  destruct (centre_close west east 1851 x (-0.81) Go X ltac:(lra) B4 B5 B6 (proj1 lon_inc) (proj2 lon_inc)) as [F2 E2].
  split; [split; assumption|]. split; [exact E1|exact E2].
Qed.
Lemma apart_straight c x y : 0 <= x < 1851 -> 0 <= y < 847 -> (Rabs (apart (lat c) (lon c) x y - straight c (cell_middle x y)) <= / 46000)%R.
Proof.
  intros X Y. destruct (middle_close x y X Y) as (_ & E1 & E2). apply Rabs_le_inv in E1, E2. unfold apart, straight.
  set (a := xr (lat c)) in *. set (b := xr (lon c)) in *. set (u := xr (lat (cell_middle x y))) in *. set (v := xr (lon (cell_middle x y))) in *.
  assert (D : (dist_euc u v (cell_lat y) (cell_lon x) <= / 46000)%R).
  { unfold dist_euc. apply Rsqr_incr_0; [|apply sqrt_pos|lra]. rewrite Rsqr_sqrt by (apply Rplus_le_le_0_compat; apply Rle_0_sqr). unfold Rsqr.
    set (p := (u - cell_lat y)%R) in *. set (q := (v - cell_lon x)%R) in *. assert (p * p <= / 65536 * / 65536)%R by nra. assert (q * q <= / 65536 * / 65536)%R by nra. lra. }
  pose proof (triangle a b (cell_lat y) (cell_lon x) u v) as T1. pose proof (triangle a b u v (cell_lat y) (cell_lon x)) as T2. rewrite (distance_symm (cell_lat y)) in T2.
  apply Rabs_le. lra.
Qed.
(** The stations of the list, as far as the grid's lookup is concerned. *)
Definition placed (c : lat_lon) : Prop := fin_coord c /\ (Rabs (xr (lat c)) <= 90)%R /\ (Rabs (xr (lon c)) <= 178)%R.
Lemma middle_bound x y : 0 <= x < 1851 -> 0 <= y < 847 -> (Rabs (xr (lat (cell_middle x y))) <= 181)%R /\ (Rabs (xr (lon (cell_middle x y))) <= 181)%R.
Proof. intros X Y. destruct area_axes as [Ga Go]. split; apply centre_bound; assumption. Qed.
Lemma placed_distance c x y : placed c -> 0 <= x < 1851 -> 0 <= y < 847 ->
  fin (dist_squared c (cell_middle x y)) /\ (Rabs (xr (dist_squared c (cell_middle x y)) - straight c (cell_middle x y) * straight c (cell_middle x y)) <=
    / 2000000 * (straight c (cell_middle x y) * straight c (cell_middle x y)) + / 100000000000000000)%R.
Proof.
  intros (F & A & O) X Y. destruct (middle_close x y X Y) as (Fm & _). destruct (middle_bound x y X Y) as [M1 M2]. apply distance_close; try assumption; lra.
Qed.
Lemma area_centre x y : 0 <= x < 1851 -> 0 <= y < 847 -> cell_centre (grid_new 1851 847 swiss_area) x y = Some (cell_middle x y).
Proof. intros X Y. destruct area_axes as [Ga Go]. apply (geo_centre 1851 847 swiss_area x y); [split; assumption|exact X|exact Y]. Qed.
Lemma reached c x y s : placed c -> 0 <= x < 1851 -> 0 <= y < 847 -> nearby (grid_new 1851 847 swiss_area) (f32_lit 1 100) c x y s ->
  s = dist_squared c (cell_middle x y) /\ (straight c (cell_middle x y) <= / 100 + / 1000000)%R.
Proof.
  intros P X Y (p & Ep & -> & R). rewrite (area_centre x y X Y) in Ep. injection Ep as <-. split; [reflexivity|]. destruct (placed_distance c x y P X Y) as [Fd Ed]. destruct reach_square as [Fr Er].
  apply fgt_false in R; [|exact Fd|exact Fr]. apply Rabs_le_inv in Er. eapply within_reach; [apply straight_pos|exact Ed|lra].
Qed.
Lemma unreached c x y : placed c -> 0 <= x < 1851 -> 0 <= y < 847 -> ~ nearby (grid_new 1851 847 swiss_area) (f32_lit 1 100) c x y (dist_squared c (cell_middle x y)) ->
  (xr (fmul (f32_lit 1 100) (f32_lit 1 100)) < xr (dist_squared c (cell_middle x y)))%R /\ (/ 100 - / 1000000 <= straight c (cell_middle x y))%R.
Proof.
  intros P X Y N. destruct (placed_distance c x y P X Y) as [Fd Ed]. destruct reach_square as [Fr Er].
  assert (L : (xr (fmul (f32_lit 1 100) (f32_lit 1 100)) < xr (dist_squared c (cell_middle x y)))%R).
  { apply Rnot_le_lt. intro L. apply N. exists (cell_middle x y). split; [apply area_centre; assumption|]. split; [reflexivity|]. apply fgt_false; assumption. }
  split; [exact L|]. apply Rabs_le_inv in Er. eapply beyond_reach; [apply straight_pos|exact Ed|lra].
Qed.
Lemma nearby_dec c x y : 0 <= x < 1851 -> 0 <= y < 847 -> nearby (grid_new 1851 847 swiss_area) (f32_lit 1 100) c x y (dist_squared c (cell_middle x y)) \/
  ~ nearby (grid_new 1851 847 swiss_area) (f32_lit 1 100) c x y (dist_squared c (cell_middle x y)).
Proof.
  intros X Y. destruct (fgt (dist_squared c (cell_middle x y)) (fmul (f32_lit 1 100) (f32_lit 1 100))) eqn:E.
  - right. intros (p & Ep & _ & R). congruence.
  - left. exists (cell_middle x y). split; [apply area_centre; assumption|auto].
Qed.
(** The station that is found. *)
Lemma found_close c x y s : placed c -> 0 <= x < 1851 -> 0 <= y < 847 -> nearby (grid_new 1851 847 swiss_area) (f32_lit 1 100) c x y s ->
  (apart (lat c) (lon c) x y <= / 100 + / 40000)%R.
Proof. intros P X Y N. destruct (reached c x y s P X Y N) as [_ R]. pose proof (apart_straight c x y X Y) as A. apply Rabs_le_inv in A. lra. Qed.
Lemma found_closest c c' x y s : placed c -> placed c' -> 0 <= x < 1851 -> 0 <= y < 847 -> nearby (grid_new 1851 847 swiss_area) (f32_lit 1 100) c x y s ->
  (forall s', nearby (grid_new 1851 847 swiss_area) (f32_lit 1 100) c' x y s' -> (xr s <= xr s')%R) ->
  (apart (lat c) (lon c) x y <= apart (lat c') (lon c') x y + / 20000)%R.
Proof.
  intros P P' X Y N M. pose proof (apart_straight c x y X Y) as A. pose proof (apart_straight c' x y X Y) as A'. apply Rabs_le_inv in A, A'.
  destruct (reached c x y s P X Y N) as [Es R]. destruct (placed_distance c x y P X Y) as [Fd Ed]. destruct (placed_distance c' x y P' X Y) as [Fd' Ed'].
  assert (L : (xr s <= xr (dist_squared c' (cell_middle x y)))%R).
  { destruct (nearby_dec c' x y X Y) as [N'|N']; [exact (M _ N')|]. destruct (unreached c' x y P' X Y N') as [L _].
    destruct N as (p & Ep & Es' & G). subst s. destruct reach_square as [Fr _]. rewrite Es in G. apply fgt_false in G; [|exact Fd|exact Fr]. rewrite Es. lra. }
  subst s. assert (B : (straight c (cell_middle x y) <= / 50)%R) by lra. pose proof (nearer _ _ _ _ (straight_pos c _) (straight_pos c' _) B Ed Ed' L) as Q. lra.
Qed.
Lemma not_found c x y : placed c -> 0 <= x < 1851 -> 0 <= y < 847 -> (forall s, ~ nearby (grid_new 1851 847 swiss_area) (f32_lit 1 100) c x y s) ->
  (/ 100 - / 40000 <= apart (lat c) (lon c) x y)%R.
Proof.
  intros P X Y N. destruct (unreached c x y P X Y (N _)) as [_ U]. pose proof (apart_straight c x y X Y) as A. apply Rabs_le_inv in A. lra.
Qed.
