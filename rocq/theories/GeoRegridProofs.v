(** Proofs about regridding and the conversion pipeline (C19, C20, C22). *)
From Coq Require Import ZArith Reals Psatz Bool List Lia Lra Permutation.
From Coq Require Import Floats.SpecFloat.
From Flocq Require Import Core.Core.
From Verif Require Import Base F32 F32Facts Grib2Model GeoModel GeoSpec GeoProofs GeoValueProofs GeoLookupProofs.
Import ListNotations.
Open Scope Z_scope.

(** ** C20 *)
Lemma collect_ok {A B} (f : A -> outcome B) (g : A -> B) l : (forall a, In a l -> f a = Ok (g a)) ->
  collect (map f l) = Ok (map g l).
Proof.
  induction l as [|a l IH]; intro H; [reflexivity|]. cbn [map collect]. rewrite (H a) by now left. cbn [obind].
  rewrite IH by (intros; apply H; now right). reflexivity.
Qed.
Lemma create_regular_spec {T} w h e (missing : T) value (val : Z -> Z -> option T) : 0 <= w -> 0 <= h ->
  (forall x y, 0 <= x < w -> 0 <= y < h -> value x y = Ok (val x y)) ->
  exists vs, create_regular w h e missing value = Ok (value_grid_new vs missing w h e) /\
    length vs = Z.to_nat (w * h) /\
    forall x y, 0 <= x < w -> 0 <= y < h ->
      nth_error vs (Z.to_nat (y * w + x)) = Some (match val x y with Some v => v | None => missing end).
Proof.
  intros Hw Hh H. unfold create_regular.
  set (f := fun i => match val (Z.of_nat i mod w) (Z.of_nat i / w) with Some v => v | None => missing end).
  rewrite (collect_ok _ f).
  - cbn [omap]. eexists. split; [reflexivity|]. rewrite map_length, seq_length. split; [reflexivity|].
    intros x y Hx Hy. assert (B : 0 <= y * w + x < w * h) by nia.
    rewrite nth_error_map, (nth_error_nth' _ 0%nat) by (rewrite seq_length; lia).
    rewrite seq_nth by lia. cbn [option_map]. unfold f. rewrite Nat.add_0_l, Z2Nat.id by lia.
    rewrite Z.add_comm, Z.mod_add, Z.div_add by lia. rewrite Z.mod_small, Z.div_small by lia. rewrite Z.add_0_l. reflexivity.
  - intros i I. apply in_seq in I. assert (w <> 0) by nia.
    assert (Bi : 0 <= Z.of_nat i < w * h) by lia.
    rewrite H.
    + reflexivity.
    + apply Z.mod_pos_bound. lia.
    + split; [apply Z.div_pos; lia|]. apply Z.div_lt_upper_bound; lia.
Qed.
(** The index of the coordinate a cell is mapped to. *)
Definition mapped (u : unstructured (option coord_dist)) (x y : Z) : option Z :=
  match nth_error (ug_map u) (Z.to_nat (y * g_w (ug_grid u) + x)) with
  | Some (Some (i, _)) => Some i
  | _ => None
  end.

Lemma regular_values {T} (u : unstructured_values (option coord_dist) T) :
  let g := ug_grid (uv_grid u) in
  0 <= g_w g -> 0 <= g_h g -> length (ug_map (uv_grid u)) = Z.to_nat (g_w g * g_h g) ->
  exists vs, create_regular_grid u = Ok (value_grid_new vs (uv_missing u) (g_w g) (g_h g) (g_extent g)) /\
    length vs = Z.to_nat (g_w g * g_h g) /\
    forall x y, 0 <= x < g_w g -> 0 <= y < g_h g ->
      nth_error vs (Z.to_nat (y * g_w g + x)) =
      Some (match mapped (uv_grid u) x y with
            | Some i => nth (Z.to_nat i) (uv_values u) (uv_missing u)
            | None => uv_missing u end).
Proof.
  intros g Hw Hh L. unfold create_regular_grid. fold g.
  destruct (create_regular_spec (g_w g) (g_h g) (g_extent g) (uv_missing u) (unstructured_value_by_xy u)
    (fun x y => match mapped (uv_grid u) x y with Some i => nth_error (uv_values u) (Z.to_nat i) | None => None end) Hw Hh) as (vs & E & Lv & V).
  - intros x y Hx Hy. unfold unstructured_value_by_xy, get_coord_dist, index_by_xy, mapped. fold g.
    destruct (Z.leb_spec (g_w g) x); [lia|]. destruct (Z.leb_spec (g_h g) y); [lia|]. cbn [orb].
    rewrite (Z.add_comm x). unfold index_vec.
    destruct (nth_error (ug_map (uv_grid u)) (Z.to_nat (y * g_w g + x))) as [[[i d]|]|] eqn:E; cbn; try reflexivity.
    exfalso. apply nth_error_None in E. rewrite L in E. apply Z2Nat.inj_le in E; nia.
  - exists vs. split; [exact E|]. split; [exact Lv|]. intros x y Hx Hy. rewrite V by assumption. f_equal.
    destruct (mapped (uv_grid u) x y) as [i|]; [|reflexivity].
    destruct (nth_error (uv_values u) (Z.to_nat i)) eqn:N.
    + symmetry. apply nth_error_nth. exact N.
    + apply nth_error_None in N. symmetry. apply nth_overflow. exact N.
Qed.
Lemma mapped_get u x y : 0 <= x < g_w (ug_grid u) -> 0 <= y < g_h (ug_grid u) ->
  length (ug_map u) = Z.to_nat (g_w (ug_grid u) * g_h (ug_grid u)) ->
  exists o, get_coord_dist u x y = Ok o /\ mapped u x y = option_map fst o.
Proof.
  intros Hx Hy L. unfold get_coord_dist, mapped, index_by_xy.
  destruct (Z.leb_spec (g_w (ug_grid u)) x); [lia|]. destruct (Z.leb_spec (g_h (ug_grid u)) y); [lia|]. cbn [orb].
  rewrite (Z.add_comm x). unfold index_vec.
  destruct (nth_error (ug_map u) _) as [o|] eqn:E.
  - exists o. split; [reflexivity|]. destruct o as [[i d]|]; reflexivity.
  - exfalso. apply nth_error_None in E. rewrite L in E. apply Z2Nat.inj_le in E; nia.
Qed.
(** Three neighbours: only the values of the mapped coordinates matter. *)
Lemma three_frame (V : value_type) sum u vals1 vals2 missing x y :
  (forall i t cd, index_by_xy (ug_grid u) x y = Some i -> nth_error (ug_map u) (Z.to_nat i) = Some t ->
     In cd (triple_dists t) -> nth_error vals1 (Z.to_nat (fst cd)) = nth_error vals2 (Z.to_nat (fst cd))) ->
  unstructured_value_by_xy1 V sum {| uv_grid := u; uv_values := vals1; uv_missing := missing |} x y =
  unstructured_value_by_xy1 V sum {| uv_grid := u; uv_values := vals2; uv_missing := missing |} x y.
Proof.
  intro H. unfold unstructured_value_by_xy1. cbn [uv_grid uv_values uv_missing].
  destruct (index_by_xy (ug_grid u) x y) as [i|]; [|reflexivity].
  unfold index_vec. destruct (nth_error (ug_map u) (Z.to_nat i)) as [t|] eqn:E; [|reflexivity]. cbn [obind].
  specialize (H i t). destruct (triple_dists t) as [|cd0 ds] eqn:D; [reflexivity|].
  f_equal. f_equal. 
  set (total := fsum _).
  assert (K : forall l, (forall cd, In cd l -> nth_error vals1 (Z.to_nat (fst cd)) = nth_error vals2 (Z.to_nat (fst cd))) ->
    flat_map (fun cd : coord_dist => match nth_error vals1 (Z.to_nat (fst cd)) with
      | Some v => if v_eqb V v missing then [] else [v_scale V v (fdiv (fsqrt (snd cd)) total)] | None => [] end) l =
    flat_map (fun cd : coord_dist => match nth_error vals2 (Z.to_nat (fst cd)) with
      | Some v => if v_eqb V v missing then [] else [v_scale V v (fdiv (fsqrt (snd cd)) total)] | None => [] end) l).
  { induction l as [|a l IH]; intro Q; [reflexivity|]. cbn [flat_map]. rewrite (Q a) by now left. f_equal. apply IH.
    intros; apply Q. now right. }
  apply K. intros cd I. apply H; auto.
Qed.

(** ** C19 for a freshly built map *)
Lemma lookup_map_slots chk w h e cs d : 1 <= w -> 1 <= h ->
  exists m, calc_coord_dist_lookup_map chk (unstructured_new None w h e cs) d =
      Ok {| ug_grid := grid_new w h e; ug_coords := cs; ug_map := m |} /\
    length m = Z.to_nat (w * h) /\
    forall x y, 0 <= x < w -> 0 <= y < h ->
      nth_error m (Z.to_nat (y * w + x)) = Some (offers (offer_nearest d) chk (grid_new w h e) d 0 cs x y None).
Proof.
  intros Hw Hh. unfold calc_coord_dist_lookup_map, calc_lookup, unstructured_new. cbn [ug_grid ug_coords ug_map].
  destruct (visit_coords_ok (offer_nearest d) chk (grid_new w h e) d 0 cs (repeat None (Z.to_nat (w * h)))) as (m & E & L & S);
    try assumption.
  { rewrite repeat_length. reflexivity. }
  rewrite E. cbn [omap]. exists m. split; [reflexivity|]. rewrite repeat_length in L. split; [exact L|].
  intros x y Hx Hy. specialize (S x y Hx Hy). unfold idx in S. cbn [grid_new g_w] in S. rewrite (Z.add_comm x) in S.
  rewrite S. rewrite nth_error_repeat; [reflexivity|]. apply Z2Nat.inj_lt; nia.
Qed.
Lemma lookup_map1_slots chk w h e cs d : 1 <= w -> 1 <= h ->
  exists m, calc_coord_dist_lookup_map1 chk (unstructured_new triple_new w h e cs) d =
      Ok {| ug_grid := grid_new w h e; ug_coords := cs; ug_map := m |} /\
    length m = Z.to_nat (w * h) /\
    forall x y, 0 <= x < w -> 0 <= y < h ->
      nth_error m (Z.to_nat (y * w + x)) = Some (offers offer_triple chk (grid_new w h e) d 0 cs x y triple_new).
Proof.
  intros Hw Hh. unfold calc_coord_dist_lookup_map1, calc_lookup, unstructured_new. cbn [ug_grid ug_coords ug_map].
  destruct (visit_coords_ok offer_triple chk (grid_new w h e) d 0 cs (repeat triple_new (Z.to_nat (w * h)))) as (m & E & L & S);
    try assumption.
  { rewrite repeat_length. reflexivity. }
  rewrite E. cbn [omap]. exists m. split; [reflexivity|]. rewrite repeat_length in L. split; [exact L|].
  intros x y Hx Hy. specialize (S x y Hx Hy). unfold idx in S. cbn [grid_new g_w] in S. rewrite (Z.add_comm x) in S.
  rewrite S. rewrite nth_error_repeat; [reflexivity|]. apply Z2Nat.inj_lt; nia.
Qed.

Lemma lookup_get w h e cs m s x y : 0 <= x < w -> 0 <= y < h -> nth_error m (Z.to_nat (y * w + x)) = Some s ->
  get_coord_dist {| ug_grid := grid_new w h e; ug_coords := cs; ug_map := m |} x y = Ok s.
Proof.
  intros Hx Hy N. unfold get_coord_dist, index_by_xy. cbn [ug_grid ug_map grid_new g_w g_h].
  destruct (Z.leb_spec w x); [lia|]. destruct (Z.leb_spec h y); [lia|]. cbn [orb]. unfold index_vec.
  rewrite (Z.add_comm x), N. reflexivity.
Qed.
Lemma reach_iff g d c x y s : reach g d c x y = Some s <-> nearby g d c x y s.
Proof.
  unfold reach, nearby. destruct (cell_centre g x y) as [p|].
  - destruct (fgt (dist_squared c p) (fmul d d)) eqn:E.
    + split; [discriminate|]. intros (q & Q & -> & K). injection Q as <-. congruence.
    + split.
      * intro K. injection K as <-. exists p. auto.
      * intros (q & Q & -> & _). injection Q as <-. reflexivity.
  - split; [discriminate|]. intros (q & Q & _). discriminate.
Qed.
Lemma touch_iff chk g d c x y s : touch chk g d c x y = Some s <-> window_covers chk g d c x y /\ nearby g d c x y s.
Proof.
  unfold touch, window_covers, covered. rewrite <- reach_iff. destruct (skipped g d c); cbn [negb andb].
  { split; [discriminate|]. intros [[K _] _]. discriminate. }
  destruct (min_max_xy chk g c d) as [[[x0 y0] [x1 y1]]| |].
  - destruct ((x0 <=? x) && (x <=? x1) && ((y0 <=? y) && (y <=? y1))) eqn:E.
    + split; [|intros [_ K]; exact K]. intro K. split; [|exact K]. split; [reflexivity|]. exists x0, y0, x1, y1.
      split; [reflexivity|]. apply andb_true_iff in E. destruct E as [E1 E2]. apply andb_true_iff in E1, E2. lia.
    + split; [discriminate|]. intros [(_ & a & b & a' & b' & K & B) _]. injection K as <- <- <- <-.
      apply andb_false_iff in E. rewrite !andb_false_iff in E. lia.
  - split; [discriminate|]. intros [(_ & a & b & a' & b' & K & B) _]. discriminate.
  - split; [discriminate|]. intros [(_ & a & b & a' & b' & K & B) _]. discriminate.
Qed.
Lemma reach_num w h e d c x y s : geo_grid w h e -> fin_coord c -> 0 <= x < w -> 0 <= y < h ->
  reach (grid_new w h e) d c x y = Some s -> num s.
Proof.
  intros G Fc Hx Hy R. pose proof G as [A B]. unfold reach in R. rewrite (geo_centre w h e x y G Hx Hy) in R.
  destruct (fgt _ _) in R; [discriminate|]. injection R as <-. apply dist_num; [exact Fc|].
  destruct (centre_spec _ _ _ A x Hx) as [Fpx _]. destruct (centre_spec _ _ _ B y Hy) as [Fpy _]. split; assumption.
Qed.

(** ** C22 *)
Lemma select_docs_spec {A} a b (docs : list A) : 0 <= a ->
  select_docs (Some (a, b)) docs = firstn (Z.to_nat (b - a + 1)) (skipn (Z.to_nat a) docs).
Proof.
  intros Ha. unfold select_docs.
  assert (G : forall k (l : list A),
    flat_map (fun '(i, d) => if (a <=? Z.of_nat i) && (Z.of_nat i <=? b) then [d] else []) (combine (seq k (length l)) l) =
    firstn (Z.to_nat (b - Z.max a (Z.of_nat k) + 1)) (skipn (Z.to_nat (a - Z.of_nat k)) l)).
  { intros k l. revert k. induction l as [|x l IH]; intro k.
    - cbn. rewrite skipn_nil, firstn_nil. reflexivity.
    - cbn [length seq combine flat_map]. rewrite IH.
      destruct (Z.leb_spec a (Z.of_nat k)) as [L|L]; cbn [andb].
      + replace (Z.to_nat (a - Z.of_nat k)) with 0%nat by lia. replace (Z.to_nat (a - Z.of_nat (S k))) with 0%nat by lia. cbn [skipn].
        rewrite !Z.max_r by lia. destruct (Z.leb_spec (Z.of_nat k) b) as [M|M].
        * replace (Z.to_nat (b - Z.of_nat k + 1)) with (S (Z.to_nat (b - Z.of_nat (S k) + 1))) by lia. reflexivity.
        * replace (Z.to_nat (b - Z.of_nat k + 1)) with 0%nat by lia. replace (Z.to_nat (b - Z.of_nat (S k) + 1)) with 0%nat by lia. reflexivity.
      + cbn [app]. replace (Z.to_nat (a - Z.of_nat k)) with (S (Z.to_nat (a - Z.of_nat (S k)))) by lia. cbn [skipn].
        rewrite !Z.max_l by lia. reflexivity. }
  rewrite (G 0%nat docs). rewrite Z.max_l by lia. rewrite Z.sub_0_r. reflexivity.
Qed.
Lemma par_collect_spec {A B} (f : A -> outcome B) l r : par_collect f l r ->
  (forall ys, r = Ok ys <-> Forall2 (fun x y => f x = Ok y) l ys).
Proof.
  intros H ys. split.
  - intros ->. inversion H; assumption.
  - intro F. inversion H as [zs K|x e I E|x I E]; subst.
    + f_equal. revert ys F. induction K as [|a z l zs K1 K IH]; intros ys F; inversion F; subst; [reflexivity|].
      f_equal; [congruence|]. apply IH; [|assumption]. constructor. assumption.
    + exfalso. clear H. induction F as [|a y l ys F1 F IH]; [destruct I|]. destruct I as [->|I]; [congruence|auto].
    + exfalso. clear H. induction F as [|a y l ys F1 F IH]; [destruct I|]. destruct I as [->|I]; [congruence|auto].
Qed.
Lemma combine_nth_error {A B} (l : list A) (l' : list B) i : length l = length l' ->
  nth_error (combine l l') i = match nth_error l i, nth_error l' i with Some a, Some b => Some (a, b) | _, _ => None end.
Proof.
  revert l' i. induction l as [|a l IH]; intros [|b l'] [|i] H; try discriminate; try reflexivity. cbn. apply IH. now injection H.
Qed.

Lemma c12_normalise_proof : forall la lo, fin la -> fin lo ->
  let c := lat_lon_new la lo in
  fin_coord c /\ (-180 <= xr (lat c) < 180)%R /\ (-180 <= xr (lon c) < 180)%R /\
  (exists k, xr (lat c) = xr la - 360 * IZR k)%R /\ (exists k, xr (lon c) = xr lo - 360 * IZR k)%R.
Proof.
  intros la lo Fa Fo c. destruct (normalize_spec la Fa) as (A & B & k & C). destruct (normalize_spec lo Fo) as (D & E & k' & F).
  split; [split; assumption|]. split; [exact B|]. split; [exact E|]. split; [exists k|exists k']; assumption.
Qed.

Lemma c12_identity_proof : forall la lo, fin la -> fin lo -> (-180 <= xr la < 180)%R -> (-180 <= xr lo < 180)%R ->
  lat_lon_new la lo = {| lat := la; lon := lo |}.
Proof. intros la lo Fa Fo A B. unfold lat_lon_new. rewrite !normalize_id by assumption. reflexivity. Qed.

Lemma c12_idempotent_proof : forall la lo, fin la -> fin lo ->
  let c := lat_lon_new la lo in lat_lon_new (lat c) (lon c) = c.
Proof.
  intros la lo Fa Fo c. destruct (normalize_spec la Fa) as (A & B & _). destruct (normalize_spec lo Fo) as (D & E & _).
  unfold c, lat_lon_new. cbn [lat lon]. rewrite (normalize_id (normalize_deg la)) by assumption.
  rewrite (normalize_id (normalize_deg lo)) by assumption. reflexivity.
Qed.

Lemma c13_adjacent_proof : forall e1 e2 p, fin_extent e1 -> fin_extent e2 -> fin_coord p ->
  xr (lon (max_coord e1)) = xr (lon (min_coord e2)) \/ xr (lat (max_coord e1)) = xr (lat (min_coord e2)) ->
  ~ (is_inside e1 p = true /\ is_inside e2 p = true).
Proof.
  intros e1 e2 p F1 F2 Fp H [A B]. apply is_inside_spec in A; [|assumption|assumption].
  apply is_inside_spec in B; [|assumption|assumption]. lra.
Qed.

Lemma c13_midpoint_proof : forall e, fin_extent e ->
  (xr (lat (min_coord e)) <= xr (lat (max_coord e)))%R -> (xr (lon (min_coord e)) <= xr (lon (max_coord e)))%R ->
  (Rabs (xr (lat (min_coord e))) <= bpow radix2 126)%R -> (Rabs (xr (lat (max_coord e))) <= bpow radix2 126)%R ->
  (Rabs (xr (lon (min_coord e))) <= bpow radix2 126)%R -> (Rabs (xr (lon (max_coord e))) <= bpow radix2 126)%R ->
  let m := midpoint e in fin_coord m /\
  (xr (lat (min_coord e)) <= xr (lat m) <= xr (lat (max_coord e)))%R /\
  (xr (lon (min_coord e)) <= xr (lon m) <= xr (lon (max_coord e)))%R.
Proof.
  intros e [[F1 F2] [F3 F4]] L1 L2 B1 B2 B3 B4 m.
  destruct (half_between _ _ F1 F3 L1 B1 B2) as [A1 A2]. destruct (half_between _ _ F2 F4 L2 B3 B4) as [A3 A4].
  split; [split; assumption|]. split; assumption.
Qed.

Lemma c14_defined_proof : forall g x y, 0 <= x -> 0 <= y ->
  (index_by_xy g x y <> None <-> x < g_w g /\ y < g_h g).
Proof. intros g x y Hx Hy. exact (proj1 (index_spec g x y Hx Hy)). Qed.

Lemma c14_injective_proof : forall g x y x' y' i, 0 <= x -> 0 <= y -> 0 <= x' -> 0 <= y' ->
  index_by_xy g x y = Some i -> index_by_xy g x' y' = Some i -> x = x' /\ y = y'.
Proof.
  intros g x y x' y' i Hx Hy Hx' Hy' E E'.
  assert (D : x < g_w g /\ y < g_h g) by (apply (proj1 (index_spec g x y Hx Hy)); congruence).
  assert (D' : x' < g_w g /\ y' < g_h g) by (apply (proj1 (index_spec g x' y' Hx' Hy')); congruence).
  apply (idx_inj g x y x' y'); try lia. unfold idx.
  apply (proj2 (index_spec g x y Hx Hy)) in E. apply (proj2 (index_spec g x' y' Hx' Hy')) in E'. f_equal. lia.
Qed.

Lemma c14_surjective_proof : forall g i, 0 <= g_h g -> 0 <= i < g_w g * g_h g ->
  exists x y, 0 <= x < g_w g /\ 0 <= y < g_h g /\ index_by_xy g x y = Some i.
Proof.
  intros g i Hh Hi. assert (0 < g_w g) by nia. exists (i mod g_w g), (i / g_w g).
  pose proof (Z.mod_pos_bound i (g_w g) ltac:(lia)) as M. pose proof (Z.div_mod i (g_w g) ltac:(lia)) as Q.
  assert (D : 0 <= i / g_w g < g_h g) by (split; [apply Z.div_pos; lia|apply Z.div_lt_upper_bound; lia]).
  split; [exact M|]. split; [exact D|]. unfold index_by_xy.
  destruct (Z.leb_spec (g_w g) (i mod g_w g)); [lia|]. destruct (Z.leb_spec (g_h g) (i / g_w g)); [lia|].
  cbn [orb]. f_equal. lia.
Qed.

Lemma c14_row_major_proof : forall g x y i, 0 <= x -> 0 <= y -> index_by_xy g x y = Some i ->
  i = y * g_w g + x /\ 0 <= i < g_w g * g_h g.
Proof. intros g x y i Hx Hy. exact (proj2 (index_spec g x y Hx Hy) i). Qed.

Lemma c15_defined_proof : forall w h e p, fin_extent e -> fin_coord p ->
  (xy_by_lat_lon (grid_new w h e) p <> None <->
   (xr (lat (min_coord e)) <= xr (lat p) < xr (lat (max_coord e)))%R /\
   (xr (lon (min_coord e)) <= xr (lon p) < xr (lon (max_coord e)))%R).
Proof.
  intros w h e p Fe Fp. rewrite <- is_inside_spec by assumption.
  unfold xy_by_lat_lon. cbn [g_extent grid_new]. destruct (is_inside e p); cbn [negb].
  - split; [reflexivity|discriminate].
  - split; [congruence|discriminate].
Qed.

Lemma c15_monotone_proof : forall w h e p p' x y x' y', grid_ok w h e -> fin_coord p -> fin_coord p' ->
  xy_by_lat_lon (grid_new w h e) p = Some (x, y) -> xy_by_lat_lon (grid_new w h e) p' = Some (x', y') ->
  ((xr (lon p) <= xr (lon p'))%R -> (xr x <= xr x')%R) /\ ((xr (lat p) <= xr (lat p'))%R -> (xr y <= xr y')%R).
Proof.
  intros w h e p p' x y x' y' G Fp Fp' H H'.
  destruct (xy_spec w h e p G Fp) as [[_ E]|[I E]]; rewrite E in H; [discriminate|].
  destruct (xy_spec w h e p' G Fp') as [[_ E']|[I' E']]; rewrite E' in H'; [discriminate|].
  apply is_inside_spec in I; [|apply (grid_ok_extent w h); exact G|exact Fp].
  apply is_inside_spec in I'; [|apply (grid_ok_extent w h); exact G|exact Fp'].
  injection H as <- <-. injection H' as <- <-.
  destruct G as [(A1 & A2 & A3 & A4) (B1 & B2 & B3 & B4)], Fp as [P1 P2], Fp' as [P1' P2'].
  split; intro L.
  - apply axis_coord_mono; try assumption; try lra.
  - apply axis_coord_mono; try assumption; try lra.
Qed.

Lemma c15_accuracy_proof : forall w h e p x y, grid_ok w h e -> fin_coord p ->
  xy_by_lat_lon (grid_new w h e) p = Some (x, y) ->
  (Rabs (xr x - IZR w * ((xr (lon p) - xr (lon (min_coord e))) / (xr (lon (max_coord e)) - xr (lon (min_coord e)))))
     <= IZR w * bpow radix2 (-21))%R /\
  (Rabs (xr y - IZR h * ((xr (lat p) - xr (lat (min_coord e))) / (xr (lat (max_coord e)) - xr (lat (min_coord e)))))
     <= IZR h * bpow radix2 (-21))%R.
Proof.
  intros w h e p x y G Fp H.
  destruct (xy_spec w h e p G Fp) as [[_ E]|[I E]]; rewrite E in H; [discriminate|].
  apply is_inside_spec in I; [|apply (grid_ok_extent w h); exact G|exact Fp].
  injection H as <- <-. destruct G as [(A1 & A2 & A3 & A4) (B1 & B2 & B3 & B4)], Fp as [P1 P2].
  split; apply axis_coord_err; try assumption; try lra.
Qed.

Lemma c16_by_position_proof : forall (V : value_type) vs missing w h e p, grid_ok w h e -> fin_coord p ->
  let g := value_grid_new vs missing w h e in
  (xy_by_lat_lon (grid_new w h e) p = None -> value_by_lat_lon V g p = Ok None) /\
  (forall x y, xy_by_lat_lon (grid_new w h e) p = Some (x, y) ->
   exists i j, 0 <= i /\ 0 <= j /\ (Rabs (IZR i - xr x) <= / 2)%R /\ (Rabs (IZR j - xr y) <= / 2)%R /\
     value_by_lat_lon V g p = value_by_xy V g i j).
Proof.
  intros V vs missing w h e p G Fp g. unfold value_by_lat_lon. cbn [g vg_grid value_grid_new].
  split; [intros ->; reflexivity|]. intros x y H. rewrite H.
  destruct (xy_range w h e p x y G Fp H) as (Fx & Fy & Rx & Ry).
  assert (Hw : 1 <= w <= 2 ^ 24) by apply G. assert (Hh : 1 <= h <= 2 ^ 24) by apply G.
  destruct (cell_of x w Fx Hw Rx) as (_ & _ & A & _ & _ & A0 & _).
  destruct (cell_of y h Fy Hh Ry) as (_ & _ & B & _ & _ & B0 & _).
  exists (Zround (xr x)), (Zround (xr y)). rewrite A, B.
  split; [exact A0|]. split; [exact B0|]. split; [apply Zround_nearest|]. split; [apply Zround_nearest|reflexivity].
Qed.

Lemma c17_outside_proof : forall (V : value_type) vs missing w h e p, fin_extent e -> fin_coord p ->
  ~ ((xr (lat (min_coord e)) <= xr (lat p) < xr (lat (max_coord e)))%R /\
     (xr (lon (min_coord e)) <= xr (lon p) < xr (lon (max_coord e)))%R) ->
  interpolate V (value_grid_new vs missing w h e) p = Ok None.
Proof.
  intros V vs missing w h e p Fe Fp H. rewrite <- is_inside_spec in H by assumption.
  unfold interpolate, xy_by_lat_lon. cbn [vg_grid value_grid_new grid_new g_extent].
  destruct (is_inside e p); [congruence|reflexivity].
Qed.

Lemma c17_missing_proof : forall (V : value_type) vs missing w h e p x y i j, grid_ok w h e -> fin_coord p ->
  (Z.to_nat (w * h) <= length vs)%nat -> xy_by_lat_lon (grid_new w h e) p = Some (x, y) ->
  (forall k, xr x <> IZR k) -> (forall k, xr y <> IZR k) ->
  (IZR i - 1 < xr x < IZR i + 1)%R -> (IZR j - 1 < xr y < IZR j + 1)%R ->
  let g := value_grid_new vs missing w h e in
  value_by_xy V g i j = Ok None -> interpolate V g p = Ok None.
Proof.
  intros V vs missing w h e p x y i j G Fp L H Nx Ny Hi Hj g M.
  destruct (xy_range w h e p x y G Fp H) as (Fx & Fy & Rx & Ry).
  destruct (interpolate_cases V vs missing w h e p x y G Fp H) as (C1 & _ & C3).
  assert (Dx : Zfloor (xr x) <> Zceil (xr x)) by (apply not_integral; exact Nx).
  assert (Dy : Zfloor (xr y) <> Zceil (xr y)) by (apply not_integral; exact Ny).
  destruct (Z_lt_le_dec (Zfloor (xr x)) w) as [Lx|Lx]; [|apply C1; now left].
  destruct (Z_lt_le_dec (Zfloor (xr y)) h) as [Ly|Ly]; [|apply C1; now right].
  assert (Px : 0 <= Zfloor (xr x)) by (apply Zfloor_lub; lra). assert (Py : 0 <= Zfloor (xr y)) by (apply Zfloor_lub; lra).
  pose proof (Zceil_floor (xr x)) as Cx. pose proof (Zceil_floor (xr y)) as Cy.
  assert (K : forall a b, 0 <= a -> 0 <= b -> exists o, value_by_xy V g a b = Ok o).
  { intros a b Ha Hb. destruct (value_by_xy_spec V g a b Ha Hb) as (o & E & _); [exact L|]. exists o. exact E. }
  destruct (K (Zfloor (xr x)) (Zfloor (xr y)) ltac:(lia) ltac:(lia)) as [tl T1].
  destruct (K (Zceil (xr x)) (Zfloor (xr y)) ltac:(lia) ltac:(lia)) as [tr T2].
  destruct (K (Zfloor (xr x)) (Zceil (xr y)) ltac:(lia) ltac:(lia)) as [bl T3].
  destruct (K (Zceil (xr x)) (Zceil (xr y)) ltac:(lia) ltac:(lia)) as [br T4].
  unfold g. rewrite (C3 Lx Ly Dx Dy tl tr bl br T1 T2 T3 T4). f_equal.
  assert (Ii : i = Zfloor (xr x) \/ i = Zceil (xr x)) by (apply around; assumption).
  assert (Jj : j = Zfloor (xr y) \/ j = Zceil (xr y)) by (apply around; assumption).
  destruct Ii as [-> | ->], Jj as [-> | ->].
  - rewrite T1 in M. injection M as ->. reflexivity.
  - rewrite T3 in M. injection M as ->. cbn. destruct tl, tr; reflexivity.
  - rewrite T2 in M. injection M as ->. cbn. destruct tl; reflexivity.
  - rewrite T4 in M. injection M as ->. cbn. destruct tl, tr, bl; reflexivity.
Qed.

Lemma c17_corner_proof : forall (V : value_type) vs missing w h e p x y i j, grid_ok w h e -> fin_coord p ->
  xy_by_lat_lon (grid_new w h e) p = Some (x, y) -> xr x = IZR i -> xr y = IZR j -> i < w -> j < h ->
  let g := value_grid_new vs missing w h e in interpolate V g p = value_by_xy V g i j.
Proof.
  intros V vs missing w h e p x y i j G Fp H Ex Ey Li Lj g.
  destruct (interpolate_cases V vs missing w h e p x y G Fp H) as (_ & C2 & _).
  rewrite Ex, Ey, !Zfloor_IZR, !Zceil_IZR in C2. apply C2; auto.
Qed.

Lemma c17_f32_proof : forall vs missing w h e p x y i j tl tr bl br M, grid_ok w h e -> fin_coord p ->
  let g := value_grid_new vs missing w h e in
  xy_by_lat_lon (grid_new w h e) p = Some (x, y) ->
  (IZR i < xr x < IZR i + 1)%R -> (IZR j < xr y < IZR j + 1)%R ->
  value_by_xy f32_type g i j = Ok (Some tl) -> value_by_xy f32_type g (i + 1) j = Ok (Some tr) ->
  value_by_xy f32_type g i (j + 1) = Ok (Some bl) -> value_by_xy f32_type g (i + 1) (j + 1) = Ok (Some br) ->
  (1 <= M <= bpow radix2 100)%R ->
  Forall (fun v => fin v /\ (Rabs (xr v) <= M)%R) [tl; tr; bl; br] ->
  exists r, interpolate f32_type g p = Ok (Some r) /\ fin r /\
    (Rabs (xr r - bilinear (xr x - IZR i) (xr y - IZR j) (xr tl) (xr tr) (xr bl) (xr br)) <= M * bpow radix2 (-18))%R /\
    (forall lo hi, Forall (fun v => lo <= xr v <= hi)%R [tl; tr; bl; br] ->
       (lo - M * bpow radix2 (-18) <= xr r <= hi + M * bpow radix2 (-18))%R).
Proof.
  intros vs missing w h e p x y i j tl tr bl br M G Fp g H Hi Hj T1 T2 T3 T4 HM F.
  destruct (xy_range w h e p x y G Fp H) as (Fx & Fy & Rx & Ry).
  destruct (interpolate_cases f32_type vs missing w h e p x y G Fp H) as (_ & _ & C3). fold g in C3.
  destruct (open_cell (xr x) i Hi) as [E1 E2]. destruct (open_cell (xr y) j Hj) as [E3 E4].
  rewrite E1, E2, E3, E4 in C3.
  assert (Lx : i < w) by (apply (value_in_grid f32_type g i j tl T1)). assert (Ly : j < h) by (apply (value_in_grid f32_type g i j tl T1)).
  specialize (C3 Lx Ly ltac:(lia) ltac:(lia) _ _ _ _ T1 T2 T3 T4).
  repeat rewrite Forall_cons_iff in F. destruct F as ((F1 & B1) & (F2 & B2) & (F3 & B3) & (F4 & B4) & _).
  destruct (f32_bilinear x y tl tr bl br M) as [Fr Er]; try assumption; try lia; try lra.
  rewrite E1, E3 in Er. eexists. split; [exact C3|]. split; [exact Fr|]. split; [exact Er|].
  intros lo hi B. repeat rewrite Forall_cons_iff in B. destruct B as (L1 & L2 & L3 & L4 & _).
  apply Rabs_le_inv in Er.
  pose proof (convex lo hi _ _ (xr x - IZR i) L1 L2 ltac:(lra)) as K1. pose proof (convex lo hi _ _ (xr x - IZR i) L3 L4 ltac:(lra)) as K2.
  pose proof (convex lo hi _ _ (xr y - IZR j) K1 K2 ltac:(lra)) as K. unfold bilinear in Er. cbn [v_add v_scale f32_type]. lra.
Qed.

Lemma c17_u8_proof : forall vs missing w h e p x y i j tl tr bl br, grid_ok w h e -> fin_coord p ->
  let g := value_grid_new vs missing w h e in
  xy_by_lat_lon (grid_new w h e) p = Some (x, y) ->
  (IZR i < xr x < IZR i + 1)%R -> (IZR j < xr y < IZR j + 1)%R ->
  value_by_xy u8_type g i j = Ok (Some tl) -> value_by_xy u8_type g (i + 1) j = Ok (Some tr) ->
  value_by_xy u8_type g i (j + 1) = Ok (Some bl) -> value_by_xy u8_type g (i + 1) (j + 1) = Ok (Some br) ->
  Forall (fun v => 0 <= v <= 255) [tl; tr; bl; br] ->
  exists r, interpolate u8_type g p = Ok (Some r) /\ 0 <= r <= 255 /\
    (Rabs (IZR r - bilinear (xr x - IZR i) (xr y - IZR j) (IZR tl) (IZR tr) (IZR bl) (IZR br)) <= 2 + / 4096)%R /\
    (forall lo hi, Forall (fun v => lo <= v <= hi) [tl; tr; bl; br] -> lo - 2 <= r <= hi + 2).
Proof.
  intros vs missing w h e p x y i j tl tr bl br G Fp g H Hi Hj T1 T2 T3 T4 F.
  destruct (xy_range w h e p x y G Fp H) as (Fx & Fy & Rx & Ry).
  destruct (interpolate_cases u8_type vs missing w h e p x y G Fp H) as (_ & _ & C3). fold g in C3.
  destruct (open_cell (xr x) i Hi) as [E1 E2]. destruct (open_cell (xr y) j Hj) as [E3 E4].
  rewrite E1, E2, E3, E4 in C3.
  assert (Lx : i < w) by (apply (value_in_grid u8_type g i j tl T1)). assert (Ly : j < h) by (apply (value_in_grid u8_type g i j tl T1)).
  specialize (C3 Lx Ly ltac:(lia) ltac:(lia) _ _ _ _ T1 T2 T3 T4).
  repeat rewrite Forall_cons_iff in F. destruct F as (B1 & B2 & B3 & B4 & _).
  destruct (u8_bilinear x y tl tr bl br) as [Fr Er]; try assumption; try lia; try lra.
  rewrite E1, E3 in Er. eexists. split; [exact C3|]. split; [exact Fr|]. split; [exact Er|].
  intros lo hi B. repeat rewrite Forall_cons_iff in B. destruct B as (L1 & L2 & L3 & L4 & _).
  assert (Q : forall v, lo <= v <= hi -> (IZR lo <= IZR v <= IZR hi)%R) by (intros v Hv; split; apply IZR_le; lia).
  apply Rabs_le_inv in Er.
  pose proof (convex _ _ _ _ (xr x - IZR i) (Q _ L1) (Q _ L2) ltac:(lra)) as K1. pose proof (convex _ _ _ _ (xr x - IZR i) (Q _ L3) (Q _ L4) ltac:(lra)) as K2.
  pose proof (convex _ _ _ _ (xr y - IZR j) K1 K2 ltac:(lra)) as K. unfold bilinear in Er. cbn [v_add v_scale u8_type] in *.
  match goal with |- _ <= ?r <= _ => assert (lo - 3 < r < hi + 3); [|lia]; set (rr := r) in * end.
  split; apply lt_IZR; rewrite ?plus_IZR, ?minus_IZR; lra.
Qed.

Lemma c17_one_axis_proof : forall (V : value_type) vs missing w h e p x y i j, grid_ok w h e -> fin_coord p ->
  xy_by_lat_lon (grid_new w h e) p = Some (x, y) -> xr x = IZR i -> (IZR j <= xr y < IZR j + 1)%R -> i < w -> j < h ->
  let g := value_grid_new vs missing w h e in interpolate V g p = value_by_xy V g i j.
Proof.
  intros V vs missing w h e p x y i j G Fp H Ex Ey Li Lj g.
  destruct (interpolate_cases V vs missing w h e p x y G Fp H) as (_ & C2 & _).
  assert (F : Zfloor (xr y) = j) by (apply Zfloor_imp; rewrite plus_IZR; lra).
  rewrite Ex, F, Zfloor_IZR, Zceil_IZR in C2. apply C2; auto.
Qed.

Lemma c17_other_axis_proof : forall (V : value_type) vs missing w h e p x y i j, grid_ok w h e -> fin_coord p ->
  xy_by_lat_lon (grid_new w h e) p = Some (x, y) -> (IZR i <= xr x < IZR i + 1)%R -> xr y = IZR j -> i < w -> j < h ->
  let g := value_grid_new vs missing w h e in interpolate V g p = value_by_xy V g i j.
Proof.
  intros V vs missing w h e p x y i j G Fp H Ex Ey Li Lj g.
  destruct (interpolate_cases V vs missing w h e p x y G Fp H) as (_ & C2 & _).
  assert (F : Zfloor (xr x) = i) by (apply Zfloor_imp; rewrite plus_IZR; lra).
  rewrite Ey, F, Zfloor_IZR, Zceil_IZR in C2. apply C2; auto.
Qed.

Lemma c19_total_proof : forall chk w h e cs d, 1 <= w -> 1 <= h ->
  exists u, calc_coord_dist_lookup_map chk (unstructured_new None w h e cs) d = Ok u /\
    forall x y, 0 <= x < w -> 0 <= y < h -> exists o, get_coord_dist u x y = Ok o.
Proof.
  intros chk w h e cs d Hw Hh. destruct (lookup_map_slots chk w h e cs d Hw Hh) as (m & E & L & S).
  eexists. split; [exact E|]. intros x y Hx Hy. eexists. exact (lookup_get w h e cs m _ x y Hx Hy (S x y Hx Hy)).
Qed.

Lemma c19_nearest_proof : forall chk w h e cs d u x y, geo_grid w h e -> Forall fin_coord cs -> fin d ->
  calc_coord_dist_lookup_map chk (unstructured_new None w h e cs) d = Ok u -> 0 <= x < w -> 0 <= y < h ->
  let g := grid_new w h e in
  (forall i s, get_coord_dist u x y = Ok (Some (i, s)) ->
     0 <= i /\ exists c, nth_error cs (Z.to_nat i) = Some c /\ window_covers chk g d c x y /\ nearby g d c x y s /\
     forall j c' s', nth_error cs j = Some c' -> window_covers chk g d c' x y -> nearby g d c' x y s' ->
       (xr s <= xr s')%R /\ ((Z.to_nat i < j)%nat -> (xr s < xr s')%R)) /\
  (get_coord_dist u x y = Ok None ->
     forall c s, In c cs -> window_covers chk g d c x y -> ~ nearby g d c x y s).
Proof.
  intros chk w h e cs d u x y G Fc Fd Hu Hx Hy g.
  assert (Hw : 1 <= w) by lia. assert (Hh : 1 <= h) by lia.
  destruct (lookup_map_slots chk w h e cs d Hw Hh) as (m & E & L & S). rewrite E in Hu. injection Hu as <-.
  rewrite (lookup_get w h e cs m _ x y Hx Hy (S x y Hx Hy)). fold g.
  pose proof (nearest_fold chk g d cs x y) as N. fold g in N.
  assert (N1 : num (fmul d d)) by (eapply rounds_num; apply fin_mul; assumption).
  assert (N2 : forall c e, In c cs -> reach g d c x y = Some e -> num e).
  { intros c s I R. eapply reach_num; [exact G| |exact Hx|exact Hy|exact R]. rewrite Forall_forall in Fc. auto. }
  specialize (N N1 N2). destruct (offers (offer_nearest d) chk g d 0 cs x y None) as [[i0 s0]|].
  - split; [|discriminate]. intros i s K. injection K as -> ->. destruct N as (P & c & Nc & T & Q).
    split; [exact P|]. exists c. split; [exact Nc|]. apply touch_iff in T. destruct T as [T1 T2].
    split; [exact T1|]. split; [exact T2|]. intros j c' s' Hj W B. apply (Q j c' s' Hj). apply touch_iff. split; assumption.
  - split; [discriminate|]. intros _ c s I W B. apply In_nth_error in I. destruct I as [j I].
    specialize (N j c I). assert (T : touch chk g d c x y = Some s) by (apply touch_iff; split; assumption). congruence.
Qed.

Lemma c19_complete_proof : forall chk w h e cs d u x y, geo_grid w h e -> fin d -> (0 <= xr d <= 64)%R ->
  Forall (clear_of_antimeridian d) cs ->
  calc_coord_dist_lookup_map chk (unstructured_new None w h e cs) d = Ok u -> 0 <= x < w -> 0 <= y < h ->
  let g := grid_new w h e in
  (forall i s, get_coord_dist u x y = Ok (Some (i, s)) ->
     0 <= i /\ exists c, nth_error cs (Z.to_nat i) = Some c /\ nearby g d c x y s /\
     forall j c' s', nth_error cs j = Some c' -> nearby g d c' x y s' ->
       (xr s <= xr s')%R /\ ((Z.to_nat i < j)%nat -> (xr s < xr s')%R)) /\
  (get_coord_dist u x y = Ok None -> forall c s, In c cs -> ~ nearby g d c x y s).
Proof.
  intros chk w h e cs d u x y G Fd Bd Fc Hu Hx Hy g.
  assert (W : forall c s, In c cs -> nearby g d c x y s -> window_covers chk g d c x y).
  { intros c s I B. rewrite Forall_forall in Fc. destruct (Fc c I) as (F1 & F2 & F3).
    assert (T : touch chk g d c x y = Some s).
    { apply window_complete; try assumption. apply reach_iff. exact B. }
    apply touch_iff in T. apply T. }
  destruct (c19_nearest_proof chk w h e cs d u x y G) as [A B]; try assumption.
  { rewrite Forall_forall in *. intros c I. apply (Fc c I). }
  fold g in A, B. split.
  - intros i s K. destruct (A i s K) as (P & c & N & _ & Q & R). split; [exact P|]. exists c. split; [exact N|]. split; [exact Q|].
    intros j c' s' Hj Bj. apply (R j c' s' Hj); [|exact Bj]. apply (W c' s'); [|exact Bj]. eapply nth_error_In; exact Hj.
  - intros K c s I Q. apply (B K c s I); [|exact Q]. apply (W c s); assumption.
Qed.

Lemma c20_values_proof : forall T (u : unstructured_values (option coord_dist) T),
  let g := ug_grid (uv_grid u) in
  0 <= g_w g -> 0 <= g_h g -> length (ug_map (uv_grid u)) = Z.to_nat (g_w g * g_h g) ->
  exists vs, create_regular_grid u = Ok (value_grid_new vs (uv_missing u) (g_w g) (g_h g) (g_extent g)) /\
    length vs = Z.to_nat (g_w g * g_h g) /\
    forall x y, 0 <= x < g_w g -> 0 <= y < g_h g -> exists o,
      get_coord_dist (uv_grid u) x y = Ok o /\
      nth_error vs (Z.to_nat (y * g_w g + x)) =
      Some (match o with Some (i, _) => nth (Z.to_nat i) (uv_values u) (uv_missing u) | None => uv_missing u end).
Proof.
  intros T u g Hw Hh L. destruct (regular_values u Hw Hh L) as (vs & E & Lv & V). exists vs.
  split; [exact E|]. split; [exact Lv|]. intros x y Hx Hy.
  destruct (mapped_get (uv_grid u) x y Hx Hy L) as (o & Eo & M). exists o. split; [exact Eo|].
  fold g in V. rewrite (V x y Hx Hy), M. destruct o as [[i s]|]; reflexivity.
Qed.

Lemma c21_scale_total_proof : forall v f, 0 <= u8_scale v f <= 255 /\ (fis_nan (fmul (f32_of_Z v) f) = true -> u8_scale v f = 0).
Proof.
  intros v f. split; [apply u8_scale_bounds|]. intro N. unfold u8_scale. rewrite N. reflexivity.
Qed.

Lemma c21_add_proof : forall a b, 0 <= a <= 255 -> 0 <= b <= 255 -> u8_add a b = Z.min 255 (a + b).
Proof. intros a b _ _. exact (u8_add_spec a b). Qed.

Lemma c21_equal_proof : forall v x, 0 <= v <= 255 -> fin x -> (0 <= xr x)%R -> (forall k, xr x <> IZR k) ->
  v - 1 <= u8_add (u8_scale v (fsub (fceil x) x)) (u8_scale v (fsub x (ffloor x))) <= v + 1.
Proof.
  intros v x Hv Fx Hx Nx. destruct (u8_stage_err x v v Fx Hx (not_integral _ Nx) Hv Hv) as [_ E].
  apply Rabs_le_inv in E. match type of E with context [IZR (u8_add ?a ?b)] => set (r := u8_add a b) in * end.
  assert (v - 2 < r < v + 2); [|lia]. split; apply lt_IZR; rewrite ?plus_IZR, ?minus_IZR; lra.
Qed.

Lemma c22_coordinates_proof : forall powi lat_doc lon_doc lats lons,
  calculate_data_points powi lat_doc (f32_of_Z 255) (fun x => x) = Ok lats ->
  calculate_data_points powi lon_doc (f32_of_Z 255) (fun x => x) = Ok lons ->
  (length lats <> length lons -> coordinates_from_docs powi lat_doc lon_doc = Err EInvalid) /\
  (length lats = length lons -> exists cs, coordinates_from_docs powi lat_doc lon_doc = Ok cs /\
     length cs = length lats /\
     forall i la lo, nth_error lats i = Some la -> nth_error lons i = Some lo -> nth_error cs i = Some (lat_lon_new la lo)).
Proof.
  intros powi da db lats lons A B. unfold coordinates_from_docs. rewrite A, B. cbn [obind].
  destruct (Nat.eqb_spec (length lats) (length lons)) as [E|E]; [|split; [reflexivity|congruence]].
  split; [congruence|]. intros _. eexists. split; [reflexivity|].
  split; [rewrite map_length, combine_length; lia|]. intros i la lo Ha Hb.
  rewrite nth_error_map, (combine_nth_error _ _ _ E), Ha, Hb. reflexivity.
Qed.

Lemma c22_refused_proof : forall T chk powi d (transform : f32 -> T) missing cs w h e dist values,
  calculate_data_points powi d missing transform = Ok values -> length values <> length cs ->
  unstructured_create chk powi d transform missing cs w h e dist = Err EInvalid.
Proof.
  intros T chk powi d transform missing cs w h e dist values E N. unfold unstructured_create. rewrite E. cbn [obind].
  destruct (Nat.eqb_spec (length cs) (length values)); [congruence|reflexivity].
Qed.

Lemma c22_selection_proof : forall A a b (docs : list A), 0 <= a ->
  select_docs (Some (a, b)) docs = firstn (Z.to_nat (b - a + 1)) (skipn (Z.to_nat a) docs).
Proof. exact @select_docs_spec. Qed.

Lemma c22_parallel_proof : forall T powi (missing : T) transform u range docs r,
  multi_unstructured powi missing transform u range docs r ->
  forall ys, r = Ok ys <-> Forall2 (fun d y => regrid_doc powi missing transform u d = Ok y) (select_docs range docs) ys.
Proof. intros T powi missing transform u range docs r H. exact (par_collect_spec _ _ _ H). Qed.
