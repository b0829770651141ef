(** Proofs about the three neighbours of a cell (C95). *)
From Coq Require Import ZArith Reals List Bool Lia Lra Permutation.
From Flocq Require Import Core.Core.
From Verif Require Import Base F32 F32Facts Grib2Model GeoModel GeoSpec GeoProofs GeoValueProofs GeoLookupProofs GeoRegridProofs GeoThreeProofs TripleModel TripleSpec.
Import ListNotations.
Open Scope Z_scope.

(** The entries offered to a cell, from coordinate number [k] on. *)
Definition offer_list chk g d (cs : list lat_lon) x y (k : nat) : list coord_dist :=
  flat_map (fun '(i, c) => match touch chk g d c x y with Some e => [(Z.of_nat i, e)] | None => [] end) (combine (seq k (length cs)) cs).
Lemma offer_list_in chk g d cs x y k i s : In (i, s) (offer_list chk g d cs x y k) <->
  exists n c, i = Z.of_nat (k + n) /\ nth_error cs n = Some c /\ touch chk g d c x y = Some s.
Proof.
  unfold offer_list. revert k. induction cs as [|c cs IH]; intro k.
  - cbn. split; [tauto|]. intros ([|n] & c & _ & N & _); discriminate.
  - cbn [length seq combine flat_map]. rewrite in_app_iff, IH. split.
    + intros [J|(n & c' & E & N & T)].
      * exists 0%nat, c. destruct (touch chk g d c x y) as [e|]; [|destruct J]. destruct J as [J|[]]. injection J as <- <-. rewrite Nat.add_0_r. auto.
      * exists (S n), c'. rewrite E. split; [f_equal; lia|]. auto.
    + intros ([|n] & c' & E & N & T); cbn in N.
      * injection N as <-. left. rewrite T. rewrite E, Nat.add_0_r. now left.
      * right. exists n, c'. split; [rewrite E; f_equal; lia|]. auto.
Qed.
Lemma offer_list_nodup chk g d cs x y k : NoDup (map fst (offer_list chk g d cs x y k)).
Proof.
  revert k. induction cs as [|c cs IH]; intro k; [constructor|]. unfold offer_list. cbn [length seq combine flat_map]. rewrite map_app.
  fold (offer_list chk g d cs x y (S k)). destruct (touch chk g d c x y) as [e|]; cbn [map app]; [|apply IH].
  constructor; [|apply IH]. intro J. apply in_map_iff in J. destruct J as ([i s] & E & J). apply offer_list_in in J. destruct J as (n & c' & E' & _).
  cbn in E. lia.
Qed.
Lemma offer_list_offered chk g d cs x y i s : In (i, s) (offer_list chk g d cs x y 0) <-> offered chk g d cs x y i s.
Proof.
  rewrite offer_list_in. unfold offered. split.
  - intros (n & c & -> & N & T). split; [lia|]. exists c. rewrite Nat2Z.id. apply touch_iff in T. auto.
  - intros (P & c & N & T). exists (Z.to_nat i), c. split; [cbn; lia|]. split; [exact N|]. apply touch_iff. exact T.
Qed.

Lemma nodup_front {A} (l l' : list A) : NoDup (l ++ l') -> NoDup l.
Proof.
  induction l as [|a l IH]; intro D; [constructor|].
  cbn in D. apply NoDup_cons_iff in D. destruct D as [N B]. constructor; [|apply (IH B)]. intro J. apply N. apply in_or_app. now left.
Qed.

Section Cell.
  Variables (chk : bool) (w h : Z) (e : extent) (cs : list lat_lon) (d : f32).
  Let g := grid_new w h e.
  Variables (x y : Z).
  Hypothesis Hx : 0 <= x < w.
  Hypothesis Hy : 0 <= y < h.
  Let t := fold_left triple_add (offer_list chk g d cs x y 0) triple_new.

  Lemma slot_cell : exists m, calc_coord_dist_lookup_map1 chk (unstructured_new triple_new w h e cs) d = Ok {| ug_grid := g; ug_coords := cs; ug_map := m |} /\
    length m = Z.to_nat (w * h) /\ nth_error m (Z.to_nat (y * w + x)) = Some t.
  Proof.
    destruct (lookup_map1_slots chk w h e cs d ltac:(lia) ltac:(lia)) as (m & E & L & S). exists m. split; [exact E|]. split; [exact L|].
    rewrite (S x y Hx Hy), triple_offers. reflexivity.
  Qed.
  Hypothesis G : geo_grid w h e.
  Hypothesis Fc : Forall fin_coord cs.
  Lemma offers_num : Forall num_dist (offer_list chk g d cs x y 0).
  Proof.
    apply Forall_forall. intros [i s] J. apply offer_list_in in J. destruct J as (n & c & _ & N & T). unfold num_dist. cbn.
    rewrite Forall_forall in Fc. apply (reach_num w h e d c x y s G (Fc c (nth_error_In _ _ N)) Hx Hy). apply touch_reach in T. exact T.
  Qed.
  Lemma cell_nearest : three_nearest (offered chk g d cs x y) (triple_dists t).
  Proof.
    destruct (triple_nearest _ offers_num) as (L & rej & P & O). fold t in L, P, O. set (ks := triple_dists t) in *.
    pose proof (offer_list_nodup chk g d cs x y 0) as D. pose proof (Permutation_map fst P) as P'. rewrite map_app in P'.
    split; [lia|]. split; [|split].
    - apply (Permutation_NoDup P') in D. apply nodup_front in D. exact D.
    - intros i s J. apply offer_list_offered. apply (Permutation_in _ (Permutation_sym P)). apply in_or_app. now left.
    - intros j s J. apply offer_list_offered in J. apply (Permutation_in _ P) in J. apply in_app_or in J. destruct J as [J|J]; [now left|]. right.
      split.
      + apply Permutation_length in P. rewrite app_length in P. destruct rej as [|r rej]; [destruct J|]. cbn [length] in P. lia.
      + intros i s' I. exact (O (i, s') (j, s) I J).
  Qed.
  Lemma cell_get k : 0 <= k -> triple_get t k = nth_error (triple_dists t) (Z.to_nat k).
  Proof.
    intro K. destruct (triple_fold _ offers_num) as (ks & rej & E & L & _). fold t in E.
    assert (T : triple_dists t = ks) by (rewrite E; apply triple_dists_some). rewrite T. unfold triple_get. rewrite E.
    destruct (Z.ltb_spec k 3).
    - destruct (Nat.lt_ge_cases (Z.to_nat k) (length ks)) as [A|A].
      + rewrite app_nth1 by (rewrite map_length; exact A). destruct (nth_error ks (Z.to_nat k)) as [v|] eqn:N; [|apply nth_error_None in N; lia].
        erewrite nth_error_nth; [reflexivity|]. apply map_nth_error. exact N.
      + rewrite app_nth2 by (rewrite map_length; exact A). rewrite (proj2 (nth_error_None ks (Z.to_nat k)) A). rewrite nth_repeat. reflexivity.
    - symmetry. apply nth_error_None. lia.
  Qed.
End Cell.

Lemma triple_at m w h e cs t x y : 0 <= x < w -> 0 <= y < h -> nth_error m (Z.to_nat (y * w + x)) = Some t ->
  get_coord_dist_triple {| ug_grid := grid_new w h e; ug_coords := cs; ug_map := m |} x y = Ok (Some t).
Proof.
  intros Hx Hy N. unfold get_coord_dist_triple, index_by_xy. cbn [ug_grid ug_map grid_new g_w g_h].
  destruct (Z.leb_spec w x); [lia|]. destruct (Z.leb_spec h y); [lia|]. cbn [orb]. unfold index_vec. rewrite (Z.add_comm x), N. reflexivity.
Qed.
Lemma c95_total_proof : forall chk w h e cs d, 1 <= w -> 1 <= h -> exists u, calc_coord_dist_lookup_map1 chk (unstructured_new triple_new w h e cs) d = Ok u /\
  forall x y, 0 <= x -> 0 <= y -> (x < w /\ y < h -> exists t, get_coord_dist_triple u x y = Ok (Some t)) /\
    (~ (x < w /\ y < h) -> get_coord_dist_triple u x y = Ok None).
Proof.
  intros chk w h e cs d Hw Hh. destruct (lookup_map1_slots chk w h e cs d Hw Hh) as (m & E & L & S). eexists. split; [exact E|]. intros x y X Y. split.
  - intros [A B]. eexists. apply triple_at; [lia|lia|]. apply S; lia.
  - intro N. unfold get_coord_dist_triple, index_by_xy. cbn [ug_grid grid_new g_w g_h].
    destruct (Z.leb_spec w x); [reflexivity|]. destruct (Z.leb_spec h y); [reflexivity|]. lia.
Qed.
Lemma c95_nearest_proof : forall chk w h e cs d u x y t, geo_grid w h e -> Forall fin_coord cs ->
  calc_coord_dist_lookup_map1 chk (unstructured_new triple_new w h e cs) d = Ok u -> 0 <= x < w -> 0 <= y < h ->
  get_coord_dist_triple u x y = Ok (Some t) ->
  three_nearest (offered chk (grid_new w h e) d cs x y) (triple_dists t) /\
  forall k, 0 <= k -> triple_get t k = nth_error (triple_dists t) (Z.to_nat k).
Proof.
  intros chk w h e cs d u x y t G Fc U Hx Hy T. destruct (slot_cell chk w h e cs d x y Hx Hy) as (m & E & _ & N). rewrite E in U. injection U as <-.
  rewrite (triple_at m w h e cs _ x y Hx Hy N) in T. injection T as <-.
  split; [apply cell_nearest|apply cell_get]; assumption.
Qed.
Lemma offered_reach chk w h e cs d x y : geo_grid w h e -> fin d -> (0 <= xr d <= 64)%R -> Forall (clear_of_antimeridian d) cs -> 0 <= x < w -> 0 <= y < h ->
  forall i s, offered chk (grid_new w h e) d cs x y i s <-> in_reach (grid_new w h e) d cs x y i s.
Proof.
  intros G Fd Bd Fc Hx Hy i s. split.
  - intros (P & c & N & _ & B). split; [exact P|]. exists c. auto.
  - intros (P & c & N & B). split; [exact P|]. exists c. split; [exact N|]. apply touch_iff. rewrite Forall_forall in Fc.
    destruct (Fc c (nth_error_In _ _ N)) as (F1 & F2 & F3). apply window_complete; try assumption. apply reach_iff. exact B.
Qed.
Lemma three_nearest_ext (P Q : Z -> f32 -> Prop) ks : (forall i s, P i s <-> Q i s) -> three_nearest P ks -> three_nearest Q ks.
Proof.
  intros E (A & B & C & D). split; [exact A|]. split; [exact B|]. split.
  - intros i s J. apply E, C, J.
  - intros j s J. apply D, E, J.
Qed.
Lemma fin_clear d cs : Forall (clear_of_antimeridian d) cs -> Forall fin_coord cs.
Proof. apply Forall_impl. intros c (F & _). exact F. Qed.
Lemma c95_complete_proof : forall chk w h e cs d u x y t, geo_grid w h e -> fin d -> (0 <= xr d <= 64)%R -> Forall (clear_of_antimeridian d) cs ->
  calc_coord_dist_lookup_map1 chk (unstructured_new triple_new w h e cs) d = Ok u -> 0 <= x < w -> 0 <= y < h ->
  get_coord_dist_triple u x y = Ok (Some t) -> three_nearest (in_reach (grid_new w h e) d cs x y) (triple_dists t).
Proof.
  intros chk w h e cs d u x y t G Fd Bd Fc U Hx Hy T.
  apply (three_nearest_ext (offered chk (grid_new w h e) d cs x y)); [apply offered_reach; assumption|].
  apply (c95_nearest_proof chk w h e cs d u x y t G (fin_clear _ _ Fc) U Hx Hy T).
Qed.
Lemma c95_regrid_proof : forall chk w h e cs d vals missing M, geo_grid w h e -> fin d -> (0 <= xr d <= 64)%R -> Forall (clear_of_antimeridian d) cs ->
  1 <= w -> 1 <= h -> (0 <= M <= 2 ^ 100)%R -> (forall v, In v vals -> fin v /\ (Rabs (xr v) <= M)%R) ->
  exists u vs, calc_coord_dist_lookup_map1 chk (unstructured_new triple_new w h e cs) d = Ok u /\
    create_regular_grid1 f32_type f32_sum {| uv_grid := u; uv_values := vals; uv_missing := missing |} = Ok (value_grid_new vs missing w h e) /\
    length vs = Z.to_nat (w * h) /\
    forall x y, 0 <= x < w -> 0 <= y < h -> exists ds v, three_nearest (in_reach (grid_new w h e) d cs x y) ds /\
      nth_error vs (Z.to_nat (y * w + x)) = Some v /\ (ds = [] -> v = missing) /\
      (ds <> [] -> Forall proper_distance ds -> fin v /\ (Rabs (xr v - weighted_mean ds (contribution vals missing)) <= M / 2 ^ 19 + / 2 ^ 140)%R).
Proof.
  intros chk w h e cs d vals missing M G Fd Bd Fc Hw Hh HM HV.
  destruct (lookup_map1_slots chk w h e cs d Hw Hh) as (m & E & L & S). set (u := {| ug_grid := grid_new w h e; ug_coords := cs; ug_map := m |}) in *.
  set (uv := {| uv_grid := u; uv_values := vals; uv_missing := missing |}).
  set (val := fun x y => match unstructured_value_by_xy1 f32_type f32_sum uv x y with Ok o => o | _ => None end).
  destruct (create_regular_spec (T := f32) w h e missing (unstructured_value_by_xy1 f32_type f32_sum uv) val ltac:(lia) ltac:(lia)) as (vs & C & Lv & V).
  { intros x y Hx Hy. unfold val, unstructured_value_by_xy1, index_by_xy. cbn [uv u uv_grid ug_grid ug_map grid_new g_w g_h].
    destruct (Z.leb_spec w x); [lia|]. destruct (Z.leb_spec h y); [lia|]. cbn [orb]. unfold index_vec. rewrite (Z.add_comm x), (S x y Hx Hy). cbn [obind].
    destruct (triple_dists _); reflexivity. }
  exists u, vs. split; [exact E|]. split; [exact C|]. split; [exact Lv|]. intros x y Hx Hy.
  pose proof (S x y Hx Hy) as N. set (t := offers _ _ _ _ _ _ _ _ _) in N.
  assert (T3 : three_nearest (in_reach (grid_new w h e) d cs x y) (triple_dists t)).
  { apply (c95_complete_proof chk w h e cs d u x y t); try assumption. apply triple_at; assumption. }
  exists (triple_dists t). eexists. split; [exact T3|]. split; [exact (V x y Hx Hy)|]. split.
  - intro Z0. unfold val, unstructured_value_by_xy1, index_by_xy. cbn [uv u uv_grid ug_grid ug_map grid_new g_w g_h].
    destruct (Z.leb_spec w x); [lia|]. destruct (Z.leb_spec h y); [lia|]. cbn [orb]. unfold index_vec. rewrite (Z.add_comm x), N. cbn [obind]. rewrite Z0. reflexivity.
  - intros Ne PD. destruct (c20_three_mean_proof u vals missing x y t M Hx Hy N Ne (proj1 T3) PD HM) as (r & Er & Fr & B).
    { intros cd v _ Nv. apply HV. eapply nth_error_In; exact Nv. }
    fold uv in Er. unfold val. rewrite Er. auto.
Qed.
