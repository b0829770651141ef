(** The property about the three neighbours of a cell (C95). *)
From Coq Require Import ZArith Reals List Bool Lia Lra.
From Flocq Require Import Core.Core IEEE754.BinarySingleNaN.
From Verif Require Import Base F32 F32Facts GeoModel GeoSpec GeoProofs GeoProperties TripleModel TripleSpec TripleProofs.
Import ListNotations.
Open Scope Z_scope.

(** C95.  For a grid with at least one cell the map of the three neighbours can always be built; each cell has an entry, and there
    is none outside the grid. *)
Theorem C95_total : forall chk w h e cs d, 1 <= w -> 1 <= h -> exists u, calc_coord_dist_lookup_map1 chk (unstructured_new triple_new w h e cs) d = Ok u /\
  forall x y, 0 <= x -> 0 <= y -> (x < w /\ y < h -> exists t, get_coord_dist_triple u x y = Ok (Some t)) /\
    (~ (x < w /\ y < h) -> get_coord_dist_triple u x y = Ok None).
Proof. exact c95_total_proof. Qed.
Print Assumptions C95_total.
(** C95.  The entry of a cell has the three nearest of the coordinates within the maximum distance whose windows cover the cell; they
    are in its first slots. *)
Theorem C95_nearest : forall chk w h e cs d u x y t, geo_grid w h e -> Forall fin_coord cs ->
  calc_coord_dist_lookup_map1 chk (unstructured_new triple_new w h e cs) d = Ok u -> 0 <= x < w -> 0 <= y < h ->
  get_coord_dist_triple u x y = Ok (Some t) ->
  three_nearest (offered chk (grid_new w h e) d cs x y) (triple_dists t) /\
  forall k, 0 <= k -> triple_get t k = nth_error (triple_dists t) (Z.to_nat k).
Proof. exact c95_nearest_proof. Qed.
Print Assumptions C95_nearest.
(** C95.  Away from the antimeridian they are the three nearest of all coordinates within the maximum distance. *)
Theorem C95_complete : forall chk w h e cs d u x y t, geo_grid w h e -> fin d -> (0 <= xr d <= 64)%R -> Forall (clear_of_antimeridian d) cs ->
  calc_coord_dist_lookup_map1 chk (unstructured_new triple_new w h e cs) d = Ok u -> 0 <= x < w -> 0 <= y < h ->
  get_coord_dist_triple u x y = Ok (Some t) -> three_nearest (in_reach (grid_new w h e) d cs x y) (triple_dists t).
Proof. exact c95_complete_proof. Qed.
Print Assumptions C95_complete.
(** C95.  The regular grid made from such a map has for each cell the missing value if no coordinate is within the maximum distance, and
    otherwise the mean of the values of its three nearest coordinates, weighted by their distances, up to rounding. *)
Theorem C95_regrid : forall chk w h e cs d vals missing M, geo_grid w h e -> fin d -> (0 <= xr d <= 64)%R -> Forall (clear_of_antimeridian d) cs ->
  1 <= w -> 1 <= h -> (0 <= M <= 2 ^ 100)%R -> (forall v, In v vals -> fin v /\ (Rabs (xr v) <= M)%R) ->
  exists u vs, calc_coord_dist_lookup_map1 chk (unstructured_new triple_new w h e cs) d = Ok u /\
    create_regular_grid1 f32_type f32_sum {| uv_grid := u; uv_values := vals; uv_missing := missing |} = Ok (value_grid_new vs missing w h e) /\
    length vs = Z.to_nat (w * h) /\
    forall x y, 0 <= x < w -> 0 <= y < h -> exists ds v, three_nearest (in_reach (grid_new w h e) d cs x y) ds /\
      nth_error vs (Z.to_nat (y * w + x)) = Some v /\ (ds = [] -> v = missing) /\
      (ds <> [] -> Forall proper_distance ds -> fin v /\ (Rabs (xr v - weighted_mean ds (contribution vals missing)) <= M / 2 ^ 19 + / 2 ^ 140)%R).
Proof. exact c95_regrid_proof. Qed.
Print Assumptions C95_regrid.

(** Five coordinates around the first cell of a grid of 4 x 4 cells, and a far one: coordinates 3, 1 and 2 are the nearest ones. *)
Definition around : list lat_lon := [half_coord 3 3; half_coord 2 1; half_coord 3 1; half_coord 0 1; half_coord 3 2; half_coord 8 8].
Example C95_grid : geo_grid 4 4 (ext4 0 0).
Proof.
  destruct (fin_Z 0 ltac:(lia)) as [F1 E1]. destruct (fin_Z 4 ltac:(lia)) as [F2 E2].
  split; unfold axis_geo; cbn [ext4 coord min_coord max_coord lat lon Z.add]; rewrite ?E1, ?E2;
    (split; [assumption|]); (split; [assumption|]); (split; [lia|]); lra.
Qed.
Example C95_sample : Forall (clear_of_antimeridian (f32_of_Z 2)) around /\ (xr (f32_of_Z 2) = 2)%R /\
  obind (calc_coord_dist_lookup_map1 true (unstructured_new triple_new 4 4 (ext4 0 0) around) (f32_of_Z 2)) (fun u =>
    omap (option_map (fun t => map fst (triple_dists t))) (get_coord_dist_triple u 0 0)) = Ok (Some [3; 1; 2]) /\
  obind (calc_coord_dist_lookup_map1 true (unstructured_new triple_new 4 4 (ext4 0 0) around) (f32_of_Z 2)) (fun u =>
    omap (option_map (fun t => map fst (triple_dists t))) (get_coord_dist_triple u 3 0)) = Ok (Some []).
Proof.
  destruct (fin_Z 2 ltac:(lia)) as [F2 E2].
  assert (H : forall a, 0 <= a <= 8 -> fin (f32_lit a 2) /\ (0 <= xr (f32_lit a 2) <= 4)%R).
  { intros a Ha. assert (C : In a [0;1;2;3;4;5;6;7;8]) by (cbn; lia). cbn in C.
    assert (N : exists z, f32_lit a 2 = z) by eauto. destruct N as [z N].
    repeat (destruct C as [<-|C]; [rewrite N; vm_compute in N; subst z; split; [split; vm_compute; reflexivity|unfold xr, BinarySingleNaN.SF2R, F2R; cbn; lra]|]).
    destruct C. }
  split; [|split; [exact E2|split; vm_compute; reflexivity]].
  assert (K : forall a b, 0 <= a <= 8 -> 0 <= b <= 8 -> clear_of_antimeridian (f32_of_Z 2) (half_coord a b)).
  { intros a b A B. destruct (H a A) as [Fa Ba]. destruct (H b B) as [Fb Bb]. split; [split; assumption|]. rewrite E2. cbn [half_coord lat lon].
    rewrite !Rabs_pos_eq by lra. lra. }
  unfold around. repeat (apply Forall_cons; [apply K; lia|]). apply Forall_nil.
Qed.
