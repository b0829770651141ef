(** The property of lookups by place (C73).  [between c p] is the distance of two places in degrees, [diagonal w h e] that of a cell. *)
From Coq Require Import ZArith Reals List Bool Lia Lra.
From Coq Require Import Floats.SpecFloat.
From Flocq Require Import Core.Core.
From Verif Require Import Base F32 F32Facts GeoModel GeoSpec GeoProofs ChartModel ChartSpec FetchModel MetobinModel MetobinSpec MapSpec PlaceModel PlaceSpec PlaceProofs.
Import ListNotations.
Open Scope Z_scope.

(** C73.  A lookup by place in the values of scattered points never panics.  It answers for the cell that the place is closest to:
    with the value of the point nearest to the middle of that cell. *)
Theorem C73_points : forall T chk w h e cs d u (vs : list T) missing p, geo_grid w h e -> fin d -> (0 <= xr d <= 64)%R -> Forall (clear_of_antimeridian d) cs ->
  calc_coord_dist_lookup_map chk (unstructured_new None w h e cs) d = Ok u -> fin_coord p ->
  exists o, unstructured_value_by_lat_lon {| uv_grid := u; uv_values := vs; uv_missing := missing |} p = Ok o /\ asked e w h (of_points w h e cs vs d) p o.
Proof. exact c73_points_proof. Qed.
Print Assumptions C73_points.
(** C73.  So the value is that of a point near the place, and no other point is nearer by more than two diagonals of a cell. *)
Theorem C73_near : forall T chk w h e cs d u (vs : list T) missing p v, geo_grid w h e -> fin d -> (0 <= xr d <= 64)%R -> Forall (clear_of_antimeridian d) cs ->
  calc_coord_dist_lookup_map chk (unstructured_new None w h e cs) d = Ok u -> fin_coord p ->
  unstructured_value_by_lat_lon {| uv_grid := u; uv_values := vs; uv_missing := missing |} p = Ok (Some v) ->
  exists k c, nth_error cs k = Some c /\ nth_error vs k = Some v /\ (between c p <= xr d + diagonal w h e + / 500)%R /\
    forall c', In c' cs -> (between c p <= between c' p + 2 * diagonal w h e + / 500)%R.
Proof. exact c73_near_proof. Qed.
Print Assumptions C73_near.
(** C73.  A place with a point near enough has a value, unless it is in the last half row or column of the extent. *)
Theorem C73_found : forall T chk w h e cs d u (vs : list T) missing p c, geo_grid w h e -> fin d -> (0 <= xr d <= 64)%R -> Forall (clear_of_antimeridian d) cs ->
  calc_coord_dist_lookup_map chk (unstructured_new None w h e cs) d = Ok u -> fin_coord p -> length vs = length cs -> well_inside w h e p ->
  In c cs -> (between c p + diagonal w h e + / 500 <= xr d)%R ->
  exists v, unstructured_value_by_lat_lon {| uv_grid := u; uv_values := vs; uv_missing := missing |} p = Ok (Some v).
Proof. exact c73_found_proof. Qed.
Print Assumptions C73_found.
(** C73.  The regular grid made from the points gives the same value at the same place, but nothing where the value is the one
    that stands for a missing value. *)
Theorem C73_regular : forall (V : value_type) chk w h e cs d u (vs : list (carrier V)) missing p, grid_ok w h e -> fin_coord p ->
  calc_coord_dist_lookup_map chk (unstructured_new None w h e cs) d = Ok u -> v_eqb V missing missing = true ->
  let grid := {| uv_grid := u; uv_values := vs; uv_missing := missing |} in
  exists g o, create_regular_grid grid = Ok g /\ unstructured_value_by_lat_lon grid p = Ok o /\
    value_by_lat_lon V g p = Ok (match o with Some v => if v_eqb V v missing then None else Some v | None => None end).
Proof. exact c73_regular_proof. Qed.
Print Assumptions C73_regular.
(** C73.  With three neighbours, too, the answer is that of the cell that the place is closest to. *)
Theorem C73_three : forall (V : value_type) sum w h e (u : unstructured triple) (vs : list (carrier V)) missing p, grid_ok w h e -> fin_coord p -> ug_grid u = grid_new w h e ->
  let grid := {| uv_grid := u; uv_values := vs; uv_missing := missing |} in
  (~ in_extent e p /\ unstructured_value_by_lat_lon1 V sum grid p = Ok None) \/
  (in_extent e p /\ exists i j, closest (lon (min_coord e)) (lon (max_coord e)) w (lon p) i /\ closest (lat (min_coord e)) (lat (max_coord e)) h (lat p) j /\
     unstructured_value_by_lat_lon1 V sum grid p = unstructured_value_by_xy1 V sum grid i j).
Proof. exact c73_three_proof. Qed.
Print Assumptions C73_three.
(** C73.  The cloud cover and the ceiling of the weather layer at a place are those of the closest cell, and so is the weather: the
    meaning of the code in the table of the WMO, nothing without a code, and a panic for a code that is not in the table. *)
Theorem C73_weather : forall l p, regular (we_clct l) -> regular (we_ceiling l) -> fin_coord p ->
  (exists o, clct_by_lat_lon l p = Ok o /\ value_near (we_clct l) p o) /\ (exists o, ceiling_by_lat_lon l p = Ok o /\ value_near (we_ceiling l) p o) /\
  (we_ww l = None -> ww_by_lat_lon l p = Ok None) /\
  (forall g, we_ww l = Some g -> regular g -> exists o, value_near g p o /\
     match o with
     | None => ww_by_lat_lon l p = Ok None
     | Some v => num v -> (exists c, In (floor_within (xr v), c) wmo_table /\ ww_by_lat_lon l p = Ok (Some c)) \/ (~ In (floor_within (xr v)) wmo_codes /\ ww_by_lat_lon l p = Panic)
     end).
Proof. exact c73_weather_proof. Qed.
Print Assumptions C73_weather.
(** C73.  The same for the layers of the cloud cover, the precipitation and the heights. *)
Theorem C73_plain : forall l p, regular l -> fin_coord p -> exists o, plain_by_lat_lon l p = Ok o /\ value_near l p o.
Proof. exact c73_plain_proof. Qed.
Print Assumptions C73_plain.
(** C73.  And by column and row: the value that is stored for the cell, none outside of the grid or where it is missing. *)
Theorem C73_plain_cell : forall l w h x y, dims l = (w, h) -> complete l -> 0 <= x -> 0 <= y ->
  exists o, plain_by_xy l x y = Ok o /\ forall v, o = Some v <-> x < w /\ y < h /\ nth_error (vg_values l) (Z.to_nat (y * w + x)) = Some v /\ feq v (vg_missing l) = false.
Proof. exact c73_plain_cell_proof. Qed.
Print Assumptions C73_plain_cell.

Definition at_half (a b : Z) : lat_lon := {| lat := f32_lit a 2; lon := f32_lit b 2 |}.
Definition four : extent := {| min_coord := at_half 0 0; max_coord := at_half 8 8 |}.
Definition three_points : list lat_lon := [at_half 1 1; at_half 3 3; at_half 6 6].
Definition reach : f32 := f32_of_Z 3.
Definition found : outcome (unstructured (option coord_dist)) := calc_coord_dist_lookup_map true (unstructured_new None 4 4 four three_points) reach.
Definition ask (p : lat_lon) : outcome (option f32) :=
  obind found (fun u => unstructured_value_by_lat_lon {| uv_grid := u; uv_values := map f32_of_Z [10; 20; -1]; uv_missing := f32_of_Z (-1) |} p).
Definition ask_regular (p : lat_lon) : outcome (option f32) :=
  obind found (fun u => obind (create_regular_grid {| uv_grid := u; uv_values := map f32_of_Z [10; 20; -1]; uv_missing := f32_of_Z (-1) |}) (fun g => value_by_lat_lon f32_type g p)).
Lemma half_value a : In a [0; 1; 2; 3; 6; 8] -> fin (f32_lit a 2) /\ xr (f32_lit a 2) = (IZR a / 2)%R.
Proof.
  intro I. assert (N : exists z, f32_lit a 2 = z) by eauto. destruct N as [z N].
  cbn in I. repeat (destruct I as [<-|I]; [rewrite N; vm_compute in N; subst z; split; [split; vm_compute; reflexivity|unfold xr, BinarySingleNaN.SF2R, F2R; cbn; lra]|]). destruct I.
Qed.
Lemma half_place a b : In a [0; 1; 2; 3; 6; 8] -> In b [0; 1; 2; 3; 6; 8] -> fin_coord (at_half a b).
Proof. intros A B. split; apply half_value; assumption. Qed.
Example C73_hypotheses : geo_grid 4 4 four /\ fin reach /\ (0 <= xr reach <= 64)%R /\ Forall (clear_of_antimeridian reach) three_points /\ (exists u, found = Ok u) /\
  fin_coord (at_half 2 2) /\ well_inside 4 4 four (at_half 2 2) /\ In (at_half 3 3) three_points /\ (between (at_half 3 3) (at_half 2 2) + diagonal 4 4 four + / 500 <= xr reach)%R.
Proof.
  destruct (half_value 0) as [F0 E0]; [cbn; tauto|]. destruct (half_value 8) as [F8 E8]; [cbn; tauto|]. destruct (half_value 1) as [F1 E1]; [cbn; tauto|].
  destruct (half_value 3) as [F3 E3]; [cbn; tauto|]. destruct (half_value 6) as [F6 E6]; [cbn; tauto|]. destruct (half_value 2) as [F2 E2]; [cbn; tauto|].
  destruct (fin_Z 3 ltac:(lia)) as [Fr Er]. fold reach in Fr, Er. change (IZR 0 / 2)%R with (0 / 2)%R in E0.
  assert (G : axis_geo (f32_lit 0 2) (f32_lit 8 2) 4) by (split; [exact F0|]; split; [exact F8|]; split; [lia|]; rewrite E0, E8; lra).
  assert (Cs : cell_size (f32_lit 0 2) (f32_lit 8 2) 4 = 1%R) by (unfold cell_size; rewrite E0, E8; lra).
  assert (Cf : cells_from (f32_lit 0 2) (f32_lit 8 2) 4 (f32_lit 2 2) = 1%R) by (unfold cells_from; rewrite E0, E8, E2; lra).
  split; [split; exact G|]. split; [exact Fr|]. split; [rewrite Er; lra|]. split.
  { repeat constructor; cbn [lat lon at_half]; try assumption; try apply Fr; rewrite Er, ?E1, ?E3, ?E6, Rabs_pos_eq; lra. }
  split; [unfold found; vm_compute; eauto|]. split; [split; exact F2|]. split.
  { split; [|cbn [four lat lon min_coord max_coord at_half]; rewrite Cf; split; lra]. unfold in_extent. cbn [four lat lon min_coord max_coord at_half]. rewrite E0, E8, E2. lra. }
  split; [cbn; tauto|]. unfold between, diagonal. cbn [four lat lon min_coord max_coord at_half]. rewrite Cs, E3, E2, Er. unfold dist_euc, Rsqr.
  assert (A : (sqrt ((3 / 2 - 2 / 2) * (3 / 2 - 2 / 2) + (3 / 2 - 2 / 2) * (3 / 2 - 2 / 2)) <= 1)%R) by (rewrite <- sqrt_1; apply sqrt_le_1_alt; lra).
  assert (B : (sqrt ((0 - 1) * (0 - 1) + (0 - 1) * (0 - 1)) <= 3 / 2)%R) by (rewrite <- (sqrt_square (3 / 2)) by lra; apply sqrt_le_1_alt; lra). lra.
Qed.
(** Findings: a point is exactly at the place 0.5, 0.5, and yet the lookup gives the value of another one: the cell that the place is
    closest to is not the one that it is in.  The missing value of a point comes out as a value.  The last half row has no values. *)
Example C73_sample : ask (at_half 0 0) = Ok (Some (f32_of_Z 10)) /\ ask (at_half 1 1) = Ok (Some (f32_of_Z 20)) /\ ask (at_half 2 2) = Ok (Some (f32_of_Z 20)) /\
  ask (at_half 6 6) = Ok (Some (f32_of_Z (-1))) /\ ask_regular (at_half 6 6) = Ok None /\ ask (at_half 8 8) = Ok None /\ ask (at_half 9 0) = Ok None.
Proof. repeat split; vm_compute; reflexivity. Qed.
Definition six_cells : plain_layer := value_grid_new (map f32_of_Z [1; 2; 3; 4; -1; 6]) (f32_of_Z (-1)) 3 2 four.
Example C73_cells : dims six_cells = (3, 2) /\ complete six_cells /\ plain_by_xy six_cells 2 0 = Ok (Some (f32_of_Z 3)) /\ plain_by_xy six_cells 0 1 = Ok (Some (f32_of_Z 4)) /\
  plain_by_xy six_cells 1 1 = Ok None /\ plain_by_xy six_cells 0 2 = Ok None.
Proof. split; [reflexivity|]. split; [vm_compute; discriminate|]. repeat split; vm_compute; reflexivity. Qed.
Definition codes : list Z := [0; 95; 61; 7].
Definition weather_at (p : lat_lon) : outcome (option weather) :=
  let g := value_grid_new (map f32_of_Z codes) (f32_of_Z (-1)) 2 2 {| min_coord := at_half 0 0; max_coord := at_half 4 4 |} in
  ww_by_lat_lon {| we_ww := Some g; we_clct := g; we_ceiling := g |} p.
(** Weather codes by place: clear sky, a thunderstorm, rain, and a code that is not in the table. *)
Example C73_weather_sample : weather_at (at_half 0 2) = Ok (Some ThunderstormSlightOrModerate) /\ weather_at (at_half 2 0) = Ok (Some SlightRainNotFreezing) /\ weather_at (at_half 2 2) = Panic /\ weather_at (at_half 9 0) = Ok None.
Proof. repeat split; vm_compute; reflexivity. Qed.
