(** The properties C69 and C70, from a GRIB2 message to a field over the earth. *)
From Coq Require Import ZArith Reals List Bool Lia Lra.
From Flocq Require Import Core.Core.
From Verif Require Import Base F32 F32Facts Grib2Model Grib2Spec Grib2FloatProofs Grib2Samples GeoModel GeoSpec GeoProofs ChartSpec FieldSpec FieldProofs.
Import ListNotations.
Open Scope Z_scope.

(** C69.  A grid that is read from a file is that of a message with points on a regular grid: it has its dimensions, its
    corners and, point by point, its values. *)
Theorem C69_cells : forall T chk powi bs (missing : T) transform g, Forall is_byte bs -> grid_of chk powi bs missing transform (Ok g) ->
  exists w t r e d b f rest, wf_message chk w /\ bs = message_bytes w ++ rest /\ w3_tpl (w_3 w) = W3_0 t /\ w5_tpl (w_5 w) = W5_0 r e d b f /\
    shows powi w t r e d missing transform g.
Proof. exact c69_cells_proof. Qed.
Print Assumptions C69_cells.
(** C69.  Each such message with enough data whose first point is the south-western one gives its grid. *)
Theorem C69_succeeds : forall T chk powi w rest t r e d b f (missing : T) transform, wf_message chk w ->
  w3_tpl (w_3 w) = W3_0 t -> w5_tpl (w_5 w) = W5_0 r e d b f -> w7_data (w_7 w) = [] \/ enough_data w ->
  angle_field (w30_lat1 t) -> angle_field (w30_lon1 t) -> angle_field (w30_lat2 t) -> angle_field (w30_lon2 t) ->
  micro (w30_lat1 t) <= micro (w30_lat2 t) -> micro (w30_lon1 t) <= micro (w30_lon2 t) ->
  exists g, grid_of chk powi (message_bytes w ++ rest) missing transform (Ok g) /\ shows powi w t r e d missing transform g.
Proof. exact c69_succeeds_proof. Qed.
Print Assumptions C69_succeeds.
(** C69, finding: a message that lists its points from north to south, or across the antimeridian, makes the program panic. *)
Theorem C69_order : forall T chk powi w rest t r e d b f (missing : T) transform, wf_message chk w ->
  w3_tpl (w_3 w) = W3_0 t -> w5_tpl (w_5 w) = W5_0 r e d b f -> w7_data (w_7 w) = [] \/ enough_data w ->
  angle_field (w30_lat1 t) -> angle_field (w30_lon1 t) -> angle_field (w30_lat2 t) -> angle_field (w30_lon2 t) ->
  200 <= micro (w30_lat1 t) - micro (w30_lat2 t) \/ 200 <= micro (w30_lon1 t) - micro (w30_lon2 t) ->
  grid_of chk powi (message_bytes w ++ rest) missing transform Panic.
Proof. exact c69_order_proof. Qed.
Print Assumptions C69_order.
(** C69.  A message for other than a regular grid gives no grid. *)
Theorem C69_unstructured : forall T chk powi w rest u (missing : T) transform o, wf_message chk w -> w3_tpl (w_3 w) = W3_101 u ->
  grid_of chk powi (message_bytes w ++ rest) missing transform o -> forall g, o <> Ok g.
Proof. exact c69_unstructured_proof. Qed.
Print Assumptions C69_unstructured.
(** C69.  Nothing else of the message matters (finding: so the scanning mode, the kind of weather element and the times in
    the message are not looked at). *)
Theorem C69_only : forall T chk powi w w' t t' rest rest' (missing : T) transform o, wf_message chk w -> wf_message chk w' -> same_field w w' t t' ->
  (grid_of chk powi (message_bytes w ++ rest) missing transform o <-> grid_of chk powi (message_bytes w' ++ rest') missing transform o).
Proof. exact c69_only_proof. Qed.
Print Assumptions C69_only.

Definition with_grid (w : wire) (change : wire3_0 -> wire3_0) : wire :=
  {| w_0 := w_0 w; w_1 := w_1 w; w_2 := w_2 w;
     w_3 := {| w3_length := w3_length (w_3 w); w3_source := w3_source (w_3 w); w3_points := w3_points (w_3 w); w3_opt_length := w3_opt_length (w_3 w);
               w3_opt_interp := w3_opt_interp (w_3 w);
               w3_tpl := match w3_tpl (w_3 w) with W3_0 t => W3_0 (change t) | u => u end |};
     w_4 := w_4 w; w_5 := w_5 w; w_6 := w_6 w; w_7 := w_7 w |}.
Definition scanned (scan : Z) (t : wire3_0) : wire3_0 :=
  {| w30_shape := w30_shape t; w30_radius := w30_radius t; w30_major := w30_major t; w30_minor := w30_minor t; w30_ni := w30_ni t; w30_nj := w30_nj t;
     w30_basic := w30_basic t; w30_subdiv := w30_subdiv t; w30_lat1 := w30_lat1 t; w30_lon1 := w30_lon1 t; w30_res := w30_res t;
     w30_lat2 := w30_lat2 t; w30_lon2 := w30_lon2 t; w30_di := w30_di t; w30_dj := w30_dj t; w30_scan := scan |}.
Definition from_north (t : wire3_0) : wire3_0 :=
  {| w30_shape := w30_shape t; w30_radius := w30_radius t; w30_major := w30_major t; w30_minor := w30_minor t; w30_ni := w30_ni t; w30_nj := w30_nj t;
     w30_basic := w30_basic t; w30_subdiv := w30_subdiv t; w30_lat1 := w30_lat2 t; w30_lon1 := w30_lon1 t; w30_res := w30_res t;
     w30_lat2 := w30_lat1 t; w30_lon2 := w30_lon2 t; w30_di := w30_di t; w30_dj := w30_dj t; w30_scan := 0 |}.
(** The message [sample] gives its grid; the same message with columns listed first (scanning mode 96) gives the same grid;
    and with the rows from north to south (scanning mode 0) the program panics. *)
Lemma scanned_wf chk : wf_message chk (with_grid sample (scanned 96)).
Proof. wf_tac 6. Qed.
Lemma from_north_wf chk : wf_message chk (with_grid sample from_north).
Proof. wf_tac 6. Qed.
Example C69_sample : exists t r e d b f, wf_message true sample /\ w3_tpl (w_3 sample) = W3_0 t /\ w5_tpl (w_5 sample) = W5_0 r e d b f /\ enough_data sample /\
  angle_field (w30_lat1 t) /\ angle_field (w30_lon1 t) /\ angle_field (w30_lat2 t) /\ angle_field (w30_lon2 t) /\
  micro (w30_lat1 t) <= micro (w30_lat2 t) /\ micro (w30_lon1 t) <= micro (w30_lon2 t) /\
  point_value powi_rt sample r e d None Some 2 (Some (f32_lit 9601 32)) /\ point_value powi_rt sample r e d None (@Some f32) 1 None.
Proof.
  do 6 eexists. split; [apply sample_wf|]. split; [reflexivity|]. split; [reflexivity|].
  split; [split; [right; cbn; lia|vm_compute; lia]|]. unfold angle_field, micro. cbn [w30_lat1 w30_lon1 w30_lat2 w30_lon2 sample].
  repeat (split; [cbn; lia|]). split; [|vm_compute; reflexivity].
  exists 1. split; vm_compute; reflexivity.
Qed.
Example C69_findings :
  (exists t t', wf_message true (with_grid sample (scanned 96)) /\ same_field sample (with_grid sample (scanned 96)) t t' /\ w30_scan t' <> w30_scan t) /\
  grid_of true powi_rt (message_bytes (with_grid sample from_north) ++ []) (f32_of_Z (-1)) (fun x => x) Panic.
Proof.
  split.
  - do 2 eexists. split; [apply scanned_wf|]. split; [repeat split; reflexivity|]. cbn. discriminate.
  - eapply C69_order; [apply from_north_wf|reflexivity|reflexivity|right; split; [right; cbn; lia|vm_compute; lia]|..];
      unfold angle_field, micro; cbn; lia.
Qed.

(** C70.  Which cell is taken for a place that is close to the i-th of w points from west to east and the j-th of h points
    from south to north (finding: in the eastern quarter it is the next cell to the east, in the northern quarter the next
    one to the north, since the extent is divided into as many cells as there are points). *)
Theorem C70_place : forall (V : value_type) vs missing w h e p i j, grid_ok w h e -> 2 <= w <= 2 ^ 17 -> 2 <= h <= 2 ^ 17 -> fin_coord p ->
  (xr (lat (min_coord e)) <= xr (lat p) < xr (lat (max_coord e)))%R -> (xr (lon (min_coord e)) <= xr (lon p) < xr (lon (max_coord e)))%R ->
  0 <= i < w -> 0 <= j < h -> close_to (lon (min_coord e)) (lon (max_coord e)) w i (lon p) -> close_to (lat (min_coord e)) (lat (max_coord e)) h j (lat p) ->
  let g := value_grid_new vs missing w h e in
  exists i' j', taken w i i' /\ taken h j j' /\ value_by_lat_lon V g p = value_by_xy V g i' j'.
Proof. exact c70_place_proof. Qed.
Print Assumptions C70_place.
(** C70.  The same for the points of a message: what the program takes for the value at the place of point (i, j) is what the
    message says about point (i', j'), and nothing if there is no such point. *)
Theorem C70_message : forall (V : value_type) chk powi w rest t r e d b f missing transform (g : value_grid (carrier V)) p i j, wf_message chk w ->
  w3_tpl (w_3 w) = W3_0 t -> w5_tpl (w_5 w) = W5_0 r e d b f -> w3_points (w_3 w) = w30_ni t * w30_nj t ->
  grid_of chk powi (message_bytes w ++ rest) missing transform (Ok g) ->
  let c1 := min_coord (extent_of g) in let c2 := max_coord (extent_of g) in
  grid_ok (w30_ni t) (w30_nj t) (extent_of g) -> 2 <= w30_ni t <= 2 ^ 17 -> 2 <= w30_nj t <= 2 ^ 17 -> fin_coord p ->
  (xr (lat c1) <= xr (lat p) < xr (lat c2))%R -> (xr (lon c1) <= xr (lon p) < xr (lon c2))%R ->
  0 <= i < w30_ni t -> 0 <= j < w30_nj t -> close_to (lon c1) (lon c2) (w30_ni t) i (lon p) -> close_to (lat c1) (lat c2) (w30_nj t) j (lat p) ->
  exists i' j', taken (w30_ni t) i i' /\ taken (w30_nj t) j j' /\
    ((i' = w30_ni t \/ j' = w30_nj t) /\ value_by_lat_lon V g p = Ok None \/
     i' < w30_ni t /\ j' < w30_nj t /\ exists v, point_value powi w r e d missing transform (Z.to_nat (j' * w30_ni t + i')) v /\
       value_by_lat_lon V g p = Ok (if v_eqb V v missing then None else Some v)).
Proof. exact c70_message_proof. Qed.
Print Assumptions C70_message.

(** 5 x 5 points at the full degrees from 0 to 4: at point (1, 1) the program finds the value of this point, at point (3, 3)
    that of point (4, 4). *)
Definition five : extent := {| min_coord := {| lat := f32_of_Z 0; lon := f32_of_Z 0 |}; max_coord := {| lat := f32_of_Z 4; lon := f32_of_Z 4 |} |}.
Example C70_sample : grid_ok 5 5 five /\ (forall i, 0 <= i < 4 -> close_to (f32_of_Z 0) (f32_of_Z 4) 5 i (f32_of_Z i)) /\
  value_by_lat_lon u8_type (value_grid_new [0; 1; 2; 3; 4; 10; 11; 12; 13; 14; 20; 21; 22; 23; 24; 30; 31; 32; 33; 34; 40; 41; 42; 43; 44] 255 5 5 five)
    {| lat := f32_of_Z 1; lon := f32_of_Z 1 |} = Ok (Some 11) /\
  value_by_lat_lon u8_type (value_grid_new [0; 1; 2; 3; 4; 10; 11; 12; 13; 14; 20; 21; 22; 23; 24; 30; 31; 32; 33; 34; 40; 41; 42; 43; 44] 255 5 5 five)
    {| lat := f32_of_Z 3; lon := f32_of_Z 3 |} = Ok (Some 44).
Proof.
  destruct (fin_Z 0 ltac:(lia)) as [F0 E0]. destruct (fin_Z 4 ltac:(lia)) as [F4 E4].
  assert (A : axis_ok (f32_of_Z 0) (f32_of_Z 4) 5).
  { split; [exact F0|]. split; [exact F4|]. split; [lia|]. rewrite E0, E4. split.
    - apply Rle_trans with (bpow radix2 0); [apply bpow_le; lia|cbn; lra].
    - apply Rle_trans with (bpow radix2 2); [cbn; lra|apply bpow_le; lia]. }
  split; [split; exact A|]. split; [|split; vm_compute; reflexivity].
  intros i I. destruct (fin_Z i ltac:(lia)) as [_ Ei]. unfold close_to, point_place. rewrite E0, E4, Ei.
  replace (IZR i - (0 + IZR i * ((4 - 0) / (5 - 1))))%R with 0%R by field. rewrite Rabs_R0. lra.
Qed.
