(** The property C100: the tiles of a map form a pyramid. *)
From Coq Require Import Ascii String ZArith Reals List Bool Lia Lra.
From Flocq Require Import Core.Core.
From Verif Require Import Base F32 F32Facts GeoModel GeoSpec GeoProofs ImagingModel ImagingSpec Par TileModel TileSpec TileProofs MercatorProofs LibmProofs
  ChartModel ChartSpec ForecastModel ForecastSpec ForecastProofs ForecastProperties FetchSpec MapSpec MapProofs MapProperties AgreeProperties PyramidSpec PyramidProofs.
Import ListNotations.
Open Scope Z_scope.

(** C100.  After a successful rendering, under every schedule, for each tile of a map the tile that contains it at the zoom level before
    is there too, and at the next zoom level, up to the last one of the model, at least one of the four tiles within it. *)
Theorem C100_pyramid : forall chk m, libm_accurate m -> forall k, In k (kinds chk m) -> forall run steps filter read tr s l e,
  selected run steps filter read s l -> k_render k false run steps filter read tr (Ok tt) -> map_extent k l e -> on_map e ->
  forall zoom x y, 0 <= zoom -> 0 <= x -> 0 <= y ->
  (tile_there k run (st_nr s) tr (zoom + 1) x y -> tile_there k run (st_nr s) tr zoom (x / 2) (y / 2)) /\
  (tile_there k run (st_nr s) tr zoom x y -> zoom < last_zoom (run_model run) ->
     exists x' y', 0 <= x' /\ 0 <= y' /\ x' / 2 = x /\ y' / 2 = y /\ tile_there k run (st_nr s) tr (zoom + 1) x' y').
Proof. exact c100_pyramid_proof. Qed.
Print Assumptions C100_pyramid.
(** C100.  At each zoom level the tiles form a full rectangle: between any two tiles that are there no tile is missing. *)
Theorem C100_rectangle : forall chk m k, In k (kinds chk m) -> forall run steps filter read tr s l e,
  selected run steps filter read s l -> k_render k false run steps filter read tr (Ok tt) -> map_extent k l e ->
  forall zoom x1 y1 x2 y2, 0 <= zoom -> 0 <= x1 -> 0 <= y1 -> 0 <= x2 -> 0 <= y2 ->
  tile_there k run (st_nr s) tr zoom x1 y1 -> tile_there k run (st_nr s) tr zoom x2 y2 ->
  forall x y, Z.min x1 x2 <= x <= Z.max x1 x2 -> Z.min y1 y2 <= y <= Z.max y1 y2 -> tile_there k run (st_nr s) tr zoom x y.
Proof. exact c100_rectangle_proof. Qed.
Print Assumptions C100_rectangle.
(** C100.  The zoom levels with tiles are those from 0 to the last one of the model. *)
Theorem C100_levels : forall chk m, libm_accurate m -> forall k, In k (kinds chk m) -> forall run steps filter read tr s l e,
  selected run steps filter read s l -> k_render k false run steps filter read tr (Ok tt) -> map_extent k l e -> on_map e ->
  forall zoom, 0 <= zoom -> (zoom <= last_zoom (run_model run) <-> exists x y, 0 <= x /\ 0 <= y /\ tile_there k run (st_nr s) tr zoom x y).
Proof. exact c100_levels_proof. Qed.
Print Assumptions C100_levels.
(** C100.  Their columns are at most 2^zoom, and are those of the map, 0..2^zoom-1, unless the extent reaches the antimeridian. *)
Theorem C100_columns : forall chk m k, In k (kinds chk m) -> forall run steps filter read tr s l e,
  selected run steps filter read s l -> k_render k false run steps filter read tr (Ok tt) -> map_extent k l e -> on_map e ->
  forall zoom x y, 0 <= zoom -> 0 <= x -> 0 <= y -> tile_there k run (st_nr s) tr zoom x y ->
  x <= 2 ^ zoom /\ ((xr (lon (max_coord e)) <= 180 - / 32768)%R -> x < 2 ^ zoom).
Proof. exact c100_columns_proof. Qed.
Print Assumptions C100_columns.
(** C100.  Steps whose data have the same extent have the same tiles. *)
Theorem C100_steps : forall chk m k, In k (kinds chk m) -> forall run steps filter read tr s s' l l' e,
  selected run steps filter read s l -> selected run steps filter read s' l' -> k_render k false run steps filter read tr (Ok tt) ->
  map_extent k l e -> map_extent k l' e ->
  forall zoom x y, 0 <= zoom -> 0 <= x -> 0 <= y -> (tile_there k run (st_nr s) tr zoom x y <-> tile_there k run (st_nr s') tr zoom x y).
Proof. exact c100_steps_proof. Qed.
Print Assumptions C100_steps.
(** The map of the temperatures of the Alps at step 7: the tile 1/1/0 is there, so the tile 0/0/0 is, and a tile of zoom level 2 within it;
    each level up to 7 has a tile, and level 8 has none. *)
Example C100_sample : exists tr, temp_render true ideal false sample_run (forecast_steps IconD2) [7] alpine_read tr (Ok tt) /\
  selected sample_run (forecast_steps IconD2) [7] alpine_read step7 alpine /\ map_extent (temp_kind true ideal) alpine alps /\ on_map alps /\
  tile_there (temp_kind true ideal) sample_run 7 tr 1 1 0 /\ tile_there (temp_kind true ideal) sample_run 7 tr 0 0 0 /\
  (exists x y, x / 2 = 1 /\ y / 2 = 0 /\ tile_there (temp_kind true ideal) sample_run 7 tr 2 x y) /\
  (exists x y, tile_there (temp_kind true ideal) sample_run 7 tr 7 x y) /\
  ~ (exists x y, 0 <= x /\ 0 <= y /\ tile_there (temp_kind true ideal) sample_run 7 tr 8 x y).
Proof.
  destruct C64_sample as (tr & R & d & F & _). exists tr. destruct alps_values as (M & _). pose proof (step7_selected alpine) as S.
  assert (K : In (temp_kind true ideal) (kinds true ideal)) by (right; right; left; reflexivity).
  assert (E : map_extent (temp_kind true ideal) alpine alps) by (eexists; reflexivity).
  assert (T : tile_there (temp_kind true ideal) sample_run 7 tr 1 1 0) by (exists d; exact (F None)).
  split; [exact R|]. split; [exact S|]. split; [exact E|]. split; [exact M|]. split; [exact T|]. split; [|split; [|split]].
  - exact (proj1 (C100_pyramid true ideal ideal_accurate _ K _ _ _ _ tr step7 alpine alps S R E M 0 1 0 ltac:(lia) ltac:(lia) ltac:(lia)) T).
  - destruct (proj2 (C100_pyramid true ideal ideal_accurate _ K _ _ _ _ tr step7 alpine alps S R E M 1 1 0 ltac:(lia) ltac:(lia) ltac:(lia)) T ltac:(cbn; lia)) as (x & y & _ & _ & Ex & Ey & T').
    exists x, y. auto.
  - destruct (proj1 (C100_levels true ideal ideal_accurate _ K _ _ _ _ tr step7 alpine alps S R E M 7 ltac:(lia)) ltac:(cbn; lia)) as (x & y & _ & _ & H). exists x, y. exact H.
  - intro H. apply (proj2 (C100_levels true ideal ideal_accurate _ K _ _ _ _ tr step7 alpine alps S R E M 8 ltac:(lia))) in H. cbn in H. lia.
Qed.
