(** Properties of coordinates, extents, grids and regridding (C12-C22).  [xr x] is the real number
    denoted by an f32 value, [rnd r] the f32 nearest to r, [fin x] says that x is finite;
    [bpow radix2 k] is 2^k. *)
From Coq Require Import ZArith Reals List Bool Lia Lra Permutation.
From Coq Require Import Floats.SpecFloat.
From Flocq Require Import Core.Core.
From Verif Require Import Base F32 F32Facts Grib2Model GeoModel GeoSpec GeoProofs GeoValueProofs
  GeoLookupProofs GeoRegridProofs GeoThreeProofs GeoPositionProofs.
Import ListNotations.
Open Scope Z_scope.

(** C12.  Both components of a new coordinate are in [-180, 180) and differ from the given ones by
    an exact multiple of 360. *)
Theorem C12_normalise : forall la lo, fin la -> fin lo ->
  let c := lat_lon_new la lo in
  fin_coord c /\ (-180 <= xr (lat c) < 180)%R /\ (-180 <= xr (lon c) < 180)%R /\
  (exists k, xr (lat c) = xr la - 360 * IZR k)%R /\ (exists k, xr (lon c) = xr lo - 360 * IZR k)%R.
Proof. exact c12_normalise_proof. Qed.
Print Assumptions C12_normalise.
(** C12.  Components already in range are kept bit by bit. *)
Theorem C12_identity : forall la lo, fin la -> fin lo -> (-180 <= xr la < 180)%R -> (-180 <= xr lo < 180)%R ->
  lat_lon_new la lo = {| lat := la; lon := lo |}.
Proof. exact c12_identity_proof. Qed.
Print Assumptions C12_identity.
(** C12.  Constructing again changes nothing. *)
Theorem C12_idempotent : forall la lo, fin la -> fin lo ->
  let c := lat_lon_new la lo in lat_lon_new (lat c) (lon c) = c.
Proof. exact c12_idempotent_proof. Qed.
Print Assumptions C12_idempotent.
Example C12_sample : fin (f32_of_Z 180) /\ fin (f32_lit 35606 100) /\
  lat_lon_new (f32_lit 9375 100) (f32_of_Z 180) = {| lat := f32_lit 9375 100; lon := f32_of_Z (-180) |} /\
  lat_lon_new (f32_of_Z (-1000)) (f32_lit 1425 4) = {| lat := f32_of_Z 80; lon := f32_lit (-15) 4 |}.
Proof. repeat split; vm_compute; reflexivity. Qed.

(** C13.  Construction. *)
Theorem C13_construct : forall a b, fin_coord a -> fin_coord b ->
  ((xr (lat a) <= xr (lat b))%R /\ (xr (lon a) <= xr (lon b))%R ->
   extent_new a b = Ok {| min_coord := a; max_coord := b |}) /\
  (~ ((xr (lat a) <= xr (lat b))%R /\ (xr (lon a) <= xr (lon b))%R) -> extent_new a b = Panic).
Proof. exact extent_new_spec. Qed.
Print Assumptions C13_construct.
(** C13.  Containment is half-open on both axes. *)
Theorem C13_inside : forall e p, fin_extent e -> fin_coord p ->
  (is_inside e p = true <->
   (xr (lat (min_coord e)) <= xr (lat p) < xr (lat (max_coord e)))%R /\
   (xr (lon (min_coord e)) <= xr (lon p) < xr (lon (max_coord e)))%R).
Proof. exact is_inside_spec. Qed.
Print Assumptions C13_inside.
(** C13.  Two extents that share an edge never both contain a point. *)
Theorem C13_adjacent : forall e1 e2 p, fin_extent e1 -> fin_extent e2 -> fin_coord p ->
  xr (lon (max_coord e1)) = xr (lon (min_coord e2)) \/ xr (lat (max_coord e1)) = xr (lat (min_coord e2)) ->
  ~ (is_inside e1 p = true /\ is_inside e2 p = true).
Proof. exact c13_adjacent_proof. Qed.
Print Assumptions C13_adjacent.
(** C13.  The midpoint lies in the closed extent. *)
Theorem C13_midpoint : forall e, fin_extent e ->
  (xr (lat (min_coord e)) <= xr (lat (max_coord e)))%R -> (xr (lon (min_coord e)) <= xr (lon (max_coord e)))%R ->
  (Rabs (xr (lat (min_coord e))) <= bpow radix2 126)%R -> (Rabs (xr (lat (max_coord e))) <= bpow radix2 126)%R ->
  (Rabs (xr (lon (min_coord e))) <= bpow radix2 126)%R -> (Rabs (xr (lon (max_coord e))) <= bpow radix2 126)%R ->
  let m := midpoint e in fin_coord m /\
  (xr (lat (min_coord e)) <= xr (lat m) <= xr (lat (max_coord e)))%R /\
  (xr (lon (min_coord e)) <= xr (lon m) <= xr (lon (max_coord e)))%R.
Proof. exact c13_midpoint_proof. Qed.
Print Assumptions C13_midpoint.
(** C13.  The bounding extent of a non-empty list of geographic coordinates exists, contains every
    coordinate (closed) and each of its four sides is touched; the empty list panics. *)
Theorem C13_bounding : forall cs, cs <> [] -> Forall fgeo cs -> exists e, bounding_extent cs = Ok e /\
  fin_extent e /\
  Forall (fun c => (xr (lat (min_coord e)) <= xr (lat c) <= xr (lat (max_coord e)))%R /\
                   (xr (lon (min_coord e)) <= xr (lon c) <= xr (lon (max_coord e)))%R) cs /\
  (exists c, In c cs /\ xr (lat c) = xr (lat (min_coord e))) /\
  (exists c, In c cs /\ xr (lat c) = xr (lat (max_coord e))) /\
  (exists c, In c cs /\ xr (lon c) = xr (lon (min_coord e))) /\
  (exists c, In c cs /\ xr (lon c) = xr (lon (max_coord e))).
Proof. exact bounding_spec. Qed.
Print Assumptions C13_bounding.
(** Non-vacuity, the empty list, and a finding: an extent up to longitude 180 cannot be built from
    coordinates, because 180 becomes -180. *)
Definition coord (la lo : Z) : lat_lon := {| lat := f32_of_Z la; lon := f32_of_Z lo |}.
Example C13_sample :
  bounding_extent [coord 47 8; coord 45 11; coord 48 6] =
    Ok {| min_coord := coord 45 6; max_coord := coord 48 11 |} /\
  bounding_extent [] = Panic /\
  is_inside {| min_coord := coord 45 6; max_coord := coord 48 11 |} (coord 45 6) = true /\
  is_inside {| min_coord := coord 45 6; max_coord := coord 48 11 |} (coord 48 7) = false /\
  extent_new (lat_lon_new (f32_of_Z (-90)) (f32_of_Z (-180))) (lat_lon_new (f32_of_Z 90) (f32_of_Z 180)) =
    Ok {| min_coord := coord (-90) (-180); max_coord := coord 90 (-180) |} /\
  extent_new (lat_lon_new (f32_of_Z (-90)) (f32_of_Z 0)) (lat_lon_new (f32_of_Z 90) (f32_of_Z 180)) = Panic.
Proof. repeat split; vm_compute; reflexivity. Qed.
Lemma coord_fgeo la lo : -90 <= la <= 90 -> -180 <= lo < 180 -> fgeo (coord la lo).
Proof.
  intros A B. destruct (fin_Z la ltac:(lia)) as [F1 E1]. destruct (fin_Z lo ltac:(lia)) as [F2 E2].
  split; [split; assumption|]. cbn [coord lat lon]. rewrite E1, E2. split; [split; apply IZR_le; lia|].
  split; [apply IZR_le; lia|apply IZR_lt; lia].
Qed.

(** C14.  The index is defined exactly for the cells of the grid, and is a bijection between the
    cells and 0 .. w*h-1. *)
Theorem C14_defined : forall g x y, 0 <= x -> 0 <= y ->
  (index_by_xy g x y <> None <-> x < g_w g /\ y < g_h g).
Proof. exact c14_defined_proof. Qed.
Print Assumptions C14_defined.
Theorem C14_injective : forall g x y x' y' i, 0 <= x -> 0 <= y -> 0 <= x' -> 0 <= y' ->
  index_by_xy g x y = Some i -> index_by_xy g x' y' = Some i -> x = x' /\ y = y'.
Proof. exact c14_injective_proof. Qed.
Print Assumptions C14_injective.
Theorem C14_surjective : forall g i, 0 <= g_h g -> 0 <= i < g_w g * g_h g ->
  exists x y, 0 <= x < g_w g /\ 0 <= y < g_h g /\ index_by_xy g x y = Some i.
Proof. exact c14_surjective_proof. Qed.
Print Assumptions C14_surjective.
(** C14.  The index is row-major. *)
Theorem C14_row_major : forall g x y i, 0 <= x -> 0 <= y -> index_by_xy g x y = Some i ->
  i = y * g_w g + x /\ 0 <= i < g_w g * g_h g.
Proof. exact c14_row_major_proof. Qed.
Print Assumptions C14_row_major.
Definition ext : extent := {| min_coord := coord 45 5; max_coord := coord 48 11 |}.
Example C14_sample : index_by_xy (grid_new 600 300 ext) 599 299 = Some 179999 /\
  index_by_xy (grid_new 600 300 ext) 600 0 = None.
Proof. split; reflexivity. Qed.

(** C15.  Grid coordinates exist exactly for the positions inside the half-open extent. *)
Theorem C15_defined : forall w h e p, fin_extent e -> fin_coord p ->
  (xy_by_lat_lon (grid_new w h e) p <> None <->
   (xr (lat (min_coord e)) <= xr (lat p) < xr (lat (max_coord e)))%R /\
   (xr (lon (min_coord e)) <= xr (lon p) < xr (lon (max_coord e)))%R).
Proof. exact c15_defined_proof. Qed.
Print Assumptions C15_defined.
(** C15.  They are finite, not negative and not above the dimension, up to a relative 2^-22. *)
Theorem C15_range : forall w h e p x y, grid_ok w h e -> fin_coord p ->
  xy_by_lat_lon (grid_new w h e) p = Some (x, y) ->
  fin x /\ fin y /\ (0 <= xr x <= IZR w * (1 + bpow radix2 (-22)))%R /\ (0 <= xr y <= IZR h * (1 + bpow radix2 (-22)))%R.
Proof. exact xy_range. Qed.
Print Assumptions C15_range.
(** C15.  They are monotone in longitude and latitude. *)
Theorem C15_monotone : forall w h e p p' x y x' y', grid_ok w h e -> fin_coord p -> fin_coord p' ->
  xy_by_lat_lon (grid_new w h e) p = Some (x, y) -> xy_by_lat_lon (grid_new w h e) p' = Some (x', y') ->
  ((xr (lon p) <= xr (lon p'))%R -> (xr x <= xr x')%R) /\ ((xr (lat p) <= xr (lat p'))%R -> (xr y <= xr y')%R).
Proof. exact c15_monotone_proof. Qed.
Print Assumptions C15_monotone.
(** C15.  They are the exact fractional coordinates up to 2^-21 times the dimension. *)
Theorem C15_accuracy : forall w h e p x y, grid_ok w h e -> fin_coord p ->
  xy_by_lat_lon (grid_new w h e) p = Some (x, y) ->
  (Rabs (xr x - IZR w * ((xr (lon p) - xr (lon (min_coord e))) / (xr (lon (max_coord e)) - xr (lon (min_coord e)))))
     <= IZR w * bpow radix2 (-21))%R /\
  (Rabs (xr y - IZR h * ((xr (lat p) - xr (lat (min_coord e))) / (xr (lat (max_coord e)) - xr (lat (min_coord e)))))
     <= IZR h * bpow radix2 (-21))%R.
Proof. exact c15_accuracy_proof. Qed.
Print Assumptions C15_accuracy.
Lemma ext_geo : geo_grid 600 300 ext.
Proof.
  destruct (fin_Z 5 ltac:(lia)) as [F1 E1]. destruct (fin_Z 11 ltac:(lia)) as [F2 E2].
  destruct (fin_Z 45 ltac:(lia)) as [F3 E3]. destruct (fin_Z 48 ltac:(lia)) as [F4 E4].
  split; unfold axis_geo; cbn [ext coord min_coord max_coord lat lon]; rewrite ?E1, ?E2, ?E3, ?E4;
    (split; [assumption|]); (split; [assumption|]); (split; [lia|]); lra.
Qed.
Example C15_sample : grid_ok 600 300 ext /\ fgeo (coord 46 8) /\
  xy_by_lat_lon (grid_new 600 300 ext) (coord 46 8) = Some (f32_of_Z 300, f32_of_Z 100).
Proof. split; [apply geo_grid_ok, ext_geo|]. split; [apply coord_fgeo; lia|]. vm_compute. reflexivity. Qed.

(** C15.  Conversely, cell coordinates have a position exactly if they are inside of the grid; *)
Theorem C15_position_defined : forall w h e x y, geo_grid w h e -> fin x -> fin y ->
  (lat_lon_by_xy (grid_new w h e) x y <> None <-> (0 <= xr x < IZR w)%R /\ (0 <= xr y < IZR h)%R).
Proof. exact position_defined. Qed.
Print Assumptions C15_position_defined.
(** C15.  it is that fraction of the way from one border to the other, up to 1/4096 degree and whole turns. *)
Theorem C15_position : forall w h e x y p, geo_grid w h e -> fin x -> fin y ->
  lat_lon_by_xy (grid_new w h e) x y = Some p ->
  fin_coord p /\
  (exists k, Rabs (xr (lon p) + 360 * IZR k - (xr (lon (min_coord e)) + xr x / IZR w * (xr (lon (max_coord e)) - xr (lon (min_coord e))))) <= / 4096)%R /\
  (exists k, Rabs (xr (lat p) + 360 * IZR k - (xr (lat (min_coord e)) + xr y / IZR h * (xr (lat (max_coord e)) - xr (lat (min_coord e))))) <= / 4096)%R.
Proof. exact position_place. Qed.
Print Assumptions C15_position.
Example C15_position_sample : geo_grid 600 300 ext /\
  lat_lon_by_xy (grid_new 600 300 ext) (f32_of_Z 300) (f32_of_Z 100) = Some (coord 46 8) /\
  lat_lon_by_xy (grid_new 600 300 ext) (f32_of_Z 300) (f32_of_Z 300) = None.
Proof. split; [exact ext_geo|]. split; vm_compute; reflexivity. Qed.

(** C16.  With at least w*h stored values a lookup never panics; it returns v exactly if the cell is in the
    grid, v is stored at its row-major position and v differs from the missing value. *)
Theorem C16_value : forall (V : value_type) (g : value_grid (carrier V)) x y, 0 <= x -> 0 <= y ->
  (Z.to_nat (g_w (vg_grid g) * g_h (vg_grid g)) <= length (vg_values g))%nat ->
  exists o, value_by_xy V g x y = Ok o /\
  (forall v, o = Some v <-> x < g_w (vg_grid g) /\ y < g_h (vg_grid g) /\
    nth_error (vg_values g) (Z.to_nat (y * g_w (vg_grid g) + x)) = Some v /\ v_eqb V v (vg_missing g) = false).
Proof. exact value_by_xy_spec. Qed.
Print Assumptions C16_value.
(** C16.  A lookup by position uses the cell whose index is nearest to the fractional coordinates;
    outside the extent there is no value. *)
Theorem C16_by_position : forall (V : value_type) vs missing w h e p, grid_ok w h e -> fin_coord p ->
  let g := value_grid_new vs missing w h e in
  (xy_by_lat_lon (grid_new w h e) p = None -> value_by_lat_lon V g p = Ok None) /\
  (forall x y, xy_by_lat_lon (grid_new w h e) p = Some (x, y) ->
   exists i j, 0 <= i /\ 0 <= j /\ (Rabs (IZR i - xr x) <= / 2)%R /\ (Rabs (IZR j - xr y) <= / 2)%R /\
     value_by_lat_lon V g p = value_by_xy V g i j).
Proof. exact c16_by_position_proof. Qed.
Print Assumptions C16_by_position.
(** Finding: a position in the last half cell of the extent is inside the extent but has no value,
    because its coordinate rounds to w.  (Grid 2 x 1 over 2 x 1 degrees.) *)
Definition ext2 : extent := {| min_coord := coord 0 0; max_coord := coord 1 2 |}.
Definition vg2 : value_grid f32 := value_grid_new [f32_of_Z 7; f32_of_Z 8] fzero 2 1 ext2.
Example C16_sample : value_by_xy f32_type vg2 1 0 = Ok (Some (f32_of_Z 8)) /\
  value_by_lat_lon f32_type vg2 {| lat := f32_of_Z 0; lon := f32_lit 5 4 |} = Ok (Some (f32_of_Z 8)) /\
  is_inside ext2 {| lat := f32_of_Z 0; lon := f32_lit 7 4 |} = true /\
  value_by_lat_lon f32_type vg2 {| lat := f32_of_Z 0; lon := f32_lit 7 4 |} = Ok None.
Proof. repeat split; vm_compute; reflexivity. Qed.

(** C17.  Outside the extent there is no interpolated value. *)
Theorem C17_outside : forall (V : value_type) vs missing w h e p, fin_extent e -> fin_coord p ->
  ~ ((xr (lat (min_coord e)) <= xr (lat p) < xr (lat (max_coord e)))%R /\
     (xr (lon (min_coord e)) <= xr (lon p) < xr (lon (max_coord e)))%R) ->
  interpolate V (value_grid_new vs missing w h e) p = Ok None.
Proof. exact c17_outside_proof. Qed.
Print Assumptions C17_outside.
(** C17.  If one of the four surrounding cells has no value, neither has the position. *)
Theorem C17_missing : forall (V : value_type) vs missing w h e p x y i j, grid_ok w h e -> fin_coord p ->
  (Z.to_nat (w * h) <= length vs)%nat -> xy_by_lat_lon (grid_new w h e) p = Some (x, y) ->
  (forall k, xr x <> IZR k) -> (forall k, xr y <> IZR k) ->
  (IZR i - 1 < xr x < IZR i + 1)%R -> (IZR j - 1 < xr y < IZR j + 1)%R ->
  let g := value_grid_new vs missing w h e in
  value_by_xy V g i j = Ok None -> interpolate V g p = Ok None.
Proof. exact c17_missing_proof. Qed.
Print Assumptions C17_missing.
(** C17.  At a cell corner the result is the stored value. *)
Theorem C17_corner : forall (V : value_type) vs missing w h e p x y i j, grid_ok w h e -> fin_coord p ->
  xy_by_lat_lon (grid_new w h e) p = Some (x, y) -> xr x = IZR i -> xr y = IZR j -> i < w -> j < h ->
  let g := value_grid_new vs missing w h e in interpolate V g p = value_by_xy V g i j.
Proof. exact c17_corner_proof. Qed.
Print Assumptions C17_corner.
(** C17.  Between the corners an f32 grid gives the bilinear value up to 2^-18 times the magnitude of
    the data; in particular it stays between the smallest and the largest corner up to that error. *)
Theorem C17_f32 : forall vs missing w h e p x y i j tl tr bl br M, grid_ok w h e -> fin_coord p ->
  let g := value_grid_new vs missing w h e in
  xy_by_lat_lon (grid_new w h e) p = Some (x, y) ->
  (IZR i < xr x < IZR i + 1)%R -> (IZR j < xr y < IZR j + 1)%R ->
  value_by_xy f32_type g i j = Ok (Some tl) -> value_by_xy f32_type g (i + 1) j = Ok (Some tr) ->
  value_by_xy f32_type g i (j + 1) = Ok (Some bl) -> value_by_xy f32_type g (i + 1) (j + 1) = Ok (Some br) ->
  (1 <= M <= bpow radix2 100)%R ->
  Forall (fun v => fin v /\ (Rabs (xr v) <= M)%R) [tl; tr; bl; br] ->
  exists r, interpolate f32_type g p = Ok (Some r) /\ fin r /\
    (Rabs (xr r - bilinear (xr x - IZR i) (xr y - IZR j) (xr tl) (xr tr) (xr bl) (xr br)) <= M * bpow radix2 (-18))%R /\
    (forall lo hi, Forall (fun v => lo <= xr v <= hi)%R [tl; tr; bl; br] ->
       (lo - M * bpow radix2 (-18) <= xr r <= hi + M * bpow radix2 (-18))%R).
Proof. exact c17_f32_proof. Qed.
Print Assumptions C17_f32.
(** C17.  The same for u8 grids, up to two units and 1/4096. *)
Theorem C17_u8 : forall vs missing w h e p x y i j tl tr bl br, grid_ok w h e -> fin_coord p ->
  let g := value_grid_new vs missing w h e in
  xy_by_lat_lon (grid_new w h e) p = Some (x, y) ->
  (IZR i < xr x < IZR i + 1)%R -> (IZR j < xr y < IZR j + 1)%R ->
  value_by_xy u8_type g i j = Ok (Some tl) -> value_by_xy u8_type g (i + 1) j = Ok (Some tr) ->
  value_by_xy u8_type g i (j + 1) = Ok (Some bl) -> value_by_xy u8_type g (i + 1) (j + 1) = Ok (Some br) ->
  Forall (fun v => 0 <= v <= 255) [tl; tr; bl; br] ->
  exists r, interpolate u8_type g p = Ok (Some r) /\ 0 <= r <= 255 /\
    (Rabs (IZR r - bilinear (xr x - IZR i) (xr y - IZR j) (IZR tl) (IZR tr) (IZR bl) (IZR br)) <= 2 + / 4096)%R /\
    (forall lo hi, Forall (fun v => lo <= v <= hi) [tl; tr; bl; br] -> lo - 2 <= r <= hi + 2).
Proof. exact c17_u8_proof. Qed.
Print Assumptions C17_u8.
(** C17, finding.  If exactly one of the coordinates is integral the other axis is not interpolated:
    the value of the lower cell is returned. *)
Theorem C17_one_axis : forall (V : value_type) vs missing w h e p x y i j, grid_ok w h e -> fin_coord p ->
  xy_by_lat_lon (grid_new w h e) p = Some (x, y) -> xr x = IZR i -> (IZR j <= xr y < IZR j + 1)%R -> i < w -> j < h ->
  let g := value_grid_new vs missing w h e in interpolate V g p = value_by_xy V g i j.
Proof. exact c17_one_axis_proof. Qed.
Print Assumptions C17_one_axis.
Theorem C17_other_axis : forall (V : value_type) vs missing w h e p x y i j, grid_ok w h e -> fin_coord p ->
  xy_by_lat_lon (grid_new w h e) p = Some (x, y) -> (IZR i <= xr x < IZR i + 1)%R -> xr y = IZR j -> i < w -> j < h ->
  let g := value_grid_new vs missing w h e in interpolate V g p = value_by_xy V g i j.
Proof. exact c17_other_axis_proof. Qed.
Print Assumptions C17_other_axis.
(** A 2 x 2 grid over 2 x 2 degrees. *)
Definition ext3 : extent := {| min_coord := coord 0 0; max_coord := coord 2 2 |}.
Definition vg4 : value_grid f32 := value_grid_new [f32_of_Z 0; f32_of_Z 4; f32_of_Z 8; f32_of_Z 20] (f32_of_Z (-1)) 2 2 ext3.
Definition pos (a b : Z) : lat_lon := {| lat := f32_lit a 4; lon := f32_lit b 4 |}.
Example C17_sample :
  interpolate f32_type vg4 (pos 2 2) = Ok (Some (f32_of_Z 8)) /\
  interpolate f32_type vg4 (pos 4 4) = Ok (Some (f32_of_Z 20)) /\
  interpolate f32_type vg4 (pos 4 3) = Ok (Some (f32_of_Z 8)) /\
  interpolate f32_type vg4 (pos 3 4) = Ok (Some (f32_of_Z 4)) /\
  interpolate f32_type vg4 (pos 6 6) = Ok None /\
  interpolate u8_type (value_grid_new [10; 20; 30; 40] 0 2 2 ext3) (pos 1 2) = Ok (Some 20) /\
  interpolate u8_type (value_grid_new [10; 20; 30; 0] 0 2 2 ext3) (pos 1 2) = Ok None.
Proof. repeat split; vm_compute; reflexivity. Qed.
Lemma ext3_ok : grid_ok 2 2 ext3.
Proof.
  apply geo_grid_ok. destruct (fin_Z 0 ltac:(lia)) as [F1 E1]. destruct (fin_Z 2 ltac:(lia)) as [F2 E2].
  split; unfold axis_geo; cbn [ext3 coord min_coord max_coord lat lon]; rewrite ?E1, ?E2;
    (split; [assumption|]); (split; [assumption|]); (split; [lia|]); lra.
Qed.

(** C18.  After any sequence of offers the triple holds three (or all, if there are fewer) of the
    offered entries, and none that was turned down is nearer than one that was kept. *)
Theorem C18_nearest : forall l, Forall num_dist l ->
  let kept := triple_dists (fold_left triple_add l triple_new) in
  length kept = Nat.min 3 (length l) /\
  exists rejected, Permutation l (kept ++ rejected) /\
    forall k r, In k kept -> In r rejected -> (xr (snd k) <= xr (snd r))%R.
Proof. exact triple_nearest. Qed.
Print Assumptions C18_nearest.
(** The kept entries are not sorted. *)
Example C18_sample : let l := map (fun z => (z, f32_of_Z z)) [9; 5; 7; 1; 6] in
  Forall num_dist l /\
  triple_dists (fold_left triple_add l triple_new) = map (fun z => (z, f32_of_Z z)) [1; 5; 6].
Proof. split; [repeat constructor|vm_compute; reflexivity]. Qed.

(** C19.  For a grid with at least one cell the lookup map can always be built, with one slot per
    cell. *)
Theorem C19_total : forall chk w h e cs d, 1 <= w -> 1 <= h ->
  exists u, calc_coord_dist_lookup_map chk (unstructured_new None w h e cs) d = Ok u /\
    forall x y, 0 <= x < w -> 0 <= y < h -> exists o, get_coord_dist u x y = Ok o.
Proof. exact c19_total_proof. Qed.
Print Assumptions C19_total.
(** C19.  The entry of a cell is a coordinate whose window covers the cell and which is not farther
    than the maximum distance; no other such coordinate is nearer, and none of the later ones is
    equally near.  A cell without entry has no such coordinate. *)
Theorem C19_nearest : forall chk w h e cs d u x y, geo_grid w h e -> Forall fin_coord cs -> fin d ->
  calc_coord_dist_lookup_map chk (unstructured_new None w h e cs) d = Ok u -> 0 <= x < w -> 0 <= y < h ->
  let g := grid_new w h e in
  (forall i s, get_coord_dist u x y = Ok (Some (i, s)) ->
     0 <= i /\ exists c, nth_error cs (Z.to_nat i) = Some c /\ window_covers chk g d c x y /\ nearby g d c x y s /\
     forall j c' s', nth_error cs j = Some c' -> window_covers chk g d c' x y -> nearby g d c' x y s' ->
       (xr s <= xr s')%R /\ ((Z.to_nat i < j)%nat -> (xr s < xr s')%R)) /\
  (get_coord_dist u x y = Ok None ->
     forall c s, In c cs -> window_covers chk g d c x y -> ~ nearby g d c x y s).
Proof. exact c19_nearest_proof. Qed.
Print Assumptions C19_nearest.
(** C19.  Away from the antimeridian the windows miss nothing: the entry of a cell is the nearest of
    all coordinates within the maximum distance, the last of them on a tie. *)
Theorem C19_complete : forall chk w h e cs d u x y, geo_grid w h e -> fin d -> (0 <= xr d <= 64)%R ->
  Forall (clear_of_antimeridian d) cs ->
  calc_coord_dist_lookup_map chk (unstructured_new None w h e cs) d = Ok u -> 0 <= x < w -> 0 <= y < h ->
  let g := grid_new w h e in
  (forall i s, get_coord_dist u x y = Ok (Some (i, s)) ->
     0 <= i /\ exists c, nth_error cs (Z.to_nat i) = Some c /\ nearby g d c x y s /\
     forall j c' s', nth_error cs j = Some c' -> nearby g d c' x y s' ->
       (xr s <= xr s')%R /\ ((Z.to_nat i < j)%nat -> (xr s < xr s')%R)) /\
  (get_coord_dist u x y = Ok None -> forall c s, In c cs -> ~ nearby g d c x y s).
Proof. exact c19_complete_proof. Qed.
Print Assumptions C19_complete.
(** A 4 x 4 grid over 4 x 4 degrees with cell centres at the half degrees; then two findings: a
    coordinate near the antimeridian is not offered even to its own cell (-150 is as near to the cell
    centre -135 as -120 is), and a NaN coordinate
    captures the cells of its window. *)
Definition ext4 (la lo : Z) : extent := {| min_coord := coord la lo; max_coord := coord (la + 4) (lo + 4) |}.
Definition entries (cs : list lat_lon) (e : extent) (d : f32) (cells : list (Z * Z)) : list (outcome (option Z)) :=
  map (fun '(x, y) => obind (calc_coord_dist_lookup_map true (unstructured_new None 4 4 e cs) d)
                        (fun u => omap (option_map fst) (get_coord_dist u x y))) cells.
Example C19_sample :
  entries [coord 1 1; coord 3 3] (ext4 0 0) (f32_of_Z 1) [(0, 0); (1, 1); (2, 3); (3, 0)] =
    [Ok (Some 0); Ok (Some 0); Ok (Some 1); Ok None] /\
  entries [coord 1 1; coord 1 1] (ext4 0 0) (f32_of_Z 1) [(0, 0)] = [Ok (Some 1)] /\
  (let world := {| min_coord := coord (-90) (-180); max_coord := coord 90 180 |} in
   entries [coord 20 (-120)] world (f32_of_Z 40) [(0, 2)] = [Ok (Some 0)] /\
   entries [coord 20 (-150)] world (f32_of_Z 40) [(0, 2)] = [Ok None]) /\
  entries [{| lat := S754_nan; lon := S754_nan |}] (ext4 0 0) (f32_of_Z 1) [(0, 0); (3, 3)] = [Ok (Some 0); Ok (Some 0)].
Proof. repeat split; vm_compute; reflexivity. Qed.

(** C20.  Regridding yields one value per cell: that of the mapped coordinate, or the missing value. *)
Theorem C20_values : forall T (u : unstructured_values (option coord_dist) T),
  let g := ug_grid (uv_grid u) in
  0 <= g_w g -> 0 <= g_h g -> length (ug_map (uv_grid u)) = Z.to_nat (g_w g * g_h g) ->
  exists vs, create_regular_grid u = Ok (value_grid_new vs (uv_missing u) (g_w g) (g_h g) (g_extent g)) /\
    length vs = Z.to_nat (g_w g * g_h g) /\
    forall x y, 0 <= x < g_w g -> 0 <= y < g_h g -> exists o,
      get_coord_dist (uv_grid u) x y = Ok o /\
      nth_error vs (Z.to_nat (y * g_w g + x)) =
      Some (match o with Some (i, _) => nth (Z.to_nat i) (uv_values u) (uv_missing u) | None => uv_missing u end).
Proof. exact c20_values_proof. Qed.
Print Assumptions C20_values.
(** C20.  With three neighbours only the values of the mapped coordinates matter. *)
Theorem C20_three_frame : forall (V : value_type) sum u vals1 vals2 missing x y,
  (forall i t cd, index_by_xy (ug_grid u) x y = Some i -> nth_error (ug_map u) (Z.to_nat i) = Some t ->
     In cd (triple_dists t) -> nth_error vals1 (Z.to_nat (fst cd)) = nth_error vals2 (Z.to_nat (fst cd))) ->
  unstructured_value_by_xy1 V sum {| uv_grid := u; uv_values := vals1; uv_missing := missing |} x y =
  unstructured_value_by_xy1 V sum {| uv_grid := u; uv_values := vals2; uv_missing := missing |} x y.
Proof. exact three_frame. Qed.
Print Assumptions C20_three_frame.
(** C20.  Outside the grid, and at a cell without neighbours, there is no value. *)
Theorem C20_three_none : forall (V : value_type) sum (u : unstructured_values triple (carrier V)) x y, 0 <= x -> 0 <= y ->
  let g := ug_grid (uv_grid u) in
  g_w g <= x \/ g_h g <= y \/ (exists t, nth_error (ug_map (uv_grid u)) (Z.to_nat (y * g_w g + x)) = Some t /\ triple_dists t = []) ->
  unstructured_value_by_xy1 V sum u x y = Ok None.
Proof.
  intros V sum u x y X Y g H. unfold unstructured_value_by_xy1, index_by_xy. fold g.
  destruct (Z.leb_spec (g_w g) x) as [A|A]; [reflexivity|]. destruct (Z.leb_spec (g_h g) y) as [B|B]; [reflexivity|].
  destruct H as [H|[H|(t & N & T)]]; [lia|lia|]. cbn [orb]. unfold index_vec. replace (x + y * g_w g) with (y * g_w g + x) by lia. rewrite N. cbn [obind]. rewrite T. reflexivity.
Qed.
Print Assumptions C20_three_none.
(** C20.  With three neighbours the f32 value of a cell is the mean of the neighbours' values weighted by their
    distances (a missing neighbour counts as 0), up to rounding: within M/2^19 if no value exceeds M.
    (Findings: the farther neighbour counts more, and a missing neighbour lowers the value.) *)
Theorem C20_three_mean : forall u vals missing x y t M,
  0 <= x < g_w (ug_grid u) -> 0 <= y < g_h (ug_grid u) ->
  nth_error (ug_map u) (Z.to_nat (y * g_w (ug_grid u) + x)) = Some t ->
  let ds := triple_dists t in
  ds <> [] -> (length ds <= 3)%nat -> Forall proper_distance ds ->
  (0 <= M <= 2 ^ 100)%R ->
  (forall cd v, In cd ds -> nth_error vals (Z.to_nat (fst cd)) = Some v -> fin v /\ (Rabs (xr v) <= M)%R) ->
  exists r, unstructured_value_by_xy1 f32_type f32_sum {| uv_grid := u; uv_values := vals; uv_missing := missing |} x y = Ok (Some r) /\
    fin r /\ (Rabs (xr r - weighted_mean ds (contribution vals missing)) <= M / 2 ^ 19 + / 2 ^ 140)%R.
Proof. exact c20_three_mean_proof. Qed.
Print Assumptions C20_three_mean.
(** C20.  For bytes the neighbours' shares are rounded one by one before they are added.  (Finding: the sum may
    thereby exceed 255; it then panics in a build with overflow checks and wraps around in one without.) *)
Theorem C20_three_u8 : forall chk u vals missing x y t,
  0 <= x < g_w (ug_grid u) -> 0 <= y < g_h (ug_grid u) ->
  nth_error (ug_map u) (Z.to_nat (y * g_w (ug_grid u) + x)) = Some t ->
  let ds := triple_dists t in
  ds <> [] -> (length ds <= 3)%nat -> Forall proper_distance ds ->
  (forall v, In v vals -> 0 <= v <= 255) ->
  exists ks, Forall2 (fun cd k => 0 <= k <= 255 /\
      (Rabs (IZR k - weight ds cd * contribution_u8 vals missing cd) <= / 2 + / 2048)%R) ds ks /\
    let s := fold_right Z.add 0 ks in
    unstructured_value_by_xy1 u8_type (u8_sum chk) {| uv_grid := u; uv_values := vals; uv_missing := missing |} x y =
    if s <=? 255 then Ok (Some s) else if chk then Panic else Ok (Some (s mod 256)).
Proof. exact c20_three_u8_proof. Qed.
Print Assumptions C20_three_u8.
(** Two neighbours at distance 2 (squares 4) of a cell, and one at distance 1. *)
Definition three_map (l : list (Z * Z)) : unstructured triple :=
  {| ug_grid := grid_new 1 1 (ext4 0 0); ug_coords := []; ug_map := [map (fun p => Some (fst p, f32_of_Z (snd p))) l] |}.
Example C20_three_sample : Forall proper_distance (triple_dists [Some (0, f32_of_Z 4); Some (1, f32_of_Z 4)]) /\
  unstructured_value_by_xy1 f32_type f32_sum
    {| uv_grid := three_map [(0, 4); (1, 4); (2, 1)]; uv_values := map f32_of_Z [10; 20; 40]; uv_missing := f32_of_Z (-1) |} 0 0 =
    Ok (Some (f32_of_Z 20)) /\
  unstructured_value_by_xy1 u8_type (u8_sum true) {| uv_grid := three_map [(0, 4); (1, 4)]; uv_values := [100; 200]; uv_missing := 7 |} 0 0 =
    Ok (Some 150) /\
  unstructured_value_by_xy1 u8_type (u8_sum true) {| uv_grid := three_map [(0, 4); (1, 4)]; uv_values := [255; 255]; uv_missing := 7 |} 0 0 = Panic /\
  unstructured_value_by_xy1 u8_type (u8_sum false) {| uv_grid := three_map [(0, 4); (1, 4)]; uv_values := [255; 255]; uv_missing := 7 |} 0 0 = Ok (Some 0) /\
  unstructured_value_by_xy1 u8_type (u8_sum true) {| uv_grid := three_map [(0, 4); (1, 4)]; uv_values := [100; 200]; uv_missing := 7 |} 0 1 = Ok None /\
  unstructured_value_by_xy1 u8_type (u8_sum true) {| uv_grid := three_map []; uv_values := [100; 200]; uv_missing := 7 |} 0 0 = Ok None.
Proof.
  split; [|repeat split; vm_compute; reflexivity].
  assert (P : proper_distance (0, f32_of_Z 4) /\ proper_distance (1, f32_of_Z 4)).
  { destruct (fin_Z 4 ltac:(lia)) as [F E]. unfold proper_distance. cbn [snd]. rewrite E.
    assert (/ 2 ^ 100 <= 4 <= 2 ^ 100)%R; [|auto]. split.
    - apply Rle_trans with (/ 1)%R; [apply Rinv_le_contravar; [lra|apply pow_R1_Rle; lra]|lra].
    - apply Rle_trans with (2 ^ 2)%R; [simpl; lra|apply Rle_pow; [lra|lia]]. }
  constructor; [apply P|constructor; [apply P|constructor]].
Qed.
(** Regridding of three values onto a 4 x 4 grid; then findings about three neighbours: the farther
    neighbour gets the larger weight (distances 0 and 1: only the far value counts), a cell that
    coincides with its only coordinate becomes NaN, and a cell all of whose neighbours are missing
    becomes 0 instead of missing. *)
Definition regrid1 (cs : list lat_lon) (vals : list Z) (x y : Z) : outcome (option f32) :=
  obind (calc_coord_dist_lookup_map1 true (unstructured_new triple_new 4 4 (ext4 0 0) cs) (f32_of_Z 1)) (fun u =>
    unstructured_value_by_xy1 f32_type f32_sum
      {| uv_grid := u; uv_values := map f32_of_Z vals; uv_missing := f32_of_Z (-1) |} x y).
Definition half_coord (a b : Z) : lat_lon := {| lat := f32_lit a 2; lon := f32_lit b 2 |}.
Example C20_sample :
  obind (calc_coord_dist_lookup_map true (unstructured_new None 4 4 (ext4 0 0) [coord 1 1; coord 3 3]) (f32_of_Z 1)) (fun u =>
    omap vg_values (create_regular_grid {| uv_grid := u; uv_values := [7; 9]; uv_missing := 255 |})) =
    Ok [7; 7; 255; 255; 7; 7; 255; 255; 255; 255; 9; 9; 255; 255; 9; 9] /\
  regrid1 [half_coord 1 1; half_coord 3 1] [10; 50] 0 0 = Ok (Some (f32_of_Z 50)) /\
  regrid1 [half_coord 1 1] [10] 0 0 = Ok (Some S754_nan) /\
  regrid1 [half_coord 2 1] [-1] 0 0 = Ok (Some fzero) /\
  regrid1 [half_coord 2 1] [10] 0 0 = Ok (Some (f32_of_Z 10)).
Proof. repeat split; vm_compute; reflexivity. Qed.

(** C21.  Scaling a u8 value by a finite factor gives the product, rounded to f32 and then to the
    nearest integer, clamped to 0..255; it is within 1/2 + 1/32768 of the clamped exact product. *)
Theorem C21_scale : forall v f, 0 <= v <= 255 -> fin f ->
  u8_scale v f = Z.max 0 (Z.min 255 (Zround (rnd (IZR v * xr f)))).
Proof. exact u8_scale_spec. Qed.
Print Assumptions C21_scale.
Theorem C21_scale_error : forall v f, 0 <= v <= 255 -> fin f ->
  0 <= u8_scale v f <= 255 /\ (Rabs (IZR (u8_scale v f) - clamp255 (IZR v * xr f)) <= / 2 + / 32768)%R.
Proof. exact u8_scale_error. Qed.
Print Assumptions C21_scale_error.
(** C21.  Any factor at all, NaN and infinities included, gives a u8; a NaN product gives 0. *)
Theorem C21_scale_total : forall v f, 0 <= u8_scale v f <= 255 /\ (fis_nan (fmul (f32_of_Z v) f) = true -> u8_scale v f = 0).
Proof. exact c21_scale_total_proof. Qed.
Print Assumptions C21_scale_total.
(** C21.  Addition saturates. *)
Theorem C21_add : forall a b, 0 <= a <= 255 -> 0 <= b <= 255 -> u8_add a b = Z.min 255 (a + b).
Proof. exact c21_add_proof. Qed.
Print Assumptions C21_add.
(** C21.  Equal values combined with complementary weights reproduce the value within one unit. *)
Theorem C21_equal : forall v x, 0 <= v <= 255 -> fin x -> (0 <= xr x)%R -> (forall k, xr x <> IZR k) ->
  v - 1 <= u8_add (u8_scale v (fsub (fceil x) x)) (u8_scale v (fsub x (ffloor x))) <= v + 1.
Proof. exact c21_equal_proof. Qed.
Print Assumptions C21_equal.
Example C21_sample : u8_scale 200 (f32_lit 3 2) = 255 /\ u8_scale 7 (f32_lit 1 2) = 4 /\
  u8_scale 5 (f32_of_Z (-1)) = 0 /\ u8_scale 0 (S754_infinity false) = 0 /\ u8_scale 1 (S754_infinity false) = 255 /\
  u8_add 200 100 = 255 /\ u8_add (u8_scale 1 (f32_lit 1 2)) (u8_scale 1 (f32_lit 1 2)) = 2.
Proof. repeat split; vm_compute; reflexivity. Qed.

(** C22.  The coordinate list pairs the two documents' values by position; documents with different
    numbers of values are an error. *)
Theorem C22_coordinates : forall powi lat_doc lon_doc lats lons,
  calculate_data_points powi lat_doc (f32_of_Z 255) (fun x => x) = Ok lats ->
  calculate_data_points powi lon_doc (f32_of_Z 255) (fun x => x) = Ok lons ->
  (length lats <> length lons -> coordinates_from_docs powi lat_doc lon_doc = Err EInvalid) /\
  (length lats = length lons -> exists cs, coordinates_from_docs powi lat_doc lon_doc = Ok cs /\
     length cs = length lats /\
     forall i la lo, nth_error lats i = Some la -> nth_error lons i = Some lo -> nth_error cs i = Some (lat_lon_new la lo)).
Proof. exact c22_coordinates_proof. Qed.
Print Assumptions C22_coordinates.
(** C22.  A value document whose number of values differs from the number of coordinates is refused. *)
Theorem C22_refused : forall T chk powi d (transform : f32 -> T) missing cs w h e dist values,
  calculate_data_points powi d missing transform = Ok values -> length values <> length cs ->
  unstructured_create chk powi d transform missing cs w h e dist = Err EInvalid.
Proof. exact c22_refused_proof. Qed.
Print Assumptions C22_refused.
(** C22.  Selecting documents a..b keeps exactly those, in order. *)
Theorem C22_selection : forall A a b (docs : list A), 0 <= a ->
  select_docs (Some (a, b)) docs = firstn (Z.to_nat (b - a + 1)) (skipn (Z.to_nat a) docs).
Proof. exact c22_selection_proof. Qed.
Print Assumptions C22_selection.
(** C22.  However the parallel conversion is scheduled, it succeeds exactly if every document
    converts, and then the grids are in document order. *)
Theorem C22_parallel : forall T powi (missing : T) transform u range docs r,
  multi_unstructured powi missing transform u range docs r ->
  forall ys, r = Ok ys <-> Forall2 (fun d y => regrid_doc powi missing transform u d = Ok y) (select_docs range docs) ys.
Proof. exact c22_parallel_proof. Qed.
Print Assumptions C22_parallel.
Example C22_sample : select_docs (Some (1, 2)) [10; 11; 12; 13] = [11; 12] /\ select_docs (Some (2, 9)) [10; 11; 12; 13] = [12; 13] /\
  select_docs (Some (3, 1)) [10; 11; 12; 13] = [] /\   select_docs None [10; 11] = [10; 11].
Proof. repeat split; reflexivity. Qed.
