(** The property C63, about the rows of map tiles. *)
From Coq Require Import ZArith Reals Lia Lra.
From Verif Require Import Base F32 F32Facts GeoModel GeoSpec GeoProofs ImagingModel ImagingSpec TileModel TileSpec TileProofs MercatorProofs LibmProofs.
Open Scope R_scope.

(** C63.  The tile row computed for a latitude is that of the Web-Mercator map, up to 1/16384 of the height of the map. *)
Theorem C63_row : forall chk m p zoom, libm_accurate m -> (0 <= zoom <= 24)%Z -> fin (lat p) -> Rabs (xr (lat p)) <= 851 / 10 ->
  exists t, from_position chk m p zoom = Ok t /\
    IZR (t_y t) - IZR (2 ^ zoom) / 16384 <= Rmax 0 (row_at zoom (xr (lat p))) /\
    row_at zoom (xr (lat p)) < IZR (t_y t) + 1 + IZR (2 ^ zoom) / 16384.
Proof. exact c63_row_proof. Qed.
Print Assumptions C63_row.
(** C63.  North of the equator, where nothing is cancelled, up to 1/262144. *)
Theorem C63_row_north : forall chk m p zoom, libm_accurate m -> (0 <= zoom <= 24)%Z -> fin (lat p) -> 0 <= xr (lat p) <= 851 / 10 ->
  exists t, from_position chk m p zoom = Ok t /\
    IZR (t_y t) - IZR (2 ^ zoom) / 262144 <= Rmax 0 (row_at zoom (xr (lat p))) /\
    row_at zoom (xr (lat p)) < IZR (t_y t) + 1 + IZR (2 ^ zoom) / 262144.
Proof. exact c63_row_north_proof. Qed.
Print Assumptions C63_row_north.
(** C63.  A latitude that is inside a row by that much is in that row. *)
Theorem C63_inside : forall chk m p zoom y, libm_accurate m -> (0 <= zoom <= 24)%Z -> (0 <= y)%Z -> fin (lat p) -> Rabs (xr (lat p)) <= 851 / 10 ->
  IZR y + IZR (2 ^ zoom) / 16384 <= row_at zoom (xr (lat p)) < IZR y + 1 - IZR (2 ^ zoom) / 16384 ->
  exists t, from_position chk m p zoom = Ok t /\ t_y t = y.
Proof. exact c63_inside_proof. Qed.
Print Assumptions C63_inside.
(** C63.  The latitude computed for the upper edge of a row is that of the Web-Mercator map up to 1/8192 degree. *)
Theorem C63_latitude : forall chk m zoom x y, libm_accurate m -> (0 <= zoom <= 22)%Z -> (0 <= y <= 2 ^ zoom)%Z ->
  exists p, to_position chk m {| t_x := x; t_y := y; t_zoom := zoom |} = Ok p /\ fin (lat p) /\ Rabs (xr (lat p) - row_lat zoom (IZR y)) <= / 8192.
Proof. exact c63_latitude_proof. Qed.
Print Assumptions C63_latitude.
(** C63.  A pixel of a tile shows the place that the Web-Mercator map has there: the longitude is exact, the latitude is
    off by at most 283 / 4^zoom + 1/4096 degrees, because within a tile latitudes are equally spaced. *)
Theorem C63_pixels : forall chk m zoom x y, libm_ok m -> libm_accurate m -> (0 <= zoom <= 10)%Z -> (0 <= x < 2 ^ zoom)%Z -> (0 <= y < 2 ^ zoom)%Z ->
  exists pos : Z -> Z -> lat_lon,
    (forall j i, inside 256 256 j i ->
      fin (lon (pos j i)) /\ xr (lon (pos j i)) = column_lon zoom (IZR x + IZR j / 256) /\
      fin (lat (pos j i)) /\ Rabs (xr (lat (pos j i)) - row_lat zoom (IZR y + IZR i / 256)) <= 283 / IZR (4 ^ zoom) + / 4096) /\
  forall T (value : lat_lon -> outcome (option T)) color_fn d,
  create_single_tile chk m value color_fn {| t_x := x; t_y := y; t_zoom := zoom |} = Ok d ->
  forall j i, inside 256 256 j i -> exists c, colour_at value color_fn (pos j i) = Ok c /\ pixel d j i = Some c.
Proof. exact c63_pixels_proof. Qed.
Print Assumptions C63_pixels.
(** C63.  The specification is consistent: the row of the latitude of a row is that row. *)
Theorem C63_inverse : forall zoom y, (0 <= zoom)%Z -> row_at zoom (row_lat zoom y) = y.
Proof. exact c63_inverse_proof. Qed.
Print Assumptions C63_inverse.

(** The assumptions are met by a library that rounds exact results correctly. *)
Example C63_library : libm_ok ideal /\ libm_accurate ideal.
Proof. exact (conj ideal_ok ideal_accurate). Qed.
(** With it, 45 degrees north is in the upper row of zoom level 1: its row is between 0.68 and 0.85. *)
Definition north45 : lat_lon := {| lat := f32_of_Z 45; lon := f32_of_Z 8 |}.
Example C63_sample : forall chk, exists t, from_position chk ideal north45 1 = Ok t /\ t_y t = 0%Z.
Proof.
  intro chk. destruct (fin_Z 45 ltac:(lia)) as [F E]. apply C63_inside; [exact ideal_accurate|lia|lia|exact F| |]; unfold north45; cbn [lat]; rewrite E.
  - rewrite Rabs_pos_eq; lra.
  - change (IZR (2 ^ 1)) with 2. pose proof row_45. lra.
Qed.
(** Finding: at zoom level 0 the distortion is large.  The row at a quarter of the height of the only tile should be further
    north than 60 degrees, but it shows values from 46 degrees or less. *)
Theorem C63_distortion : forall chk m, libm_ok m -> libm_accurate m ->
  exists pos : Z -> Z -> lat_lon, (forall j, (0 <= j < 256)%Z -> xr (lat (pos j 64%Z)) <= 46) /\ 60 < row_lat 0 (64 / 256) /\
  forall T (value : lat_lon -> outcome (option T)) color_fn d,
  create_single_tile chk m value color_fn {| t_x := 0; t_y := 0; t_zoom := 0 |} = Ok d ->
  forall j i, inside 256 256 j i -> exists c, colour_at value color_fn (pos j i) = Ok c /\ pixel d j i = Some c.
Proof. exact c63_distortion_proof. Qed.
Print Assumptions C63_distortion.
