(** The properties C32-C34, about map tiles. *)
From Coq Require Import ZArith Reals List Bool Lia Lra Permutation.
From Coq Require Import Floats.SpecFloat.
From Verif Require Import Base F32 F32Facts GeoModel GeoSpec GeoProofs GeoValueProofs ImagingModel ImagingSpec Par TileModel TileSpec TileProofs.
Import ListNotations.
Open Scope Z_scope.

(** ** C32: every tile of the covered range exactly once *)

(** C32.  Whatever the schedule: when the rendering has succeeded, the tiles handed to the caller's function are
    exactly the covered tiles of the zoom range, each once, and each has the content of that tile alone. *)
Theorem C32_complete : forall T chk m e zl zh (value : lat_lon -> outcome (option T)) color_fn tr,
  create_all_tiles chk m e (zl, zh) value color_fn observe tr (Ok tt) ->
  NoDup (map place tr) /\ (forall z x y, In (z, x, y) (map place tr) <-> zl <= z <= zh /\ covers chk m e z x y) /\
  Forall (fun s => create_single_tile chk m value color_fn {| t_x := s_x s; t_y := s_y s; t_zoom := s_zoom s |} = Ok (s_content s)) tr.
Proof. exact c32_complete_proof. Qed.
Print Assumptions C32_complete.
(** C32.  However the rendering ends, no tile has been handed out twice, none outside the range, and none with another content. *)
Theorem C32_any_end : forall T chk m e zl zh (value : lat_lon -> outcome (option T)) color_fn tr r,
  create_all_tiles chk m e (zl, zh) value color_fn observe tr r ->
  NoDup (map place tr) /\ (forall z x y, In (z, x, y) (map place tr) -> zl <= z <= zh /\ covers chk m e z x y) /\
  Forall (fun s => create_single_tile chk m value color_fn {| t_x := s_x s; t_y := s_y s; t_zoom := s_zoom s |} = Ok (s_content s)) tr.
Proof. exact c32_any_end_proof. Qed.
Print Assumptions C32_any_end.
(** C32.  The rendering fails, with a panic, only if a tile of the range cannot be rendered or if
    a zoom level of 32 or more overflows; and it always ends in some way. *)
Theorem C32_failure : forall T chk m e zl zh (value : lat_lon -> outcome (option T)) color_fn tr r,
  create_all_tiles chk m e (zl, zh) value color_fn observe tr r -> r <> Ok tt ->
  r = Panic /\ exists z, zl <= z <= zh /\ ((chk = true /\ 32 <= z) \/
    exists x y, covers chk m e z x y /\ forall d, create_single_tile chk m value color_fn {| t_x := x; t_y := y; t_zoom := z |} <> Ok d).
Proof. exact c32_failure_proof. Qed.
Print Assumptions C32_failure.
Theorem C32_ends : forall T chk m e zl zh (value : lat_lon -> outcome (option T)) color_fn,
  exists tr r, create_all_tiles chk m e (zl, zh) value color_fn observe tr r.
Proof. exact c32_ends_proof. Qed.
Print Assumptions C32_ends.

(** A library whose sinh is the identity, whose atan cuts off at 1.5, and whose ln of anything is zero, so that
    every position is in the middle row. *)
Definition clip (x : f32) : f32 := fmin (fmax x (f32_lit (-3) 2)) (f32_lit 3 2).
Definition flat : libm := {| m_tan := fun x => x; m_cos := fun _ => f32_of_Z 1; m_ln := fun _ => fzero; m_sinh := fun x => x; m_atan := clip |}.
Definition half_world : extent :=
  {| min_coord := {| lat := f32_of_Z (-10); lon := f32_of_Z (-100) |}; max_coord := {| lat := f32_of_Z 10; lon := f32_of_Z 20 |} |}.
(** Columns 0 and 1 of row 1 at zoom level 1: two tiles. *)
Example C32_sample : forall x y, covers true flat half_world 1 x y <-> 0 <= x <= 1 /\ y = 1.
Proof.
  intros x y. split.
  - intros (a & b & Ea & Eb & X & Y).
    assert (Qa : a = {| t_x := 1; t_y := 1; t_zoom := 1 |}).
    { assert (Some a = match from_position true flat {| lat := lat (min_coord half_world); lon := lon (max_coord half_world) |} 1 with Ok v => Some v | _ => None end) as Q by (rewrite Ea; reflexivity).
      vm_compute in Q. congruence. }
    assert (Qb : b = {| t_x := 0; t_y := 1; t_zoom := 1 |}).
    { assert (Some b = match from_position true flat {| lat := lat (max_coord half_world); lon := lon (min_coord half_world) |} 1 with Ok v => Some v | _ => None end) as Q by (rewrite Eb; reflexivity).
      vm_compute in Q. congruence. }
    subst. clear Ea Eb. unfold between in *. cbn [t_x t_y] in X, Y. lia.
  - intros [X ->]. exists {| t_x := 1; t_y := 1; t_zoom := 1 |}, {| t_x := 0; t_y := 1; t_zoom := 1 |}.
    split; [vm_compute; reflexivity|]. split; [vm_compute; reflexivity|]. unfold between. cbn. lia.
Qed.

(** ** C33: pixels of a tile *)

(** C33.  A tile depends on the value and the colour function only through the colours at 256 x 256 positions,
    which depend on the tile alone; each pixel has the colour at its position, or the rendering fails
    the way one of these colours does. *)
Theorem C33_any_tile : forall chk m zoom x y, 0 <= zoom < 32 -> 0 <= x < 2 ^ 32 - 1 -> 0 <= y < 2 ^ 32 - 1 ->
  exists pos : Z -> Z -> lat_lon, forall T (value : lat_lon -> outcome (option T)) color_fn,
  match create_single_tile chk m value color_fn {| t_x := x; t_y := y; t_zoom := zoom |} with
  | Ok d => drawable_ok d /\ d_w d = 256 /\ d_h d = 256 /\
      forall j i, inside 256 256 j i -> exists c, colour_at value color_fn (pos j i) = Ok c /\ pixel d j i = Some c
  | Err e => exists j i, inside 256 256 j i /\ colour_at value color_fn (pos j i) = Err e
  | Panic => exists j i, inside 256 256 j i /\ colour_at value color_fn (pos j i) = Panic
  end.
Proof. exact c33_any_tile_proof. Qed.
Print Assumptions C33_any_tile.
(** C33.  Up to zoom level 10 the longitude of column j of the tile is exactly that of j/256 of the tile's width, and the
    latitude of row i lies, up to 1/16384 degree, i/256 of the way from the upper to the lower edge. *)
Theorem C33_pixels : forall chk m zoom x y, libm_ok m -> 0 <= zoom <= 10 -> 0 <= x < 2 ^ zoom -> 0 <= y < 2 ^ zoom ->
  exists (pos : Z -> Z -> lat_lon) p0 p1,
    to_position chk m {| t_x := x; t_y := y; t_zoom := zoom |} = Ok p0 /\
    to_position chk m {| t_x := x + 1; t_y := y + 1; t_zoom := zoom |} = Ok p1 /\
    (forall j i, inside 256 256 j i ->
      fin (lon (pos j i)) /\ xr (lon (pos j i)) = column_lon zoom (IZR x + IZR j / 256) /\
      fin (lat (pos j i)) /\ (Rabs (xr (lat (pos j i)) - (xr (lat p0) + IZR i / 256 * (xr (lat p1) - xr (lat p0)))) <= / 16384)%R) /\
  forall T (value : lat_lon -> outcome (option T)) color_fn,
  match create_single_tile chk m value color_fn {| t_x := x; t_y := y; t_zoom := zoom |} with
  | Ok d => drawable_ok d /\ d_w d = 256 /\ d_h d = 256 /\
      forall j i, inside 256 256 j i -> exists c, colour_at value color_fn (pos j i) = Ok c /\ pixel d j i = Some c
  | Err e => exists j i, inside 256 256 j i /\ colour_at value color_fn (pos j i) = Err e
  | Panic => exists j i, inside 256 256 j i /\ colour_at value color_fn (pos j i) = Panic
  end.
Proof. exact c33_pixels_proof. Qed.
Print Assumptions C33_pixels.
Lemma flat_ok : libm_ok flat.
Proof.
  split.
  - intros u v Fu Fv B1 L B2. cbn [m_sinh flat]. repeat split; try apply Fu; try apply Fv; lra.
  - assert (F1 : fin (f32_lit (-3) 2) /\ xr (f32_lit (-3) 2) = (-(3 / 2))%R).
    { split; [split; reflexivity|]. assert (f32_lit (-3) 2 = S754_finite true 12582912 (-23)) as -> by (vm_compute; reflexivity).
      rewrite xr_F2R, F2R_neg_exp by lia. cbn. lra. }
    assert (F2 : fin (f32_lit 3 2) /\ xr (f32_lit 3 2) = (3 / 2)%R).
    { split; [split; reflexivity|]. assert (f32_lit 3 2 = S754_finite false 12582912 (-23)) as -> by (vm_compute; reflexivity).
      rewrite xr_F2R, F2R_neg_exp by lia. cbn. lra. }
    destruct F1 as [F1 E1]. destruct F2 as [F2 E2].
    assert (C : forall u, fin u -> fin (clip u) /\ xr (clip u) = Rmin (Rmax (xr u) (-(3 / 2))) (3 / 2)).
    { intros u Fu. unfold clip. destruct (fmax_num u (f32_lit (-3) 2) (fin_num _ Fu) (fin_num _ F1)) as [N1 Q1].
      destruct (fmin_num _ (f32_lit 3 2) N1 (fin_num _ F2)) as [N2 Q2]. rewrite Q2, Q1, E1, E2. split; [|reflexivity].
      split; [apply N2|]. rewrite Q1, E1, E2 in Q2. set (w := fmin _ _) in *. destruct w as [s|s| |s mm ee]; try reflexivity; [|destruct N2; discriminate].
      exfalso. assert (K : (-2 <= xr (S754_infinity s) <= 2)%R) by (rewrite Q2; unfold Rmin, Rmax; repeat destruct (Rle_dec _ _); lra).
      pose proof big_gt as G. assert (2 < IZR (2 ^ 127))%R by (apply IZR_lt; lia). destruct s; cbn [xr] in K; lra. }
    intros u v Fu Fv B1 L B2. cbn [m_atan flat]. destruct (C u Fu) as [Cu Eu]. destruct (C v Fv) as [Cv Ev]. rewrite Eu, Ev.
    split; [exact Cu|]. split; [exact Cv|]. unfold Rmin, Rmax. repeat destruct (Rle_dec _ _); lra.
Qed.
(** The tile 1/0 of zoom level 1 with a value in its upper left corner only: one coloured pixel. *)
Definition corner_value (p : lat_lon) : outcome (option Z) :=
  Ok (if flt (lon p) (f32_lit 1 2) && flt (f32_of_Z 85) (lat p) then Some 7 else None).
Definition corner_tile : outcome drawable := create_single_tile true flat corner_value (fun v => Ok (rgba v 0 0 255)) {| t_x := 1; t_y := 0; t_zoom := 1 |}.
Definition pixels_at (o : outcome drawable) (l : list (Z * Z)) : list (option color) :=
  match o with Ok d => map (fun p => pixel d (fst p) (snd p)) l | _ => [] end.
Example C33_sample : libm_ok flat /\
  pixels_at corner_tile [(0, 0); (1, 0); (0, 200)] = [Some (rgba 7 0 0 255); Some COLOR_TRANSPARENT; Some COLOR_TRANSPARENT].
Proof. split; [exact flat_ok|]. vm_compute. reflexivity. Qed.

(** ** C34: tile columns and rows *)

(** C34.  The longitude of the left edge of column x is exact. *)
Theorem C34_position : forall chk m zoom x y, 0 <= zoom <= 18 -> 0 <= x <= 2 ^ zoom ->
  exists p, to_position chk m {| t_x := x; t_y := y; t_zoom := zoom |} = Ok p /\ fin (lon p) /\ xr (lon p) = column_lon zoom (IZR x).
Proof. exact c34_position_proof. Qed.
Print Assumptions C34_position.
(** C34.  A position in column x, not closer than 1/16384 degree to the next column, is in tile column x. *)
Theorem C34_column : forall chk m p zoom x, 0 <= zoom <= 18 -> 0 <= x < 2 ^ zoom -> fin (lon p) ->
  (column_lon zoom (IZR x) <= xr (lon p) <= column_lon zoom (IZR x + 1) - / 16384)%R ->
  exists t, from_position chk m p zoom = Ok t /\ t_x t = x.
Proof. exact c34_column_proof. Qed.
Print Assumptions C34_column.
(** C34.  In particular the tile of the left edge of a column is that column, also for the right edge of the map. *)
Theorem C34_round_trip : forall chk m zoom x y p, 0 <= zoom <= 18 -> 0 <= x <= 2 ^ zoom ->
  to_position chk m {| t_x := x; t_y := y; t_zoom := zoom |} = Ok p -> exists t, from_position chk m p zoom = Ok t /\ t_x t = x.
Proof. exact c34_round_trip_proof. Qed.
Print Assumptions C34_round_trip.
(** C34.  Columns increase with the longitude, stay within 0..2^zoom, and below 2^zoom if the longitude is at most 180 - 1/32768. *)
Theorem C34_columns : forall chk m zoom p q, 0 <= zoom <= 24 -> fin (lon p) -> fin (lon q) ->
  (-180 <= xr (lon p))%R -> (xr (lon p) <= xr (lon q))%R -> (xr (lon q) <= 180)%R ->
  exists s t, from_position chk m p zoom = Ok s /\ from_position chk m q zoom = Ok t /\
    0 <= t_x s /\ t_x s <= t_x t <= 2 ^ zoom /\ ((xr (lon q) <= 180 - / 32768)%R -> t_x t < 2 ^ zoom).
Proof. exact c34_columns_proof. Qed.
Print Assumptions C34_columns.
(** C34.  Rows go from north to south, between 90 and -90 degrees, if sinh and atan are monotone. *)
Theorem C34_rows : forall chk m zoom x x' y y', libm_ok m -> 0 <= zoom <= 22 -> 0 <= y <= y' -> y' <= 2 ^ zoom ->
  exists p p', to_position chk m {| t_x := x; t_y := y; t_zoom := zoom |} = Ok p /\ to_position chk m {| t_x := x'; t_y := y'; t_zoom := zoom |} = Ok p' /\
    fin (lat p) /\ fin (lat p') /\ (-90 <= xr (lat p'))%R /\ (xr (lat p') <= xr (lat p))%R /\ (xr (lat p) <= 90)%R.
Proof. exact c34_rows_proof. Qed.
Print Assumptions C34_rows.
Definition at_lon (lo : f32) : lat_lon := {| lat := fzero; lon := lo |}.
Definition col (lo : f32) : option Z := match from_position true flat (at_lon lo) 8 with Ok t => Some (t_x t) | _ => None end.
Example C34_sample : col (f32_of_Z (-180)) = Some 0 /\ col (f32_of_Z 8) = Some 133 /\ col fzero = Some 128 /\
  (column_lon 8 (IZR 133) <= 8 <= column_lon 8 (IZR 133 + 1) - / 16384)%R.
Proof. repeat split; try (vm_compute; reflexivity); unfold column_lon; change (2 ^ 8) with 256; lra. Qed.
(** Findings: longitude 180 and also the next smaller float 180 - 2^-16 give the column 2^zoom, which does not exist; a tiny
    negative longitude is put into the column right of the meridian; from zoom level 32 on the conversion panics or
    divides by zero. *)
Example C34_no_such_column : col (f32_of_Z 180) = Some 256 /\ col (S754_finite false 11796479 (-16)) = Some 256.
Proof. split; vm_compute; reflexivity. Qed.
Example C34_next_column : col (S754_finite true 8388608 (-60)) = Some 128.
Proof. vm_compute. reflexivity. Qed.
Example C34_zoom_32 : from_position true flat (at_lon fzero) 32 = Panic /\
  match to_position false flat {| t_x := 0; t_y := 0; t_zoom := 32 |} with Ok p => lon p = S754_nan | _ => False end.
Proof. split; vm_compute; reflexivity. Qed.
