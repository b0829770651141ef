(** Model of /repo/src/map_tile: tile coordinates and the rendering of tiles. *)
From Coq Require Import ZArith List Bool.
From Coq Require Import Floats.SpecFloat.
From Verif Require Import Base F32 GeoModel ImagingModel Par.
Import ListNotations.
Open Scope Z_scope.

(** The functions of the platform's mathematics library that are used.  Nothing is assumed about
    their results unless a theorem says so. *)
Record libm := { m_tan : f32 -> f32; m_cos : f32 -> f32; m_ln : f32 -> f32; m_sinh : f32 -> f32; m_atan : f32 -> f32 }.

(** std::f32::consts::PI = 13176795 / 2^22. *)
Definition PI32 : f32 := S754_finite false 13176795 (-22).
(** [f32::to_radians]: [self * (PI / 180.0)] (a constant of the standard library). *)
Definition to_radians (x : f32) : f32 := fmul x (fdiv PI32 (f32_of_Z 180)).
(** [f32::to_degrees]: [self * 57.2957795130823208767981548141051703], which is 15019745 / 2^18. *)
Definition to_degrees (x : f32) : f32 := fmul x (S754_finite false 15019745 (-18)).

(** map_tile_coord.rs:7-11 *)
Record tile := { t_x : Z; t_y : Z; t_zoom : Z }.
(** map_tile_coord.rs:15 *)
Definition TILE_SIZE_PX : Z := 256.
(** [2_u32.pow(zoom)]; when it overflows, [chk = true] panics, otherwise the low 32 bits are 0. *)
Definition pow2_u32 (chk : bool) (zoom : Z) : outcome Z := uwrap chk 32 (2 ^ zoom).

(** map_tile_coord.rs:18-24 *)
Definition from_position (chk : bool) (m : libm) (p : lat_lon) (zoom : Z) : outcome tile :=
  obind (pow2_u32 chk zoom) (fun n =>
    let pow := f32_of_Z n in
    let x := ffloor (fmul (fdiv (fadd (lon p) (f32_of_Z 180)) (f32_of_Z 360)) pow) in
    let s := fadd (m_tan m (to_radians (lat p))) (fdiv (f32_of_Z 1) (m_cos m (to_radians (lat p)))) in
    let y := ffloor (fmul (fdiv (fsub (f32_of_Z 1) (fdiv (m_ln m s) PI32)) (f32_of_Z 2)) pow) in
    Ok {| t_x := f_to_u32 x; t_y := f_to_u32 y; t_zoom := zoom |}).
(** map_tile_coord.rs:27-33 *)
Definition to_position (chk : bool) (m : libm) (t : tile) : outcome lat_lon :=
  obind (pow2_u32 chk (t_zoom t)) (fun k =>
    let n := f32_of_Z k in
    let lo := fsub (fmul (fdiv (f32_of_Z (t_x t)) n) (f32_of_Z 360)) (f32_of_Z 180) in
    let a := fmul PI32 (fsub (f32_of_Z 1) (fdiv (fmul (f32_of_Z 2) (f32_of_Z (t_y t))) n)) in
    Ok {| lat := to_degrees (m_atan m (m_sinh m a)); lon := lo |}).

(** map_tile_renderer.rs:70-81: the pixels of row i from column j on.  The closures value_fn and
    color_fn have no effects but may panic. *)
Fixpoint tile_row {T} (chk : bool) (value : lat_lon -> outcome (option T)) (color_fn : T -> outcome color)
  (la lon0 lon_inc : f32) (d : drawable) (i : Z) (js : list Z) : outcome drawable :=
  match js with
  | [] => Ok d
  | j :: rest =>
      let lo := fadd lon0 (fmul (f32_of_Z j) lon_inc) in
      obind (value (lat_lon_new la lo)) (fun ov =>
      obind (match ov with Some v => obind (color_fn v) (draw_point chk d j i) | None => Ok d end) (fun d' =>
        tile_row chk value color_fn la lon0 lon_inc d' i rest))
  end.
(** map_tile_renderer.rs:68-82: the rows from i on. *)
Fixpoint tile_rows {T} (chk : bool) (value : lat_lon -> outcome (option T)) (color_fn : T -> outcome color)
  (lat0 lat_inc lon0 lon_inc : f32) (d : drawable) (is : list Z) : outcome drawable :=
  match is with
  | [] => Ok d
  | i :: rest =>
      let la := fadd lat0 (fmul (f32_of_Z i) lat_inc) in
      obind (tile_row chk value color_fn la lon0 lon_inc d i (map Z.of_nat (seq 0 (Z.to_nat TILE_SIZE_PX)))) (fun d' =>
        tile_rows chk value color_fn lat0 lat_inc lon0 lon_inc d' rest)
  end.
(** map_tile_renderer.rs:52-85 *)
Definition create_single_tile {T} (chk : bool) (m : libm) (value : lat_lon -> outcome (option T))
  (color_fn : T -> outcome color) (t : tile) : outcome drawable :=
  obind (create_empty chk TILE_SIZE_PX TILE_SIZE_PX) (fun d =>
  obind (to_position chk m t) (fun p0 =>
  obind (uwrap chk 32 (t_x t + 1)) (fun x1 => obind (uwrap chk 32 (t_y t + 1)) (fun y1 =>
  obind (to_position chk m {| t_x := x1; t_y := y1; t_zoom := t_zoom t |}) (fun p1 =>
    let size := f32_of_Z TILE_SIZE_PX in
    let lon_inc := fdiv (fsub (lon p1) (lon p0)) size in
    let lat_inc := fdiv (fsub (lat p1) (lat p0)) size in
    tile_rows chk value color_fn (lat p0) lat_inc (lon p0) lon_inc d
      (map Z.of_nat (seq 0 (Z.to_nat TILE_SIZE_PX)))))))).

(** An inclusive range of u32. *)
Definition range (a b : Z) : list Z := map (fun k => a + Z.of_nat k) (seq 0 (Z.to_nat (b - a + 1))).
(** map_tile_renderer.rs:38-44: one tile; [save] is the caller's function.  [unwrap] turns an error into a panic. *)
Definition render_tile {T E} (chk : bool) (m : libm) (value : lat_lon -> outcome (option T)) (color_fn : T -> outcome color)
  (save : drawable -> Z -> Z -> Z -> prog E) (zoom x y : Z) : prog E :=
  match create_single_tile chk m value color_fn {| t_x := x; t_y := y; t_zoom := zoom |} with
  | Ok d => save d zoom x y
  | _ => p_end Panic
  end.
(** map_tile_renderer.rs:29-46: one zoom level.  min and max (crate min_max) are those of integers. *)
Definition render_zoom {T E} (chk : bool) (m : libm) (e : extent) (value : lat_lon -> outcome (option T))
  (color_fn : T -> outcome color) (save : drawable -> Z -> Z -> Z -> prog E) (zoom : Z) : prog E :=
  p_let (from_position chk m {| lat := lat (min_coord e); lon := lon (max_coord e) |} zoom) (fun tl =>
  p_let (from_position chk m {| lat := lat (max_coord e); lon := lon (min_coord e) |} zoom) (fun br =>
    for_seq (range (Z.min (t_x tl) (t_x br)) (Z.max (t_x tl) (t_x br))) (fun x =>
      for_par (range (Z.min (t_y tl) (t_y br)) (Z.max (t_y tl) (t_y br)))
        (render_tile chk m value color_fn save zoom x)))).
(** map_tile_renderer.rs:15-49 *)
Definition create_all_tiles {T E} (chk : bool) (m : libm) (e : extent) (zooms : Z * Z)
  (value : lat_lon -> outcome (option T)) (color_fn : T -> outcome color)
  (save : drawable -> Z -> Z -> Z -> prog E) : prog E :=
  for_seq (range (fst zooms) (snd zooms)) (render_zoom chk m e value color_fn save).
