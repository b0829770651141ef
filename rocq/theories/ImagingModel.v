(** Model of /repo/src/imaging: images that are drawn on and images that are read.  u32 and i64
    values are integers of type Z; [chk] is the build profile (overflow checks on or off).  Loading
    and saving PNG files (crate image) is not modelled. *)
From Coq Require Import ZArith List Bool.
From Verif Require Import Base F32.
Import ListNotations.
Open Scope Z_scope.

(** [[u8; 4]]: red, green, blue, alpha. *)
Record color := rgba { c_r : Z; c_g : Z; c_b : Z; c_a : Z }.
(** imaging/mod.rs:6 *)
Definition COLOR_TRANSPARENT : color := rgba 0 0 0 0.

(** ** drawable.rs *)

(** drawable.rs:8-12 *)
Record drawable := { d_values : list Z; d_w : Z; d_h : Z }.

(** drawable.rs:36-46, with u32 multiplications. *)
Definition create_empty (chk : bool) (w h : Z) : outcome drawable :=
  if (w =? 0) || (h =? 0) then Err EInvalid
  else obind (uwrap chk 32 (w * h)) (fun n => obind (uwrap chk 32 (n * 4)) (fun n4 =>
    Ok {| d_values := repeat 0 (Z.to_nat n4); d_w := w; d_h := h |})).

(** drawable.rs:66-69: the four assignments; an index outside the vector panics. *)
Definition write4 (l : list Z) (idx : Z) (c : color) : outcome (list Z) :=
  if idx + 4 <=? Z.of_nat (length l)
  then Ok (firstn (Z.to_nat idx) l ++ [c_r c; c_g c; c_b c; c_a c] ++ skipn (Z.to_nat idx + 4) l)
  else Panic.
(** drawable.rs:64, image.rs:38: [((y * self.width + x) * NUM_COLOR_VALUES) as usize] *)
Definition color_index (chk : bool) (w x y : Z) : outcome Z :=
  obind (uwrap chk 32 (y * w)) (fun a => obind (uwrap chk 32 (a + x)) (fun b => uwrap chk 32 (b * 4))).
(** drawable.rs:59-70 *)
Definition draw_point (chk : bool) (d : drawable) (x y : Z) (c : color) : outcome drawable :=
  if (d_w d <=? x) || (d_h d <=? y) then Panic
  else obind (color_index chk (d_w d) x y) (fun idx => obind (write4 (d_values d) idx c) (fun v =>
    Ok {| d_values := v; d_w := d_w d; d_h := d_h d |})).

(** drawable.rs:24-28: one row.  The u32 counters x and y do not overflow: that would take a row
    of 2^32 pixels, and any pixel beyond the width panics. *)
Fixpoint draw_row (chk : bool) (d : drawable) (x y : Z) (row : list color) : outcome drawable :=
  match row with
  | [] => Ok d
  | px :: rest =>
      obind (usub chk 32 (d_h d) y) (fun a => obind (usub chk 32 a 1) (fun y' =>
      obind (draw_point chk d x y' px) (fun d' => draw_row chk d' (x + 1) y rest)))
  end.
(** drawable.rs:23-30.  More than 2^32 rows are not modelled (y would wrap). *)
Fixpoint draw_rows (chk : bool) (d : drawable) (y : Z) (rows : list (list color)) : outcome drawable :=
  match rows with
  | [] => Ok d
  | row :: rest => obind (draw_row chk d 0 y row) (fun d' => draw_rows chk d' (y + 1) rest)
  end.
(** drawable.rs:19-33 *)
Definition create_with_data (chk : bool) (w h : Z) (rows : list (list color)) : outcome drawable :=
  obind (create_empty chk w h) (fun d => draw_rows chk d 0 rows).

(** drawable.rs:83-99.  [fuel] bounds the number of iterations; None means that it did not suffice.
    The i64 computations are done in Z: they do not overflow as long as |dx| and |dy| are below 2^61.
    [as u32] keeps the low 32 bits. *)
Fixpoint line_loop (chk : bool) (fuel : nat) (d : drawable) (x y x1 y1 dx dy sx sy e : Z) (c : color)
  : option (outcome drawable) :=
  match fuel with
  | O => None
  | S f =>
      match draw_point chk d (x mod 2 ^ 32) (y mod 2 ^ 32) c with
      | Ok d' =>
          if (x =? x1) && (y =? y1) then Some (Ok d')
          else
            let e2 := 2 * e in
            let '(ea, x') := if - dx <? e2 then (e - dy, x + sx) else (e, x) in
            let '(eb, y') := if e2 <? dy then (ea + dx, y + sy) else (ea, y) in
            line_loop chk f d' x' y' x1 y1 dx dy sx sy eb c
      | other => Some other
      end
  end.
(** drawable.rs:73-100; Rust's integer division truncates towards zero. *)
Definition draw_line (chk : bool) (fuel : nat) (d : drawable) (x0 y0 x1 y1 : Z) (c : color) : option (outcome drawable) :=
  let dx := if x1 <? x0 then x0 - x1 else x1 - x0 in
  let dy := if y1 <? y0 then y0 - y1 else y1 - y0 in
  let sx := if x0 <? x1 then 1 else -1 in
  let sy := if y0 <? y1 then 1 else -1 in
  let e := Z.quot (if dy <? dx then dx else - dy) 2 in
  line_loop chk fuel d x0 y0 x1 y1 dx dy sx sy e c.

(** ** image.rs *)

(** image.rs:5-9 *)
Record image := { i_values : list Z; i_w : Z; i_h : Z }.
(** image.rs:40-45 *)
Definition read4 (l : list Z) (idx : Z) : outcome color :=
  match firstn 4 (skipn (Z.to_nat idx) l) with
  | [r; g; b; a] => Ok (rgba r g b a)
  | _ => Panic
  end.
(** image.rs:33-46 *)
Definition get_pixel_color (chk : bool) (im : image) (x y : Z) : outcome color :=
  if (i_w im <=? x) || (i_h im <=? y) then Ok COLOR_TRANSPARENT
  else obind (color_index chk (i_w im) x y) (read4 (i_values im)).
(** image.rs:80-87, one channel *)
Definition interpolate_channel (v1 : Z) (w1 : f32) (v2 : Z) (w2 : f32) : Z :=
  f_to_u8 (fadd (fmul (f32_of_Z v1) w1) (fmul (f32_of_Z v2) w2)).
(** image.rs:80-87 *)
Definition interpolate_color (c1 : color) (w1 : f32) (c2 : color) (w2 : f32) : color :=
  rgba (interpolate_channel (c_r c1) w1 (c_r c2) w2) (interpolate_channel (c_g c1) w1 (c_g c2) w2)
       (interpolate_channel (c_b c1) w1 (c_b c2) w2) (interpolate_channel (c_a c1) w1 (c_a c2) w2).
(** image.rs:49-77 *)
Definition interpolate_pixel_color (chk : bool) (im : image) (x y : f32) : outcome color :=
  let fx := ffloor x in let fy := ffloor y in
  let cx := fceil x in let cy := fceil y in
  if flt cx fzero || flt cy fzero || fge fx (f32_of_Z (i_w im)) || fge fy (f32_of_Z (i_h im))
  then Ok COLOR_TRANSPARENT
  else
    let ix := f_to_u32 fx in let iy := f_to_u32 fy in
    let jx := f_to_u32 cx in let jy := f_to_u32 cy in
    if (ix =? jx) || (iy =? jy) then get_pixel_color chk im ix iy
    else
      obind (get_pixel_color chk im ix iy) (fun tl =>
      obind (get_pixel_color chk im jx iy) (fun tr =>
      obind (get_pixel_color chk im ix jy) (fun bl =>
      obind (get_pixel_color chk im jx jy) (fun br =>
        let t := interpolate_color tl (fsub cx x) tr (fsub x fx) in
        let b := interpolate_color bl (fsub cx x) br (fsub x fx) in
        Ok (interpolate_color t (fsub cy y) b (fsub y fy)))))).
