(** What an image looks like from outside: its pixels. *)
From Coq Require Import ZArith Reals List Bool.
From Verif Require Import Base F32 ImagingModel.
Import ListNotations.
Open Scope Z_scope.

(** Bytes in the order R, G, B, A, pixels row by row from the top, as handed to the PNG encoder. *)
Definition pixel_in (values : list Z) (w h x y : Z) : option color :=
  if (0 <=? x) && (x <? w) && (0 <=? y) && (y <? h) then
    match firstn 4 (skipn (Z.to_nat ((y * w + x) * 4)) values) with
    | [r; g; b; a] => Some (rgba r g b a)
    | _ => None
    end
  else None.
Definition pixel (d : drawable) (x y : Z) : option color := pixel_in (d_values d) (d_w d) (d_h d) x y.
Definition image_pixel (im : image) (x y : Z) : option color := pixel_in (i_values im) (i_w im) (i_h im) x y.

(** The sizes that a buffer can have. *)
Definition size_ok (w h : Z) : Prop := 0 < w /\ 0 < h /\ w * h * 4 < 2 ^ 32.
(** A buffer of the right size. *)
Definition drawable_ok (d : drawable) : Prop :=
  size_ok (d_w d) (d_h d) /\ Z.of_nat (length (d_values d)) = d_w d * d_h d * 4.
Definition image_ok (im : image) : Prop :=
  size_ok (i_w im) (i_h im) /\ Z.of_nat (length (i_values im)) = i_w im * i_h im * 4 /\
  Forall is_byte (i_values im).
Definition inside (w h x y : Z) : Prop := 0 <= x < w /\ 0 <= y < h.

(** The pixel of an image, transparent outside. *)
Definition shown (im : image) (x y : Z) : color :=
  match image_pixel im x y with Some c => c | None => COLOR_TRANSPARENT end.
(** The channels. *)
Definition channels : list (color -> Z) := [c_r; c_g; c_b; c_a].

(** Two successive points of a connected line: different neighbours, diagonals included. *)
Definition neighbours (p q : Z * Z) : Prop :=
  p <> q /\ Z.abs (fst p - fst q) <= 1 /\ Z.abs (snd p - snd q) <= 1.
Fixpoint connected (l : list (Z * Z)) : Prop :=
  match l with
  | p :: ((q :: _) as r) => neighbours p q /\ connected r
  | _ => True
  end.
Definition between (a b v : Z) : Prop := Z.min a b <= v <= Z.max a b.
(** The distance of a point from the line through (x0,y0) and (x1,y1), measured along one axis and
    multiplied by the extent of the line along the other axis. *)
Definition deviation (x0 y0 x1 y1 : Z) (p : Z * Z) : Z :=
  Z.abs ((fst p - x0) * (y1 - y0) - (snd p - y0) * (x1 - x0)).

Definition same_size (d d' : drawable) : Prop := d_w d' = d_w d /\ d_h d' = d_h d.
(** No row is longer than the image is wide, and rows beyond the height are empty. *)
Definition rows_fit (w h : Z) (rows : list (list color)) : Prop :=
  forall y row, nth_error rows y = Some row -> Z.of_nat (length row) <= w /\ (h <= Z.of_nat y -> row = []).
