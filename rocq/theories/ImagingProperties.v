(** The properties C28-C31, about drawing on and reading from images. *)
From Coq Require Import ZArith Reals List Bool Lia Lra.
From Coq Require Import Floats.SpecFloat.
From Flocq Require Import Core.Core.
From Verif Require Import Base F32 F32Facts GeoSpec GeoProofs ImagingModel ImagingSpec ImagingProofs.
Import ListNotations.
Open Scope Z_scope.

(** ** C28: drawing a point *)

(** C28.  A new image has the requested size, a buffer of four bytes per pixel, and is transparent. *)
Theorem C28_empty : forall chk w h, size_ok w h -> exists d, create_empty chk w h = Ok d /\ drawable_ok d /\
  d_w d = w /\ d_h d = h /\ forall x y, inside w h x y -> pixel d x y = Some COLOR_TRANSPARENT.
Proof. exact create_empty_spec. Qed.
Print Assumptions C28_empty.
(** C28.  An image without pixels is refused. *)
Theorem C28_no_pixels : forall chk w h, w = 0 \/ h = 0 -> exists e, create_empty chk w h = Err e.
Proof. exact c28_no_pixels_proof. Qed.
Print Assumptions C28_no_pixels.
(** C28.  Drawing a point changes that pixel and no other. *)
Theorem C28_point : forall chk d x y c, drawable_ok d -> inside (d_w d) (d_h d) x y ->
  exists d', draw_point chk d x y c = Ok d' /\ drawable_ok d' /\ same_size d d' /\
    pixel d' x y = Some c /\ (forall x' y', (x', y') <> (x, y) -> pixel d' x' y' = pixel d x' y').
Proof. exact draw_point_spec. Qed.
Print Assumptions C28_point.
(** C28.  Drawing outside the image panics. *)
Theorem C28_outside : forall chk d x y c, 0 <= x -> 0 <= y -> ~ inside (d_w d) (d_h d) x y -> draw_point chk d x y c = Panic.
Proof. exact c28_outside_proof. Qed.
Print Assumptions C28_outside.

Definition red := rgba 255 0 0 255.
Example C28_sample : exists d d', size_ok 3 2 /\ create_empty true 3 2 = Ok d /\ inside (d_w d) (d_h d) 1 1 /\ drawable_ok d /\
  draw_point true d 1 1 red = Ok d' /\ pixel d' 1 1 = Some red /\ pixel d' 0 1 = Some COLOR_TRANSPARENT /\
  d_values d' = repeat 0 16 ++ [255; 0; 0; 255] ++ repeat 0 4 /\ draw_point true d' 3 1 red = Panic.
Proof.
  eexists. eexists. split; [unfold size_ok; lia|]. split; [vm_compute; reflexivity|]. split; [cbn; unfold inside; lia|].
  split; [split; [cbn; unfold size_ok; lia|reflexivity]|]. split; [vm_compute; reflexivity|]. repeat split; vm_compute; reflexivity.
Qed.
(** Finding: a size whose byte count exceeds 32 bits is not refused.  With overflow checks the
    creation panics; without, the image gets a buffer that is too small, and drawing may panic. *)
Example C28_too_large : create_empty true 32768 32768 = Panic /\
  exists d, create_empty false 32768 32768 = Ok d /\ d_values d = [] /\ draw_point false d 0 0 red = Panic.
Proof. split; [vm_compute; reflexivity|]. eexists. split; [vm_compute; reflexivity|]. split; vm_compute; reflexivity. Qed.

(** ** C29: images from rows *)

(** C29.  The first row given becomes the bottom row of the image; pixels that no row covers stay transparent. *)
Theorem C29_rows : forall chk w h rows, size_ok w h -> rows_fit w h rows ->
  exists d, create_with_data chk w h rows = Ok d /\ drawable_ok d /\ d_w d = w /\ d_h d = h /\
    forall x y, inside w h x y ->
      pixel d x y = match nth_error rows (Z.to_nat (h - 1 - y)) with
                    | Some row => match nth_error row (Z.to_nat x) with Some c => Some c | None => Some COLOR_TRANSPARENT end
                    | None => Some COLOR_TRANSPARENT
                    end.
Proof. exact c29_rows_proof. Qed.
Print Assumptions C29_rows.
(** C29.  Rows that do not fit make it panic (as long as the row counter does not overflow). *)
Theorem C29_too_many : forall chk w h rows, size_ok w h -> ~ rows_fit w h rows -> Z.of_nat (length rows) <= 2 ^ 32 ->
  create_with_data chk w h rows = Panic.
Proof. exact c29_too_many_proof. Qed.
Print Assumptions C29_too_many.
Definition green := rgba 0 255 0 255.
Example C29_sample : rows_fit 2 2 [[red; green]; [green]] /\ ~ rows_fit 2 1 [[red; green]; [green]] /\
  exists d, create_with_data true 2 2 [[red; green]; [green]] = Ok d /\ pixel d 0 1 = Some red /\ pixel d 1 1 = Some green /\
    pixel d 0 0 = Some green /\ pixel d 1 0 = Some COLOR_TRANSPARENT.
Proof.
  split; [|split].
  - intros [|[|[|k]]] row N; cbn in N; try discriminate; injection N as <-; cbn; split; lia.
  - intro F. destruct (F 1%nat [green] eq_refl) as [_ F']. discriminate F'. cbn. lia.
  - eexists. split; [vm_compute; reflexivity|]. repeat split; vm_compute; reflexivity.
Qed.

(** ** C30: drawing a line *)

(** C30.  A line between two pixels of the image stops, paints a connected sequence of pixels from the
    one to the other inside their bounding box and no other pixel.  The sequence has max(|dx|,|dy|)+1
    points, except 2|dx|+1 if |dx| = |dy| is even, and no point is further from the ideal line than
    (|dx|+|dy|) / (2 max(|dx|,|dy|)) pixels along the minor axis, at most one pixel. *)
Theorem C30_line : forall chk d x0 y0 x1 y1 c, drawable_ok d -> inside (d_w d) (d_h d) x0 y0 -> inside (d_w d) (d_h d) x1 y1 ->
  let dx := Z.abs (x1 - x0) in let dy := Z.abs (y1 - y0) in
  exists pts d',
    Z.of_nat (length pts) = (if (dx =? dy) && (dx mod 2 =? 0) then 2 * dx + 1 else Z.max dx dy + 1) /\
    hd_error pts = Some (x0, y0) /\ last pts (0, 0) = (x1, y1) /\ connected pts /\
    Forall (fun p => between x0 x1 (fst p) /\ between y0 y1 (snd p) /\ 2 * deviation x0 y0 x1 y1 p <= dx + dy) pts /\
    (forall fuel, draw_line chk fuel d x0 y0 x1 y1 c = if (length pts <=? fuel)%nat then Some (Ok d') else None) /\
    drawable_ok d' /\ same_size d d' /\
    (forall p, In p pts -> pixel d' (fst p) (snd p) = Some c) /\
    (forall p, ~ In p pts -> pixel d' (fst p) (snd p) = pixel d (fst p) (snd p)).
Proof. exact draw_line_spec. Qed.
Print Assumptions C30_line.
(** The pixels that have a colour, row by row. *)
Definition painted (d : drawable) : list (Z * Z) :=
  filter (fun p => match pixel d (fst p) (snd p) with Some c => negb (c_a c =? 0) | None => false end)
    (flat_map (fun y => map (fun x => (x, y)) (map Z.of_nat (seq 0 (Z.to_nat (d_w d))))) (map Z.of_nat (seq 0 (Z.to_nat (d_h d))))).
Definition blank (w h : Z) : drawable := {| d_values := repeat 0 (Z.to_nat (w * h * 4)); d_w := w; d_h := h |}.
Definition line_of (w h x0 y0 x1 y1 : Z) : option (list (Z * Z)) :=
  match draw_line true 100 (blank w h) x0 y0 x1 y1 red with Some (Ok d) => Some (painted d) | _ => None end.
Example C30_sample : drawable_ok (blank 5 4) /\ inside 5 4 4 0 /\ inside 5 4 0 1 /\
  line_of 5 4 4 0 0 1 = Some [(2, 0); (3, 0); (4, 0); (0, 1); (1, 1)].
Proof. split; [split; [unfold size_ok; cbn; lia|reflexivity]|]. split; [unfold inside; lia|]. split; [unfold inside; lia|]. vm_compute. reflexivity. Qed.
(** Finding: the diagonal from (0,0) to (2,2) is drawn as a staircase, the one from (0,0) to (3,3) is not. *)
Example C30_staircase : line_of 4 4 0 0 2 2 = Some [(0, 0); (0, 1); (1, 1); (1, 2); (2, 2)] /\
  line_of 4 4 0 0 3 3 = Some [(0, 0); (1, 1); (2, 2); (3, 3)].
Proof. split; vm_compute; reflexivity. Qed.
(** Finding: points may be more than half a pixel off: (1,0) is 0.9 pixels below the line from (0,0) to (10,9). *)
Example C30_off_line : exists l, line_of 11 10 0 0 10 9 = Some l /\ In (1, 0) l /\ deviation 0 0 10 9 (1, 0) = 9.
Proof. eexists. split; [vm_compute; reflexivity|]. split; [cbn; tauto|reflexivity]. Qed.

(** ** C31: interpolated pixels *)

(** C31.  Every float position, NaN and the infinities included, gives a colour with channels between 0 and 255. *)
Theorem C31_total : forall chk im x y, image_ok im ->
  exists c, interpolate_pixel_color chk im x y = Ok c /\ (forall ch, In ch channels -> 0 <= ch c <= 255).
Proof. exact interpolate_ok. Qed.
Print Assumptions C31_total.
(** C31.  Positions outside the image give the transparent colour.  The first pixel extends by less than one to the left and up. *)
Theorem C31_outside : forall chk im x y, i_w im <= 2 ^ 24 -> i_h im <= 2 ^ 24 -> image_ok im ->
  num x /\ (xr x <= -1 \/ IZR (i_w im) <= xr x)%R \/ num y /\ (xr y <= -1 \/ IZR (i_h im) <= xr y)%R ->
  interpolate_pixel_color chk im x y = Ok COLOR_TRANSPARENT.
Proof. exact interpolate_out. Qed.
Print Assumptions C31_outside.
(** C31.  Strictly between four pixels, each channel is the bilinear combination of those of the four
    pixels, those beyond the border being transparent, rounded down twice: it exceeds neither their maximum
    nor the combination (by more than 1/1024), and falls short of their minimum by at most two. *)
Theorem C31_bilinear : forall chk im x y i j, i_w im <= 2 ^ 24 -> i_h im <= 2 ^ 24 -> image_ok im -> fin x -> fin y ->
  0 <= i < i_w im -> 0 <= j < i_h im -> (IZR i < xr x < IZR i + 1)%R -> (IZR j < xr y < IZR j + 1)%R ->
  exists c, interpolate_pixel_color chk im x y = Ok c /\
  forall ch, In ch channels ->
    let tl := ch (shown im i j) in let tr := ch (shown im (i + 1) j) in
    let bl := ch (shown im i (j + 1)) in let br := ch (shown im (i + 1) (j + 1)) in
    let m := bilinear (xr x - IZR i) (xr y - IZR j) (IZR tl) (IZR tr) (IZR bl) (IZR br) in
    Z.min (Z.min tl tr) (Z.min bl br) - 2 <= ch c <= Z.max (Z.max tl tr) (Z.max bl br) /\
    (m - 2 - / 1024 < IZR (ch c) <= m + / 1024)%R.
Proof. exact interpolate_bilinear. Qed.
Print Assumptions C31_bilinear.
(** C31.  If either coordinate is integral, or not positive, the pixel at the rounded down position is returned. *)
Theorem C31_plain : forall chk im x y, i_w im <= 2 ^ 24 -> i_h im <= 2 ^ 24 -> image_ok im -> fin x -> fin y ->
  (-1 < xr x < IZR (i_w im))%R -> (-1 < xr y < IZR (i_h im))%R ->
  (xr x <= 0 \/ xr y <= 0 \/ (exists k, xr x = IZR k) \/ (exists k, xr y = IZR k))%R ->
  interpolate_pixel_color chk im x y = Ok (shown im (Z.max 0 (Zfloor (xr x))) (Z.max 0 (Zfloor (xr y)))).
Proof. exact interpolate_plain. Qed.
Print Assumptions C31_plain.

Definition img : image := {| i_values := [100; 0; 0; 255;  200; 0; 0; 255;  40; 0; 0; 255;  80; 0; 0; 255]; i_w := 2; i_h := 2 |}.
Definition half := f32_lit 1 2.
Lemma img_ok : image_ok img.
Proof. split; [unfold size_ok; cbn; lia|]. split; [reflexivity|]. repeat first [apply Forall_cons|apply Forall_nil]; unfold is_byte; lia. Qed.
Example C31_sample : image_ok img /\ fin half /\ (IZR 0 < xr half < IZR 0 + 1)%R /\
  interpolate_pixel_color true img half half = Ok (rgba 105 0 0 255) /\
  interpolate_pixel_color true img (f32_of_Z 2) half = Ok COLOR_TRANSPARENT.
Proof.
  split; [exact img_ok|]. split; [split; vm_compute; reflexivity|]. split.
  - assert (xr half = / 2)%R as ->; [|lra]. assert (half = S754_finite false 8388608 (-24)) as -> by (vm_compute; reflexivity). rewrite xr_F2R, F2R_neg_exp by lia. cbn. lra.
  - split; vm_compute; reflexivity.
Qed.
(** Findings: a NaN position gives the first pixel; on a pixel row there is no interpolation between
    columns; at the right border the colour fades to transparent. *)
Example C31_nan : interpolate_pixel_color true img S754_nan S754_nan = Ok (rgba 100 0 0 255).
Proof. vm_compute. reflexivity. Qed.
Example C31_on_row : interpolate_pixel_color true img half (f32_of_Z 1) = Ok (rgba 40 0 0 255).
Proof. vm_compute. reflexivity. Qed.
Example C31_border : interpolate_pixel_color true img (fadd (f32_of_Z 1) half) half = Ok (rgba 70 0 0 127).
Proof. vm_compute. reflexivity. Qed.
