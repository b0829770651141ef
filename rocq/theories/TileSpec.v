(** The vocabulary of the properties of map tiles. *)
From Coq Require Import ZArith Reals List Bool.
From Verif Require Import Base F32 F32Facts GeoModel GeoSpec ImagingModel ImagingSpec Par TileModel.
Import ListNotations.
Open Scope Z_scope.

(** A tile handed to the caller's function. *)
Record saved := { s_content : drawable; s_zoom : Z; s_x : Z; s_y : Z }.
Definition place (s : saved) : Z * Z * Z := (s_zoom s, s_x s, s_y s).

(** The caller's function, observed. *)
Definition observe (d : drawable) (zoom x y : Z) : prog saved :=
  p_emit {| s_content := d; s_zoom := zoom; s_x := x; s_y := y |}.

(** The tile lies between the tiles of two opposite corners of the extent. *)
Definition covers (chk : bool) (m : libm) (e : extent) (zoom x y : Z) : Prop :=
  exists a b, from_position chk m {| lat := lat (min_coord e); lon := lon (max_coord e) |} zoom = Ok a /\
    from_position chk m {| lat := lat (max_coord e); lon := lon (min_coord e) |} zoom = Ok b /\
    between (t_x a) (t_x b) x /\ between (t_y a) (t_y b) y.
(** The colour of a pixel at a position: that of the value there, transparent if there is none. *)
Definition colour_at {T} (value : lat_lon -> outcome (option T)) (color_fn : T -> outcome color) (p : lat_lon) : outcome color :=
  obind (value p) (fun ov => match ov with Some v => color_fn v | None => Ok COLOR_TRANSPARENT end).
(** The longitude of the left edge of tile column x, as a real number. *)
Definition column_lon (zoom : Z) (x : R) : R := (x / IZR (2 ^ zoom) * 360 - 180)%R.

(** A function of the mathematics library is monotone from [-a,a] to [-b,b]. *)
Definition monotone_on (a b : R) (f : f32 -> f32) : Prop :=
  forall u v, fin u -> fin v -> (- a <= xr u)%R -> (xr u <= xr v)%R -> (xr v <= a)%R ->
    fin (f u) /\ fin (f v) /\ (- b <= xr (f u))%R /\ (xr (f u) <= xr (f v))%R /\ (xr (f v) <= b)%R.
(** What is assumed about sinh and atan where latitudes are concerned: sinh 4 < 32, atan 32 < 1.57. *)
Definition libm_ok (m : libm) : Prop := monotone_on 4 32 (m_sinh m) /\ monotone_on 32 (157 / 100) (m_atan m).

(** ** The Web-Mercator map *)
Definition radians (degrees : R) : R := (degrees * PI / 180)%R.
Definition degrees (radians : R) : R := (radians * 180 / PI)%R.
(** The row, with a fraction, of a latitude: rows are counted from the north, the map is a square, and its width is 2 pi. *)
Definition row_at (zoom : Z) (la : R) : R :=
  (IZR (2 ^ zoom) * (1 - ln (tan (radians la) + / cos (radians la)) / PI) / 2)%R.
(** The latitude of a row. *)
Definition row_lat (zoom : Z) (y : R) : R := degrees (atan (sinh (PI * (1 - 2 * y / IZR (2 ^ zoom))))).
(** A function of the mathematics library has a relative error of at most 2^-22 (two units in the last place). *)
Definition accurate (dom : R -> Prop) (f : f32 -> f32) (g : R -> R) : Prop :=
  forall x, fin x -> dom (xr x) -> fin (f x) /\ (Rabs (xr (f x) - g (xr x)) <= Rabs (g (xr x)) / IZR (2 ^ 22) + / IZR (2 ^ 100))%R.
Definition libm_accurate (m : libm) : Prop :=
  accurate (fun x => Rabs x <= 3 / 2)%R (m_tan m) tan /\ accurate (fun x => Rabs x <= 3 / 2)%R (m_cos m) cos /\
  accurate (fun x => 0 < x)%R (m_ln m) ln /\ accurate (fun x => Rabs x <= 4)%R (m_sinh m) sinh /\
  accurate (fun x => Rabs x <= 32)%R (m_atan m) atan.
