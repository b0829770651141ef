(** The vocabulary of the properties that go from a GRIB2 message to a field over the earth (C69, C70). *)
From Coq Require Import ZArith Reals List Bool.
From Flocq Require Import Core.Core.
From Verif Require Import Base F32 F32Facts Grib2Model Grib2Spec GeoModel GeoSpec ChartSpec.
Import ListNotations.
Open Scope Z_scope.

(** The bytes of a file give this grid (converter/file_to_grid_converter.rs:63-73). *)
Definition grid_of {T} (chk : bool) (powi : f32 -> Z -> f32) (bs : bytes) (missing : T) (transform : f32 -> T) (o : outcome (value_grid T)) : Prop :=
  exists d rest, read_single_doc chk bs = Ok (d, rest) /\ regular_create_and_transform powi d missing transform = o.

(** The angle in degrees that is the same as that of a field in micro-degrees, up to full turns and a relative error of 2^-22. *)
Definition degrees_of (raw : Z) (x : f32) : Prop :=
  fin x /\ (-180 <= xr x < 180)%R /\ exists turns, (Rabs (xr x + 360 * IZR turns - IZR raw / 1000000) <= bpow radix2 (-22) * (IZR raw / 1000000))%R.
(** Micro-degrees, counted from -180 degrees on, of a field that is not within 16 micro-degrees of the antimeridian. *)
Definition micro (raw : Z) : Z := if raw <? 180000000 then raw else raw - 360000000.
Definition angle_field (raw : Z) : Prop := 0 <= raw <= 360000000 /\ 16 <= Z.abs (raw - 180000000).

(** What the message says about point number k: the value, or that there is none.  A message without data has no value at
    all (finding of C07). *)
Definition point_value {T} (powi : f32 -> Z -> f32) (w : wire) (r e d : Z) (missing : T) (transform : f32 -> T) (k : nat) (v : T) : Prop :=
  let bitmap := w6_bitmap (w_6 w) in
  if has_value bitmap k && negb (match w7_data (w_7 w) with [] => true | _ => false end)
  then exists packed, nth_error (w7_data (w_7 w)) (rank bitmap k) = Some packed /\
         v = transform (unpack (f32_of_bits r) (powi (f32_of_Z 2) (sign_magnitude16 e)) (powi (f32_of_Z 10) (sign_magnitude16 d)) packed)
  else v = missing.
(** The message has as many values as its bitmap asks for. *)
Definition enough_data (w : wire) : Prop :=
  let bitmap := w6_bitmap (w_6 w) in
  let n := Z.to_nat (w3_points (w_3 w)) in
  (bitmap = [] \/ (n <= 8 * length bitmap)%nat) /\ (rank bitmap n <= length (w7_data (w_7 w)))%nat.

(** The grid shows the field of the message: dimensions, corners and the value of each point, west to east and south to north. *)
Definition shows {T} (powi : f32 -> Z -> f32) (w : wire) (t : wire3_0) (r e d : Z) (missing : T) (transform : f32 -> T) (g : value_grid T) : Prop :=
  dims g = (w30_ni t, w30_nj t) /\ vg_missing g = missing /\
  degrees_of (w30_lat1 t) (lat (min_coord (extent_of g))) /\ degrees_of (w30_lon1 t) (lon (min_coord (extent_of g))) /\
  degrees_of (w30_lat2 t) (lat (max_coord (extent_of g))) /\ degrees_of (w30_lon2 t) (lon (max_coord (extent_of g))) /\
  length (vg_values g) = Z.to_nat (w3_points (w_3 w)) /\
  forall i j v, 0 <= i < w30_ni t -> 0 <= j -> nth_error (vg_values g) (Z.to_nat (j * w30_ni t + i)) = Some v ->
    point_value powi w r e d missing transform (Z.to_nat (j * w30_ni t + i)) v.

(** The two messages agree on the grid of points, the packing and the data. *)
Definition same_field (w w' : wire) (t t' : wire3_0) : Prop :=
  w3_tpl (w_3 w) = W3_0 t /\ w3_tpl (w_3 w') = W3_0 t' /\ w3_points (w_3 w) = w3_points (w_3 w') /\
  w30_ni t = w30_ni t' /\ w30_nj t = w30_nj t' /\ w30_lat1 t = w30_lat1 t' /\ w30_lon1 t = w30_lon1 t' /\
  w30_lat2 t = w30_lat2 t' /\ w30_lon2 t = w30_lon2 t' /\ w5_tpl (w_5 w) = w5_tpl (w_5 w') /\
  w6_bitmap (w_6 w) = w6_bitmap (w_6 w') /\ w7_data (w_7 w) = w7_data (w_7 w').

(** Where the i-th of n points between two angles is, both ends included. *)
Definition point_place (first last : f32) (n i : Z) : R := (xr first + IZR i * ((xr last - xr first) / (IZR n - 1)))%R.
(** A place that is within an eighth of the distance between two points. *)
Definition close_to (first last : f32) (n i : Z) (x : f32) : Prop :=
  (Rabs (xr x - point_place first last n i) <= / 8 * ((xr last - xr first) / IZR n))%R.
(** The number of the point whose value is taken for it. *)
Definition taken (n i k : Z) : Prop := (4 * i <= n - 1 -> k = i) /\ (3 * (n - 1) <= 4 * i -> k = i + 1) /\ (k = i \/ k = i + 1).
