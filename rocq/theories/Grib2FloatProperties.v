(** Properties of the GRIB2 number decoding (C08, C10).  [xr x] is the real number denoted by
    the f32 value x; [rounds_to v r] says that v is the f32 nearest to the real r (ties to even,
    infinite on overflow); [bpow radix2 k] is 2^k.  [powi] is [f32::powi]; its accuracy is a
    hypothesis because Rust leaves it unspecified. *)
From Coq Require Import ZArith Reals List Bool Lia Lra.
From Flocq Require Import Core.Core.
From Verif Require Import Base F32 F32Facts Grib2Model Grib2Spec Grib2Proofs Grib2FloatProofs Grib2Samples.
Import ListNotations.
Open Scope Z_scope.

(** C08.  With decimal scale 0 (all ICON products) each decoded value is the correctly rounded
    R + X 2^E, where X is the packed number of that grid point. *)
Theorem C08_correctly_rounded : forall powi chk bs d rest t l i v, Forall is_byte bs ->
  read_single_doc chk bs = Ok (d, rest) -> s5_template (d_s5 d) = SimplePacking t ->
  fis_finite (t50_reference t) = true -> t50_d t = 0 -> -126 <= t50_e t <= 111 ->
  exact_power powi 2 (t50_e t) (bpow radix2 (t50_e t)) -> exact_power powi 10 0 1 ->
  calculate_data_points powi d None Some = Ok l -> nth_error l i = Some (Some v) ->
  exists X, nth_error (s7_data (d_s7 d)) (rank (s6_bitmap (d_s6 d)) i) = Some X /\
    rounds_to v (xr (t50_reference t) + IZR X * bpow radix2 (t50_e t)).
Proof. exact c08_correctly_rounded_proof. Qed.
Print Assumptions C08_correctly_rounded.

(** C08.  With any decimal scale the value differs from (R + X 2^E)/10^D by at most three half
    ulps plus twice the relative error delta of powi(10, D), unless it leaves the normal range. *)
Theorem C08_error : forall powi chk bs d rest t l i v ten delta, Forall is_byte bs ->
  read_single_doc chk bs = Ok (d, rest) -> s5_template (d_s5 d) = SimplePacking t ->
  fis_finite (t50_reference t) = true -> -126 <= t50_e t <= 111 ->
  exact_power powi 2 (t50_e t) (bpow radix2 (t50_e t)) ->
  f32_valid (powi (f32_of_Z 10) (t50_d t)) -> fis_finite (powi (f32_of_Z 10) (t50_d t)) = true ->
  (0 < ten)%R -> (0 <= delta <= / 1024)%R ->
  (Rabs (xr (powi (f32_of_Z 10) (t50_d t)) - ten) <= delta * ten)%R ->
  calculate_data_points powi d None Some = Ok l -> nth_error l i = Some (Some v) ->
  exists X, nth_error (s7_data (d_s7 d)) (rank (s6_bitmap (d_s6 d)) i) = Some X /\
    let scaled := (xr (t50_reference t) + IZR X * bpow radix2 (t50_e t))%R in
    ((Rabs scaled <= bpow radix2 127)%R ->
     (scaled = 0 \/ bpow radix2 (-125) <= Rabs (scaled / ten) <= bpow radix2 127)%R ->
     fis_finite v = true /\
     (Rabs (xr v - scaled / ten) <= (3 * bpow radix2 (-24) + 2 * delta) * Rabs (scaled / ten))%R).
Proof. exact c08_error_proof. Qed.
Print Assumptions C08_error.

(** C08.  With decimal scale 0 a larger packed number never decodes to a smaller value. *)
Theorem C08_monotone : forall powi r E X Y, f32_valid r -> fis_finite r = true ->
  -126 <= E <= 111 -> exact_power powi 2 E (bpow radix2 E) -> exact_power powi 10 0 1 ->
  0 <= X <= Y -> Y < 65536 ->
  fle (unpack r (powi (f32_of_Z 2) E) (powi (f32_of_Z 10) 0) X)
      (unpack r (powi (f32_of_Z 2) E) (powi (f32_of_Z 10) 0) Y) = true.
Proof. exact c08_monotone_proof. Qed.
Print Assumptions C08_monotone.

(** The usual implementation of powi is exact on powers of two, so the hypotheses are met. *)
Theorem C08_powi : forall E, -126 <= E <= 127 ->
  exact_power powi_rt 2 E (bpow radix2 E) /\ exact_power powi_rt 10 0 1.
Proof. exact c08_powi_proof. Qed.
Print Assumptions C08_powi.
Example C08_sample : exists bs d rest t l,
  Forall is_byte bs /\ read_single_doc true bs = Ok (d, rest) /\ s5_template (d_s5 d) = SimplePacking t /\
  fis_finite (t50_reference t) = true /\ t50_d t = 0 /\ t50_e t = -5 /\
  calculate_data_points powi_rt d None Some = Ok l /\ nth_error l 2 = Some (Some (f32_lit 9601 32)).
Proof.
  exists (message_bytes sample). eexists. eexists. eexists. eexists.
  split; [apply Forall_forall; intros x Hx; assert (forallb (fun b => (0 <=? b) && (b <? 256)) (message_bytes sample) = true) as A
    by (vm_compute; reflexivity); rewrite forallb_forall in A; specialize (A x Hx); unfold is_byte; lia|].
  split; [vm_compute; reflexivity|]. split; [vm_compute; reflexivity|]. split; [vm_compute; reflexivity|].
  split; [vm_compute; reflexivity|]. split; [vm_compute; reflexivity|]. split; [vm_compute; reflexivity|].
  vm_compute. reflexivity.
Qed.

(** C10.  An angle field is read as an unsigned count of micro-degrees: the result is the
    single-precision quotient, within 2^-22 (relative) of the exact angle, and correctly rounded
    below 2^24 micro-degrees. *)
Theorem C10_angle : forall v rest, 0 <= v < 2 ^ 32 -> exists a,
  read_angle (be_bytes 4 v ++ rest) = Ok (a, rest) /\ f32_valid a /\ fis_finite a = true /\
  (Rabs (xr a - IZR v / 1000000) <= bpow radix2 (-22) * (IZR v / 1000000))%R /\
  (v <= 2 ^ 24 -> xr a = rnd (IZR v / 1000000)).
Proof. exact c10_angle_proof. Qed.
Print Assumptions C10_angle.
(** C10, finding: GRIB2 encodes a negative angle by setting the top bit; every such field is
    returned as more than 2147 degrees. *)
Theorem C10_negative_angle : forall m rest, 0 < m < 2 ^ 31 -> exists a,
  read_angle (be_bytes 4 (2 ^ 31 + m) ++ rest) = Ok (a, rest) /\ (2147 < xr a)%R.
Proof. exact c10_negative_angle_proof. Qed.
Print Assumptions C10_negative_angle.
Example C10_sample : read_angle (be_bytes 4 47500000) = Ok (f32_lit 95 2, []) /\
  read_angle (be_bytes 4 (2 ^ 31 + 5000000)) = Ok (fdiv (f32_of_Z 2152483648) (f32_of_Z 1000000), []).
Proof. split; vm_compute; reflexivity. Qed.
