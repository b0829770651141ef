(** Angles: the real number behind a binary64 value, and degrees. *)
From Coq Require Import ZArith Reals Bool.
From Coq Require Import Floats.SpecFloat.
From Flocq Require Import Core.Core IEEE754.BinarySingleNaN.
From Verif Require Import F32.
Open Scope R_scope.

(** A finite binary64 value and the real number it stands for. *)
Definition fin64 (x : f64) : Prop := f64_valid x /\ fis_finite x = true.
Definition r64 (x : f64) : R := SF2R radix2 x.
(** An angle in radians, in degrees. *)
Definition degrees (r : R) : R := r * 180 / PI.
(** The degrees [a] give the direction [d], up to full turns and a relative error of 2^-23. *)
Definition same_direction (a d : R) : Prop :=
  exists k, Rabs (a + 360 * IZR k - d) <= Rabs d / 2 ^ 23 + / 2 ^ 140.
