(** Model of /repo/src/physics: unit conversions. *)
From Coq Require Import ZArith.
From Verif Require Import F32.
Open Scope Z_scope.

(** length.rs:4: 3.28084 *)
Definition FEET_PER_M : f32 := f32_lit 328084 100000.
(** length.rs:8-10 *)
Definition meters_to_feet (m : f32) : f32 := fmul m FEET_PER_M.
(** length.rs:13-15 *)
Definition feet_to_meters (ft : f32) : f32 := fdiv ft FEET_PER_M.

(** speed.rs:4: 1.94384 *)
Definition KNOTS_PER_MPS : f32 := f32_lit 194384 100000.
(** speed.rs:8-10 *)
Definition mps_to_knots (v : f32) : f32 := fmul v KNOTS_PER_MPS.
(** speed.rs:13-15 *)
Definition knots_to_mps (kt : f32) : f32 := fdiv kt KNOTS_PER_MPS.

(** temperature.rs:4: 273.15 *)
Definition ZERO_CELSIUS_IN_KELVIN : f32 := f32_lit 27315 100.
(** temperature.rs:8-10 *)
Definition kelvin_to_celsius (k : f32) : f32 := fsub k ZERO_CELSIUS_IN_KELVIN.
(** temperature.rs:12-14 *)
Definition celsius_to_kelvin (c : f32) : f32 := fadd c ZERO_CELSIUS_IN_KELVIN.
