(** Model of /repo/src/dwd/forecast_run/dwd_model_type.rs and dwd_model_config.rs: a public table of the models of the German weather
    service, which the program does not use. *)
From Coq Require Import String ZArith List.
From Verif Require Import Base TileModel.
Import ListNotations.
Open Scope Z_scope.

(** dwd_model_type.rs:2-6 *)
Inductive dwd_type := TypeD2 | TypeEu | TypeGlobal.
(** dwd_model_type.rs:10-16 *)
Definition type_name (t : dwd_type) : string :=
  match t with TypeD2 => "icon-d2" | TypeEu => "icon-eu" | TypeGlobal => "icon-global" end.
(** dwd_model_config.rs:3-7 *)
Record dwd_config := { cf_model : dwd_type; cf_steps : list Z; cf_hours : list Z }.
(** dwd_model_config.rs:11-29; [(0..n).collect()] are the numbers from 0 to n - 1. *)
Definition dwd_config_of (t : dwd_type) : dwd_config :=
  match t with
  | TypeD2 => {| cf_model := TypeD2; cf_steps := range 0 (48 - 1); cf_hours := [0; 3; 6; 9; 12; 15; 18; 21] |}
  | TypeEu => {| cf_model := TypeEu; cf_steps := range 0 (78 - 1); cf_hours := [0; 6; 12; 18] |}
  | TypeGlobal => {| cf_model := TypeGlobal; cf_steps := range 0 (78 - 1); cf_hours := [0; 6; 12; 18] |}
  end.
