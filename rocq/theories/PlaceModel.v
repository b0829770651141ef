(** Model of the lookups by place in /repo/src/geo/grid and /repo/src/meteo_chart/meteo_layer that the rendering does not use. *)
From Coq Require Import ZArith List.
From Verif Require Import Base F32 GeoModel ChartModel.
Import ListNotations.
Open Scope Z_scope.

(** unstructured_value_grid.rs:66-73 *)
Definition unstructured_value_by_lat_lon {T} (u : unstructured_values (option coord_dist) T) (p : lat_lon) : outcome (option T) :=
  match xy_by_lat_lon (ug_grid (uv_grid u)) p with
  | None => Ok None
  | Some (x0, y0) => unstructured_value_by_xy u (f_to_usize (fround x0)) (f_to_usize (fround y0))
  end.
(** unstructured_value_grid1.rs:74-81 *)
Definition unstructured_value_by_lat_lon1 (V : value_type) (sum : list (carrier V) -> outcome (carrier V))
  (u : unstructured_values triple (carrier V)) (p : lat_lon) : outcome (option (carrier V)) :=
  match xy_by_lat_lon (ug_grid (uv_grid u)) p with
  | None => Ok None
  | Some (x0, y0) => unstructured_value_by_xy1 V sum u (f_to_usize (fround x0)) (f_to_usize (fround y0))
  end.

(** weather_layer.rs:62-64 *)
Definition ceiling_by_lat_lon (l : weather_layer) (p : lat_lon) := value_by_lat_lon f32_type (we_ceiling l) p.
(** weather_layer.rs:72-74 *)
Definition clct_by_lat_lon (l : weather_layer) (p : lat_lon) := value_by_lat_lon f32_type (we_clct l) p.
(** weather_layer.rs:87-94 *)
Definition ww_by_lat_lon (l : weather_layer) (p : lat_lon) : outcome (option weather) :=
  match we_ww l with
  | None => Ok None
  | Some g => obind (value_by_lat_lon f32_type g p) (fun ov =>
      match ov with Some v => omap Some (weather_from_value (f_to_u8 v)) | None => Ok None end)
  end.
(** meteo_cloud_layer.rs:6-8, meteo_precip_layer.rs:6-8, meteo_hhl_layer.rs:6-8 *)
Definition plain_layer : Type := fgrid.
(** meteo_cloud_layer.rs:27-34, meteo_precip_layer.rs:27-34, meteo_hhl_layer.rs:27-34 *)
Definition plain_by_xy (l : plain_layer) (x y : Z) := value_by_xy f32_type l x y.
Definition plain_by_lat_lon (l : plain_layer) (p : lat_lon) := value_by_lat_lon f32_type l p.
