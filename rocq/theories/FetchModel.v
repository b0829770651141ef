(** Model of the reading of GRIB2 files from a server by /repo/src/grib2/converter/file_to_grid_converter.rs, and of the
    selection of layers that the renderers of the German and Swiss forecasts have in common. *)
From Coq Require Import String ZArith List Bool.
From Verif Require Import Base F32 Grib2Model GeoModel Par ChartModel Text ForecastModel.
Import ListNotations.
Open Scope Z_scope.

(** ** Computations that depend on the network *)

(** The possible results of a computation that reads files from a server. *)
Definition result (A : Type) : Type := outcome A -> Prop.
Definition r_of {A} (o : outcome A) : result A := fun r => r = o.
(** [let x = p?; q x] *)
Definition r_bind {A B} (p : result A) (q : A -> result B) : result B := fun r =>
  exists o, p o /\ match o with Ok a => q a r | Err e => r = Err e | Panic => r = Panic end.
(** [.unwrap()] *)
Definition unwrap {A} (o : outcome A) : outcome A := match o with Ok a => Ok a | _ => Panic end.
(** rayon's [into_par_iter().map(f).collect::<Result<Vec<_>, _>>()], as [GeoModel.par_collect] for an [f] with
    several possible results. *)
Definition r_collect {A B} (f : A -> result B) (l : list A) : result (list B) := fun r =>
  match r with
  | Ok ys => Forall2 (fun x y => f x (Ok y)) l ys
  | Err e => exists x, In x l /\ f x (Err e)
  | Panic => exists x, In x l /\ f x Panic
  end.

(** ** /repo/src/grib2/converter/file_to_grid_converter.rs *)

(** [fetch url r]: opening the file (file_to_grid_converter.rs:22-25 and system/file_helper.rs:14-37, or for a local
    file 27-29) and reading it can give the bytes [r], already decompressed.  Each call may give something else.
    A connection that breaks down later is a file that ends there. *)
Definition fetcher : Type := string -> result bytes.

Section Fetch.
  Variables (chk : bool) (powi : f32 -> Z -> f32) (fetch : fetcher).
  (** file_to_grid_converter.rs:21-32 *)
  Definition fetch_doc (url : string) : result document :=
    r_bind (fetch url) (fun bs => r_of (omap fst (read_single_doc chk bs))).
  (** file_to_grid_converter.rs:35-46; [read_multi_doc] never runs out of fuel (C02_terminates). *)
  Definition fetch_docs (url : string) : result (list document) :=
    r_bind (fetch url) (fun bs => r_of (match read_multi_doc chk bs with Some o => o | None => Panic end)).
  (** file_to_grid_converter.rs:60-69; 49-57 is the same without a transformation. *)
  Definition fetch_regular {T} (url : string) (missing : T) (transform : f32 -> T) : result (value_grid T) :=
    r_bind (fetch_doc url) (fun d => r_of (regular_create_and_transform powi d missing transform)).
  (** file_to_grid_converter.rs:72-84 *)
  Definition fetch_unstructured {T} (url : string) (missing : T) (transform : f32 -> T) (u : unstructured (option coord_dist)) : result (value_grid T) :=
    r_bind (fetch_doc url) (fun d => r_of (regrid_doc powi missing transform u d)).
  (** file_to_grid_converter.rs:87-114 *)
  Definition fetch_multi_unstructured {T} (url : string) (missing : T) (transform : f32 -> T) (u : unstructured (option coord_dist))
    (range : option (Z * Z)) : result (list (value_grid T)) :=
    r_bind (fetch_docs url) (fun docs => multi_unstructured powi missing transform u range docs).
End Fetch.

(** ** Variables to render *)

(** [variable_filter.is_empty() || variable_filter.contains(&t.get_name())] *)
Definition selected (filter : list string) (t : layer_type) : bool :=
  match filter with [] => true | _ => mem (layer_name t) filter end.
Definition p_if {E} (b : bool) (p : prog E) : prog E := if b then p else p_end (Ok tt).
(** dwd_icon_forecast_renderer.rs:42-75 and icon_ch1_forecast_renderer.rs:57-92: the rendering of the selected layers;
    [heights] reads the height grids. *)
Definition render_selected (filter : list string) (cloud_precip wind temp : prog effect) (heights : result (list bgrid))
  (vertical_cloud vertical_wind : list bgrid -> prog effect) : prog effect :=
  p_then (p_if (selected filter CloudPrecip) cloud_precip)
 (p_then (p_if (selected filter Wind10m) wind)
 (p_then (p_if (selected filter Temp2m) temp)
 (p_if (selected filter VerticalCloud || selected filter VerticalWind)
   (p_then (p_emit EHeights) (p_call heights (fun hhl =>
      p_then (p_if (selected filter VerticalCloud) (vertical_cloud hhl))
             (p_if (selected filter VerticalWind) (vertical_wind hhl)))))))).
