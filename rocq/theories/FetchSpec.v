(** The vocabulary of the property about the selection of layers (C54), for the German and the Swiss forecasts. *)
From Coq Require Import String ZArith List Bool.
From Verif Require Import Base Par TileModel ChartModel Text ForecastModel ForecastSpec FetchModel.
Import ListNotations.
Open Scope Z_scope.

(** The layer is named in the filter; the empty filter names all. *)
Definition variable_name (t : layer_type) : string :=
  match t with
  | CloudPrecip => "cloud_precip" | Weather => "weather" | Wind10m => "wind_10m" | Temp2m => "temp_2m"
  | VerticalCloud => "vertical_cloud" | VerticalWind => "vertical_wind"
  end.
Definition named (filter : list string) (t : layer_type) : Prop := filter = [] \/ In (variable_name t) filter.
(** What a rendering may do, in this order. *)
Inductive action := Layer (t : layer_type) | Heights.
Definition order : list action := [Layer CloudPrecip; Layer Wind10m; Layer Temp2m; Heights; Layer VerticalCloud; Layer VerticalWind].
(** What it has to do: the layers named, and the height grids if one of the vertical layers is named. *)
Definition chosen (filter : list string) (a : action) : Prop :=
  match a with Layer t => named filter t | Heights => named filter VerticalCloud \/ named filter VerticalWind end.
Definition plan_of (filter : list string) (plan : list action) : Prop :=
  exists keep, plan = List.filter keep order /\ forall a, In a order -> (keep a = true <-> chosen filter a).
(** The two filters name the same layers. *)
Definition same_layers (filter filter' : list string) : Prop := forall t, In (Layer t) order -> (named filter t <-> named filter' t).
Definition is_heights (e : effect) : bool := match e with EHeights => true | _ => false end.
Definition heights_read (tr : list effect) : nat := length (List.filter is_heights tr).

(** One action, given the programs of the layers; [o] is what the reading of the height grids gave. *)
Definition perform (cloud_precip wind temp : prog effect) (o : outcome (list bgrid)) (vertical_cloud vertical_wind : list bgrid -> prog effect)
  (a : action) : prog effect :=
  match a with
  | Layer CloudPrecip => cloud_precip
  | Layer Wind10m => wind
  | Layer Temp2m => temp
  | Layer VerticalCloud => p_let o vertical_cloud
  | Layer VerticalWind => p_let o vertical_wind
  | Layer Weather => p_end (Ok tt)
  | Heights => p_then (p_emit EHeights) (p_end (omap (fun _ => tt) o))
  end.

(** The files of a layer. *)
Definition of_layer (t : layer_type) (f : out_file) : Prop :=
  match f with
  | TileFile t' _ _ _ => t' = t
  | BinFile BinWeather => t = CloudPrecip
  | BinFile b => bin_layer b = t
  end.
(** The program does not change the file when it succeeds. *)
Definition leaves (q : string) (p : prog effect) : Prop := forall tr, p tr (Ok tt) -> forall before, file_after q before tr = before.

(** A result that meets [P], or one of the errors that are [lost]. *)
Definition ends_in {A} (lost : err -> Prop) (P : A -> Prop) (o : outcome A) : Prop := (exists a, o = Ok a /\ P a) \/ exists e, o = Err e /\ lost e.
(** There is always such a result. *)
Definition answers {A} (lost : err -> Prop) (p : result A) (P : A -> Prop) : Prop := (exists o, p o) /\ forall o, p o -> ends_in lost P o.

(** The server gives the same bytes each time it gives the file. *)
Definition steady (fetch : fetcher) : Prop := forall url bs bs', fetch url (Ok bs) -> fetch url (Ok bs') -> bs = bs'.
Section Output.
  Variables (chk : bool) (m : libm).
  (** All the files that belong to the data of a step can be computed, and are there afterwards with their content. *)
  Definition rendered (k : kind) (run : fc_run) (step_nr : Z) (l : k_data k) (tr : list effect) : Prop :=
    computable chk m k run l /\
    forall f c, produces chk m k run l f c -> forall before, file_after (file_path run step_nr f) before tr = Some c.
End Output.
