(** The vocabulary of the property about the requests sent to the services (C79). *)
From Coq Require Import String ZArith List Bool Permutation.
From Verif Require Import Base F32 TileModel Text ForecastModel ForecastSpec FetchModel FetchSpec DwdModel DwdSpec SwissModel SwissSpec ReqModel.
Import ListNotations.
Open Scope Z_scope.

(** What was done and what was asked for, in their order. *)
Definition done (tr : list event) : list effect := flat_map (fun e => match e with Did e => [e] | Asked _ => [] end) tr.
Definition asked (tr : list event) : list ask := flat_map (fun e => match e with Did _ => [] | Asked q => [q] end) tr.

(** The requests are those of the list, in any order; or some of them (each at most as often as it is there). *)
Definition exactly (l qs : list ask) : Prop := Permutation qs l.
Definition some_of (l qs : list ask) : Prop := exists unsent, Permutation (qs ++ unsent) l.

(** How often the file was asked for. *)
Definition times_asked (url : string) (tr : list event) : nat :=
  List.length (filter (fun q => match q with AskFile u => String.eqb u url | _ => false end) (asked tr)).

(** The layer is among the variables asked for; none stands for all.  The same for steps. *)
Definition is_named (variables : list string) (t : layer_type) : bool :=
  match variables with [] => true | _ => existsb (String.eqb (variable_name t)) variables end.
Definition is_wanted (steps : list Z) (n : Z) : bool := match steps with [] => true | _ => existsb (Z.eqb n) steps end.

(** ** German service *)

(** The steps of a run that are rendered. *)
Definition run_steps (steps : list Z) (run : fc_run) : list Z := filter (is_wanted steps) (range 2 (last_step (run_model run))).
Definition run_levels (run : fc_run) : list Z := range (first_level (run_model run)) (last_level (run_model run)).
(** The files that are fetched.  Cloud cover is fetched twice for each step (for the map and for the weather file), precipitation for the
    step and the one before. *)
Definition layer_files (steps : list Z) (run : fc_run) (t : layer_type) : list dwd_file :=
  let ns := run_steps steps run in
  match t with
  | CloudPrecip => map (SingleFile ClctMod) ns ++ map (SingleFile ClctMod) ns ++ map (fun n => SingleFile TotPrec (n - 1)) ns ++
      map (SingleFile TotPrec) ns ++ map (SingleFile Ceiling) ns ++ map (SingleFile Ww) ns
  | Weather => []
  | Wind10m => map (SingleFile U10m) ns ++ map (SingleFile V10m) ns ++ map (SingleFile Vmax10m) ns
  | Temp2m => map (SingleFile T2m) ns
  | VerticalCloud => flat_map (fun n => map (LevelFile Clc n) (run_levels run)) ns
  | VerticalWind => flat_map (fun n => map (LevelFile UWind n) (run_levels run)) ns ++ flat_map (fun n => map (LevelFile VWind n) (run_levels run)) ns
  end.
Definition only_if {A} (b : bool) (l : list A) : list A := if b then l else [].
Definition dwd_files (variables : list string) (steps : list Z) (run : fc_run) : list dwd_file :=
  only_if (is_named variables CloudPrecip) (layer_files steps run CloudPrecip) ++
  only_if (is_named variables Wind10m) (layer_files steps run Wind10m) ++
  only_if (is_named variables Temp2m) (layer_files steps run Temp2m) ++
  only_if (is_named variables VerticalCloud || is_named variables VerticalWind) (map HeightFile (run_levels run)) ++
  only_if (is_named variables VerticalCloud) (layer_files steps run VerticalCloud) ++
  only_if (is_named variables VerticalWind) (layer_files steps run VerticalWind).
(** The requests for files. *)
Definition asks_for (run : fc_run) (files : list dwd_file) (l : list ask) : Prop :=
  Forall2 (fun f q => exists u, dwd_url run f = Ok u /\ q = AskFile u) files l.
(** The request is for one of the files of a run of today that have to be there. *)
Definition probe (m : fc_model) (today : date) (name : string) (u : string) : Prop :=
  exists f, probed m f /\ dwd_url (run_of m today name) f = Ok u.

(** ** Swiss service *)

(** The request for the n-th of the files, if there is one. *)
Definition get (files : list swiss_step) (n : nat) : list ask := match nth_error files n with Some f => [AskFile (ss_href f)] | None => [] end.
(** The numbers of the steps that are rendered, of those from [first] on. *)
Definition steps_from (first : nat) (steps : list Z) (files : list swiss_step) : list nat :=
  filter (fun n => is_wanted steps (Z.of_nat n)) (seq first (List.length files - first)).
Section Swiss.
  Variables (rfc3339 : rfc3339_parser) (sv : service) (steps : list Z).
  (** The files of a variable; or there was no answer, or none that could be read ([all] says that this did not happen). *)
  Definition listed (all : Prop) (time : datetime) (v : swiss_var) (files : list swiss_step) : Prop := files_of sv v time files \/ ~ all /\ files = [].
  Definition search (time : datetime) (v : swiss_var) : ask := AskSearch (file_request v time).
  (** The requests for a layer: the lists of the files of its variables; then the files of each step. *)
  Inductive layer_asks (all : Prop) (time : datetime) : layer_type -> list ask -> Prop :=
  | la_cloud_precip : forall c p k, listed all time SClct c -> listed all time STotPrec p -> listed all time SCeiling k ->
      layer_asks all time CloudPrecip (map (search time) [SClct; STotPrec; SCeiling] ++
        flat_map (fun n => get c n ++ get p (n - 1) ++ get p n ++ get c n ++ get k n) (steps_from 1 steps c))
  | la_wind : forall u v g, listed all time SU10m u -> listed all time SV10m v -> listed all time SVmax10m g ->
      layer_asks all time Wind10m (map (search time) [SU10m; SV10m; SVmax10m] ++ flat_map (fun n => get u n ++ get v n ++ get g n) (steps_from 0 steps u))
  | la_temp : forall t, listed all time ST2m t -> layer_asks all time Temp2m (map (search time) [ST2m] ++ flat_map (get t) (steps_from 0 steps t))
  | la_vertical_cloud : forall c, listed all time SClc c -> layer_asks all time VerticalCloud (map (search time) [SClc] ++ flat_map (get c) (steps_from 0 steps c))
  | la_vertical_wind : forall u v, listed all time SU u -> listed all time SV v ->
      layer_asks all time VerticalWind (map (search time) [SU; SV] ++ flat_map (fun n => get u n ++ get v n) (steps_from 0 steps u)).
  (** The requests of a call: the list of the constants, the horizontal constants, the latest reference time, and those for the layers. *)
  Inductive swiss_asks (all : Prop) (variables : list string) : list ask -> Prop :=
  | sa_assets : ~ all -> swiss_asks all variables [AskAssets]
  | sa_constants : forall assets hor, ~ all -> sv_assets sv (Ok assets) -> first_asset "horizontal_constants_icon-ch1-eps.grib2" assets hor ->
      swiss_asks all variables [AskAssets; AskFile (as_href hor)]
  | sa_latest : forall assets hor, ~ all -> sv_assets sv (Ok assets) -> first_asset "horizontal_constants_icon-ch1-eps.grib2" assets hor ->
      swiss_asks all variables [AskAssets; AskFile (as_href hor); AskSearch latest_request]
  | sa_layers : forall assets hor vert time cp wi te vc vw, sv_assets sv (Ok assets) ->
      first_asset "horizontal_constants_icon-ch1-eps.grib2" assets hor -> first_asset "vertical_constants_icon-ch1-eps.grib2" assets vert ->
      latest rfc3339 sv time -> (is_named variables CloudPrecip = true -> layer_asks all time CloudPrecip cp) -> (is_named variables Wind10m = true -> layer_asks all time Wind10m wi) -> (is_named variables Temp2m = true -> layer_asks all time Temp2m te) ->
      (is_named variables VerticalCloud = true -> layer_asks all time VerticalCloud vc) -> (is_named variables VerticalWind = true -> layer_asks all time VerticalWind vw) ->
      swiss_asks all variables ([AskAssets; AskFile (as_href hor); AskSearch latest_request] ++
        only_if (is_named variables CloudPrecip) cp ++ only_if (is_named variables Wind10m) wi ++ only_if (is_named variables Temp2m) te ++
        only_if (is_named variables VerticalCloud || is_named variables VerticalWind) [AskFile (as_href vert)] ++
        only_if (is_named variables VerticalCloud) vc ++ only_if (is_named variables VerticalWind) vw).
End Swiss.
