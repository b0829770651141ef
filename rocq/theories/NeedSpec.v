(** The vocabulary of the property about the files a rendering depends on (C74). *)
From Coq Require Import String ZArith List Bool.
From Verif Require Import Base F32 TileModel ForecastModel ForecastSpec FetchModel FetchSpec DwdModel DwdSpec SwissModel SwissSpec CliModel.
Import ListNotations.
Open Scope Z_scope.

(** Both can give the same. *)
Definition same_answers {A} (p q : result A) : Prop := forall o, p o <-> q o.

(** ** German service *)

(** The files of a run that the layers named in [variables] need for the steps selected by [steps]. *)
Inductive needed (variables : list string) (steps : list Z) (run : fc_run) : dwd_file -> Prop :=
| need_cloud_precip : forall v n, named variables CloudPrecip -> wanted_nr run steps n -> In v [ClctMod; TotPrec; Ceiling; Ww] -> needed variables steps run (SingleFile v n)
| need_precip_before : forall n, named variables CloudPrecip -> wanted_nr run steps n -> needed variables steps run (SingleFile TotPrec (n - 1))
| need_wind : forall v n, named variables Wind10m -> wanted_nr run steps n -> In v [U10m; V10m; Vmax10m] -> needed variables steps run (SingleFile v n)
| need_temp : forall n, named variables Temp2m -> wanted_nr run steps n -> needed variables steps run (SingleFile T2m n)
| need_heights : forall level, named variables VerticalCloud \/ named variables VerticalWind ->
    first_level (run_model run) <= level <= last_level (run_model run) -> needed variables steps run (HeightFile level)
| need_vertical_cloud : forall n level, named variables VerticalCloud -> wanted_nr run steps n ->
    first_level (run_model run) <= level <= last_level (run_model run) -> needed variables steps run (LevelFile Clc n level)
| need_vertical_wind : forall v n level, named variables VerticalWind -> wanted_nr run steps n -> In v [UWind; VWind] ->
    first_level (run_model run) <= level <= last_level (run_model run) -> needed variables steps run (LevelFile v n level).

(** The answers to the questions whether the last files of the runs of today are there. *)
Definition same_heads (head head' : heads) (m : fc_model) (today : date) : Prop :=
  forall name later f u n, run_before name later -> probed m f -> dwd_url (run_of m today name) f = Ok u -> head n u = head' n u.
(** The answers to the requests for the needed files of the latest run. *)
Definition same_files (fetch fetch' : fetcher) (head : heads) (m : fc_model) (today today' : date) (variables : list string) (steps : list Z) : Prop :=
  forall run f u, find_latest_run head m today today' = Ok run -> needed variables steps run f -> dwd_url run f = Ok u -> same_answers (fetch u) (fetch' u).

(** ** Swiss service *)

(** The variables that a layer is computed from; HHL is not searched for. *)
Definition layer_vars (t : layer_type) : list swiss_var :=
  match t with
  | CloudPrecip => [SClct; STotPrec; SCeiling] | Weather => [] | Wind10m => [SU10m; SV10m; SVmax10m] | Temp2m => [ST2m]
  | VerticalCloud => [SClc] | VerticalWind => [SU; SV]
  end.
(** The n-th file (from 0) of the variable is needed. *)
Inductive swiss_needed (variables : list string) (steps : list Z) : swiss_var -> nat -> Prop :=
| swiss_need : forall t v n, named variables t -> In v (layer_vars t) -> wanted_step steps n -> swiss_needed variables steps v n
| swiss_need_before : forall n, named variables CloudPrecip -> wanted_step steps (S n) -> swiss_needed variables steps STotPrec n.

(** The answers to the requests for the list of constants, for the latest reference time and for the files of the variables of the
    layers named; and those to the requests for the horizontal constants, for the vertical ones if they are needed, and for the needed files. *)
Definition same_service (rfc3339 : rfc3339_parser) (sv sv' : service) (variables : list string) (steps : list Z) : Prop :=
  same_answers (sv_assets sv) (sv_assets sv') /\ same_answers (sv_search sv latest_request) (sv_search sv' latest_request) /\
  (forall assets a, sv_assets sv (Ok assets) -> first_asset "horizontal_constants_icon-ch1-eps.grib2" assets a ->
     same_answers (sv_fetch sv (as_href a)) (sv_fetch sv' (as_href a))) /\
  (forall assets a, sv_assets sv (Ok assets) -> first_asset "vertical_constants_icon-ch1-eps.grib2" assets a ->
     named variables VerticalCloud \/ named variables VerticalWind -> same_answers (sv_fetch sv (as_href a)) (sv_fetch sv' (as_href a))) /\
  forall time, latest rfc3339 sv time ->
    (forall t v, named variables t -> In v (layer_vars t) -> same_answers (sv_search sv (file_request v time)) (sv_search sv' (file_request v time))) /\
    (forall v n files f, swiss_needed variables steps v n -> files_of sv v time files -> nth_error files n = Some f ->
       same_answers (sv_fetch sv (ss_href f)) (sv_fetch sv' (ss_href f))).

(** ** Program *)

(** Two worlds that a call of the program cannot tell apart. *)
Definition alike (w w' : world) (a : cli_args) : Prop :=
  wo_chk w = wo_chk w' /\ wo_powi w = wo_powi w' /\ wo_libm w = wo_libm w' /\ wo_faulty w = wo_faulty w' /\ wo_today w = wo_today w' /\ wo_today' w = wo_today' w' /\
  wo_rfc3339 w = wo_rfc3339 w' /\ wo_text w = wo_text w' /\
  (forall m, (ar_model a = "icon-d2"%string /\ m = IconD2 \/ ar_model a = "icon-eu"%string /\ m = IconEu) ->
     same_heads (wo_heads w) (wo_heads w') m (wo_today w) /\
     same_files (wo_fetch w) (wo_fetch w') (wo_heads w) m (wo_today w) (wo_today' w) (ar_variables a) (ar_steps a)) /\
  (ar_model a = "icon-ch1"%string -> same_service (wo_rfc3339 w) (wo_service w) (wo_service w') (ar_variables a) (ar_steps a)).
