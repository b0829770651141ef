(** The vocabulary of the property about what the Swiss service can answer without ending a call in a panic (C86). *)
From Coq Require Import String ZArith List Bool.
From Verif Require Import Base F32 Grib2Model Grib2Spec ForecastModel FetchModel FetchSpec FieldSpec SwissModel SwissSpec.
Import ListNotations.
Open Scope Z_scope.

(** The service gives an answer of which P holds, or some error; it may be another one each time. *)
Definition safe {A} (p : result A) (P : A -> Prop) : Prop := answers (fun _ => True) p P.

Section Contents.
  Variable chk : bool.
  (** If the data of a message are packed in the way that is supported, there are enough of them. *)
  Definition safe_data (w : wire) : Prop :=
    match w5_tpl (w_5 w) with W5_0 _ _ _ _ _ => w7_data (w_7 w) = [] \/ enough_data w | _ => True end.
  (** The bytes are not among those for which the reader of messages panics, and if they start with a message, it has enough data. *)
  Definition safe_single (bs : bytes) : Prop :=
    Forall is_byte bs /\ ~ panic_input chk bs /\ forall w rest, wf_message chk w -> bs = message_bytes w ++ rest -> safe_data w.
  (** The same for a file with several messages: the reader does not panic after any of them, and P holds for all those that can
      be read. *)
  Definition safe_messages (P : list wire -> Prop) (bs : bytes) : Prop :=
    Forall is_byte bs /\ forall ws tail, Forall (wf_message chk) ws -> bs = concat (map message_bytes ws) ++ tail ->
      ~ panic_input chk tail /\ (ws <> [] -> (forall w rest, wf_message chk w -> tail <> message_bytes w ++ rest) -> P ws).
  (** The horizontal constants: there are at least five messages. *)
  Definition safe_constants : bytes -> Prop := safe_messages (fun ws => exists clon clat,
    nth_error ws 3 = Some clon /\ nth_error ws 4 = Some clat /\ safe_data clon /\ safe_data clat).
  (** The levels: [count] of the messages 31 to 79 are there. *)
  Definition safe_levels (count : nat) : bytes -> Prop := safe_messages (fun ws => length (level_docs ws) = count /\ Forall safe_data (level_docs ws)).
  Definition safe_file (count : nat) (v : swiss_var) : bytes -> Prop :=
    match v with SClc | SU | SV | SHhl => safe_levels count | _ => safe_single end.
End Contents.

(** The variables that a layer needs for each step besides the one whose files are its steps. *)
Definition other_vars (ty : layer_type) : list swiss_var :=
  match ty with CloudPrecip => [STotPrec; SCeiling] | Wind10m => [SV10m; SVmax10m] | VerticalWind => [SV] | _ => [] end.

Section Service.
  Variables (chk : bool) (rfc3339 : rfc3339_parser) (sv : service) (vars : list string) (steps : list Z) (count : nat).
  (** A list of files, if all of it can be understood: no horizon is beyond 255 hours (with overflow checks), and the files are safe. *)
  Definition safe_listing (v : swiss_var) (features : list feature) : Prop :=
    forall parsed, Forall2 described features parsed ->
      (chk = true -> (2 <= length parsed)%nat -> short_horizons parsed) /\
      Forall (fun s => safe (sv_fetch sv (ss_href s)) (safe_file chk count v)) parsed.
  (** Each selected step of a layer is there for each of its variables, except that the wind need not be complete. *)
  Definition safe_numbers (t : datetime) (ty : layer_type) : Prop :=
    ty <> Wind10m -> forall v main other, In v (other_vars ty) ->
      sv_search sv (file_request (main_var ty) t) (Ok main) -> sv_search sv (file_request v t) (Ok other) ->
      forall n, (first_step ty <= n < length main)%nat -> wanted_step steps n -> (n < length other)%nat.
  Definition safe_swiss : Prop :=
    safe (sv_assets sv) (fun l => exists hor vert,
      first_asset "horizontal_constants_icon-ch1-eps.grib2" l hor /\ safe (sv_fetch sv (as_href hor)) (safe_constants chk) /\
      first_asset "vertical_constants_icon-ch1-eps.grib2" l vert /\
      (named vars VerticalCloud \/ named vars VerticalWind -> safe (sv_fetch sv (as_href vert)) (safe_levels chk count))) /\
    safe (sv_search sv latest_request) (fun _ => True) /\
    forall t ty, latest rfc3339 sv t -> named vars ty -> safe_numbers t ty /\
      forall v, In v (main_var ty :: other_vars ty) -> safe (sv_search sv (file_request v t)) (safe_listing v).
End Service.
