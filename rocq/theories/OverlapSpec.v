(** The vocabulary of the properties of calls that overlap (C75) and of calls that are killed (C76). *)
From Coq Require Import String ZArith List Bool.
From Verif Require Import ImagingModel Base F32 Par TileModel ChartModel MetobinModel Text ForecastModel ForecastSpec FetchModel FetchSpec DwdModel DwdSpec SwissModel SwissSpec CliModel CliSpec.
Import ListNotations.
Open Scope Z_scope.

(** ** Calls at the same time *)

(** What a call of the program has done until it ended or was killed. *)
Definition done_by (c : world * cli_args) (tr : list effect) : Prop := exists missed printed code, main (fst c) (snd c) (tr ++ missed) printed code.
(** What a program has done until it ended or was killed. *)
Definition part_of (p : prog effect) (tr : list effect) : Prop := exists missed r, p (tr ++ missed) r.

(** ** The content that belongs to a file *)

(** A call, as the names of its layers and the numbers of its steps. *)
Definition selection : Type := list string * list Z.

(** German service: the content of a file that was computed from the files of the run that the server gave.  (The cloud cover
    is fetched twice; [clct'] is [clct] if the server is steady.) *)
Section Dwd.
  Variables (chk : bool) (powi : f32 -> Z -> f32) (fetch : fetcher) (m : libm) (calls : list selection) (run : fc_run).
  (** The layer is named, and the step selected, by one of the calls. *)
  Definition asked (t : layer_type) (n : Z) : Prop := exists c, In c calls /\ named (fst c) t /\ wanted_nr run (snd c) n.
  Inductive belongs : string -> content -> Prop :=
  | in_temp : forall n temp f c, asked Temp2m n -> float_grid chk powi fetch run T2m n temp ->
      produces chk m (temp_kind chk m) run temp f c -> belongs (file_path run n f) c
  | in_wind : forall n u v gusts f c, asked Wind10m n ->
      float_grid chk powi fetch run U10m n u -> float_grid chk powi fetch run V10m n v -> float_grid chk powi fetch run Vmax10m n gusts ->
      produces chk m (wind_kind chk m) run {| wl_zonal := u; wl_meridional := v; wl_gusts := Some gusts |} f c -> belongs (file_path run n f) c
  | in_cloud_precip : forall n clct prec0 prec1 clct' ceiling ww f c, asked CloudPrecip n ->
      float_grid chk powi fetch run ClctMod n clct -> float_grid chk powi fetch run TotPrec (n - 1) prec0 -> float_grid chk powi fetch run TotPrec n prec1 ->
      float_grid chk powi fetch run ClctMod n clct' -> float_grid chk powi fetch run Ceiling n ceiling -> float_grid chk powi fetch run Ww n ww ->
      produces chk m (cloud_precip_kind chk m) run
        ({| cp_cloud := clct; cp_precip0 := prec0; cp_precip1 := prec1 |}, {| we_clct := clct'; we_ceiling := ceiling; we_ww := Some ww |}) f c ->
      belongs (file_path run n f) c
  | in_vertical_cloud : forall n hhl clc f c, asked VerticalCloud n ->
      level_grids chk powi fetch run HeightFile HHL_MISSING hhl_transform hhl -> level_grids chk powi fetch run (LevelFile Clc n) CLC_MISSING clc_transform clc ->
      produces chk m vertical_cloud_kind run {| vc_hhl := hhl; vc_clc := clc |} f c -> belongs (file_path run n f) c
  | in_vertical_wind : forall n hhl u v f c, asked VerticalWind n ->
      level_grids chk powi fetch run HeightFile HHL_MISSING hhl_transform hhl ->
      level_grids chk powi fetch run (LevelFile UWind n) U_V_MISSING u_v_transform u -> level_grids chk powi fetch run (LevelFile VWind n) U_V_MISSING u_v_transform v ->
      produces chk m vertical_wind_kind run {| vw_hhl := hhl; vw_u := u; vw_v := v |} f c -> belongs (file_path run n f) c.
End Dwd.

(** Swiss service: the same, for the latest reference time and with the n-th files (from 0) of the variables. *)
Section Swiss.
  Variables (chk : bool) (powi : f32 -> Z -> f32) (rfc3339 : rfc3339_parser) (sv : service) (m : libm) (calls : list selection).
  Definition swiss_asked (t : layer_type) (n : nat) : Prop := exists c, In c calls /\ named (fst c) t /\ wanted_step (snd c) n.
  (** The n-th file of a variable. *)
  Definition nth_file (t : datetime) (v : swiss_var) (n : nat) (f : swiss_step) : Prop := exists l, files_of sv v t l /\ nth_error l n = Some f.
  Inductive swiss_belongs : string -> content -> Prop :=
  | swiss_temp_in : forall u heights t n f temp o c, started chk powi rfc3339 sv u heights t -> swiss_asked Temp2m n ->
      nth_file t ST2m n f -> value_file chk powi (sv_fetch sv) u f temp ->
      produces chk m (temp_kind chk m) (swiss_run_of t) temp o c -> swiss_belongs (file_path (swiss_run_of t) (Z.of_nat n) o) c
  | swiss_wind_in : forall u heights t n fu fv fg east north gusts o c, started chk powi rfc3339 sv u heights t -> swiss_asked Wind10m n ->
      nth_file t SU10m n fu -> nth_file t SV10m n fv -> nth_file t SVmax10m n fg ->
      value_file chk powi (sv_fetch sv) u fu east -> value_file chk powi (sv_fetch sv) u fv north -> value_file chk powi (sv_fetch sv) u fg gusts ->
      produces chk m (wind_kind chk m) (swiss_run_of t) {| wl_zonal := east; wl_meridional := north; wl_gusts := Some gusts |} o c ->
      swiss_belongs (file_path (swiss_run_of t) (Z.of_nat n) o) c
  | swiss_cloud_precip_in : forall u heights t n fc f0 f1 fe clct prec0 prec1 clct' ceiling o c, started chk powi rfc3339 sv u heights t -> swiss_asked CloudPrecip (S n) ->
      nth_file t SClct (S n) fc -> nth_file t STotPrec n f0 -> nth_file t STotPrec (S n) f1 -> nth_file t SCeiling (S n) fe ->
      percent_file chk powi (sv_fetch sv) u fc clct -> value_file chk powi (sv_fetch sv) u f0 prec0 -> value_file chk powi (sv_fetch sv) u f1 prec1 ->
      percent_file chk powi (sv_fetch sv) u fc clct' -> value_file chk powi (sv_fetch sv) u fe ceiling ->
      produces chk m (cloud_precip_kind chk m) (swiss_run_of t)
        ({| cp_cloud := clct; cp_precip0 := prec0; cp_precip1 := prec1 |}, {| we_clct := clct'; we_ceiling := ceiling; we_ww := None |}) o c ->
      swiss_belongs (file_path (swiss_run_of t) (Z.of_nat (S n)) o) c
  | swiss_vertical_cloud_in : forall u heights t n f hhl clc o c, started chk powi rfc3339 sv u heights t -> swiss_asked VerticalCloud n ->
      nth_file t SClc n f ->
      level_grids_at chk powi (sv_fetch sv) u HHL_MISSING hhl_transform heights hhl -> level_grids_at chk powi (sv_fetch sv) u CLC_MISSING clc_transform (ss_href f) clc ->
      produces chk m vertical_cloud_kind (swiss_run_of t) {| vc_hhl := hhl; vc_clc := clc |} o c -> swiss_belongs (file_path (swiss_run_of t) (Z.of_nat n) o) c
  | swiss_vertical_wind_in : forall u heights t n fu fv hhl east north o c, started chk powi rfc3339 sv u heights t -> swiss_asked VerticalWind n ->
      nth_file t SU n fu -> nth_file t SV n fv ->
      level_grids_at chk powi (sv_fetch sv) u HHL_MISSING hhl_transform heights hhl ->
      level_grids_at chk powi (sv_fetch sv) u U_V_MISSING u_v_transform (ss_href fu) east -> level_grids_at chk powi (sv_fetch sv) u U_V_MISSING u_v_transform (ss_href fv) north ->
      produces chk m vertical_wind_kind (swiss_run_of t) {| vw_hhl := hhl; vw_u := east; vw_v := north |} o c -> swiss_belongs (file_path (swiss_run_of t) (Z.of_nat n) o) c.
End Swiss.

(** The service gives the same answers again: the same constants, the same files, and files with the same bytes; and no file
    is of more than 255 hours after its reference time (the order of such files depends on the build, see C52). *)
Definition settled (sv : service) : Prop :=
  (forall a b, sv_assets sv (Ok a) -> sv_assets sv (Ok b) -> a = b) /\ (forall rq a b, sv_search sv rq (Ok a) -> sv_search sv rq (Ok b) -> a = b) /\
  steady (sv_fetch sv) /\ (forall rq features parsed, sv_search sv rq (Ok features) -> Forall2 described features parsed -> short_horizons parsed).

(** ** What is found in a file *)

(** Data that is written into a file lies over what the file held before.  (A file never gets both an image and data.) *)
Definition overlay (data : bytes) (old : option content) : content :=
  match old with Some (Data b) => Data (data ++ skipn (length data) b) | _ => Data data end.
(** Whether two images are the same. *)
Definition same_image (d d' : drawable) : bool :=
  (d_w d =? d_w d') && (d_h d =? d_h d') && (if list_eq_dec Z.eq_dec (d_values d) (d_values d') then true else false).
(** The rest of an image is written into a file: it is whole if the file held nothing but pieces of the same image. *)
Definition completed (d : drawable) (old : option content) : content :=
  match old with
  | Some (Pieces ds) => if forallb (same_image d) ds then Png d else Pieces (d :: ds)
  | Some (Png d') => if same_image d d' then Png d else Pieces [d; d']
  | _ => Png d
  end.
(** What is in the file [q] after some effects, if [before] was in it; None: no such file.  Unlike [file_after] this is also right for
    effects of several calls at the same time: another call may have written into the file since it was created.  (It is too good in one
    case: if several calls save the same image to the same file at the same time, the file counts as whole as soon as one of them is
    done, though another may just have emptied it again.  When all are done the file is whole indeed, and what is said about calls
    that are killed allows for pieces.) *)
Fixpoint found_after (q : string) (before : option content) (tr : list effect) : option content :=
  match tr with
  | [] => before
  | e :: rest =>
      found_after q (match e with
                     | EPart p d => if String.eqb p q then Some (Pieces [d]) else before
                     | EImage p d => if String.eqb p q then Some (completed d before) else before
                     | ECreate p => if String.eqb p q then Some (Data []) else before
                     | EWrite p b => if String.eqb p q then Some (overlay b before) else before
                     | _ => before
                     end) rest
  end.
(** What may be found in a file that was to get the content [c]: the whole; pieces of the image; or, with no fault of the disk, an empty
    file, otherwise any beginning of the data.  (A call that is killed while it writes the data is one on a disk with faults.) *)
Definition beginning (faulty : bool) (c found : content) : Prop :=
  found = c \/ (exists d, c = Png d /\ found = Pieces [d]) \/
  exists data lost, c = Data (data ++ lost) /\ found = Data data /\ (faulty = false -> data = []).
(** What may be found in a file that was to get several contents: one of the images, pieces of them, or bytes each of which is at its
    place in one of the data. *)
Definition pieced (F : content -> Prop) (found : content) : Prop :=
  match found with
  | Png d => F (Png d)
  | Pieces ds => ds <> [] /\ Forall (fun d => F (Png d)) ds
  | Data b => (exists data, F (Data data)) /\ forall i x, nth_error b i = Some x -> exists data, F (Data data) /\ nth_error data i = Some x
  end.
