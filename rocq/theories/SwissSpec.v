(** The vocabulary of the properties of the Swiss forecasts (C51-C54, C60). *)
From Coq Require Import Ascii String ZArith List Bool Sorted Permutation.
From Verif Require Import Base F32 Grib2Model GeoModel Par TileModel ChartModel MetobinModel Text TextSpec ForecastModel ForecastSpec FetchModel FetchSpec DwdSpec SwissModel.
Import ListNotations.
Open Scope Z_scope.

(** ** Horizons *)

(** A number that fits a byte, with an optional plus sign. *)
Definition byte_text (s : string) (n : Z) : Prop := n <= 255 /\ (numeral s n \/ exists s', s = String "+" s' /\ numeral s' n).
Fixpoint times (k : nat) (c : ascii) : string := match k with O => EmptyString | S k => String c (times k c) end.
(** Days and hours are bytes. *)
Definition horizon_ok (h : horizon) : Prop := 0 <= hz_days h <= 255 /\ 0 <= hz_hours h <= 255.
Definition hours (h : horizon) : Z := 24 * hz_days h + hz_hours h.

(** The name of a horizon, written out: P<days>DT<hours>H00M00S, the hours with at least two digits. *)
Definition horizon_text (h : horizon) (s : string) : Prop :=
  exists d hh, plain d (hz_days h) /\ padded 2 hh (hz_hours h) /\ s = ("P" ++ d ++ "DT" ++ hh ++ "H00M00S")%string.

(** ** Times *)

(** A time of day of a date, without leap seconds. *)
Definition valid_time (t : datetime) : Prop :=
  valid_date (dt_date t) /\ 0 <= dt_hour t < 24 /\ 0 <= dt_minute t < 60 /\ 0 <= dt_second t < 60 /\ 0 <= dt_nano t < 10 ^ 9.
(** A time in UTC, written out: yyyy-mm-ddThh:mm:ssZ. *)
Definition time_text (t : datetime) (s : string) : Prop :=
  exists y mo d h mi se, padded 4 y (year (dt_date t)) /\ padded 2 mo (month (dt_date t)) /\ padded 2 d (day (dt_date t)) /\
    padded 2 h (dt_hour t) /\ padded 2 mi (dt_minute t) /\ padded 2 se (dt_second t) /\
    s = (y ++ "-" ++ mo ++ "-" ++ d ++ "T" ++ h ++ ":" ++ mi ++ ":" ++ se ++ "Z")%string.
(** Nanoseconds since the beginning of the year 0. *)
Definition instant (t : datetime) : Z :=
  (((day_number (dt_date t) * 24 + dt_hour t) * 60 + dt_minute t) * 60 + dt_second t) * 10 ^ 9 + dt_nano t.
Definition three_hours : Z := 3 * 3600 * 10 ^ 9.
(** A local time of the years 1 to 9998 with an offset of less than a day. *)
Definition local_time (t : datetime) (offset : Z) : Prop := valid_time t /\ 1 <= year (dt_date t) <= 9998 /\ -86400 < offset < 86400.

(** ** Search *)

(** What a feature says about a file. *)
Definition described (f : feature) (s : swiss_step) : Prop :=
  ss_title s = ft_title f /\ horizon_from_str (ft_horizon f) = Ok (ss_horizon s) /\ exists more, ft_hrefs f = ss_href s :: more.
(** The files in the order of their horizons; those with the same horizon keep their order. *)
Definition horizon_le (a b : swiss_step) : Prop := hours (ss_horizon a) <= hours (ss_horizon b).
Definition by_horizon (parsed l : list swiss_step) : Prop :=
  StronglySorted horizon_le l /\
  forall n, filter (fun s => hours (ss_horizon s) =? n) l = filter (fun s => hours (ss_horizon s) =? n) parsed.
Definition short_horizons (l : list swiss_step) : Prop := Forall (fun s => hours (ss_horizon s) <= 255) l.
(** The names of the variables. *)
Definition var_text (v : swiss_var) : string :=
  match v with
  | SCeiling => "CEILING" | SClc => "CLC" | SClct => "CLCT" | SHhl => "HHL" | ST2m => "T_2M" | STotPrec => "TOT_PREC"
  | SU => "U" | SU10m => "U_10M" | SV => "V" | SV10m => "V_10M" | SVmax10m => "VMAX_10M"
  end.
(** The request for the files of a variable, and the one for the latest reference time. *)
Definition file_request (v : swiss_var) (t : datetime) : request :=
  {| rq_collections := ["ch.meteoschweiz.ogd-forecasting-icon-ch1"%string]; rq_ref := Some (ref_name t); rq_horizon := None;
     rq_var := Some (var_text v); rq_perturbed := false |}.
Definition latest_request : request :=
  {| rq_collections := ["ch.meteoschweiz.ogd-forecasting-icon-ch1"%string]; rq_ref := None; rq_horizon := Some "P0DT00H00M00S"%string;
     rq_var := Some "T_2M"%string; rq_perturbed := false |}.
(** The first asset with an id. *)
Definition first_asset (id : string) (l : list asset) (a : asset) : Prop :=
  exists earlier later, l = earlier ++ a :: later /\ as_id a = id /\ Forall (fun b => as_id b <> id) earlier.

Section Service.
  Variables (rfc3339 : rfc3339_parser) (sv : service).
  (** The files of a variable, from an answer of the service, in the order of the horizons (if none is beyond 255 hours). *)
  Definition files_of (v : swiss_var) (t : datetime) (l : list swiss_step) : Prop :=
    exists features parsed, sv_search sv (file_request v t) (Ok features) /\ Forall2 described features parsed /\
      Permutation parsed l /\ (short_horizons parsed -> by_horizon parsed l).
  (** The latest reference time, from an answer of the service. *)
  Definition latest (t : datetime) : Prop :=
    exists features f, sv_search sv latest_request (Ok (features ++ [f])) /\ ref_from_str rfc3339 (ft_ref f) = Ok t.
  (** The service gives ordinary times. *)
  Definition dated : Prop := forall rq features f t offset,
    sv_search sv rq (Ok features) -> In f features -> rfc3339 (ft_ref f) = Some (t, offset) -> local_time t offset.
End Service.

(** ** Grids *)

(** The run of a reference time. *)
Definition swiss_run_of (t : datetime) : fc_run := {| run_model := IconCh1; run_date := dt_date t; run_name := dec_pad 2 (dt_hour t) |}.
(** The step is selected by the filter; the empty filter selects all. *)
Definition wanted_step (steps : list Z) (n : nat) : Prop := steps = [] \/ In (Z.of_nat n) steps.
(** The documents 31 to 79 of a file (counted from 0). *)
Definition level_docs {A} (docs : list A) : list A := firstn 49 (skipn 31 docs).

Section Grids.
  Variables (chk : bool) (powi : f32 -> Z -> f32) (fetch : fetcher).
  (** The grid of the model, from the file of the horizontal constants. *)
  Definition grid_of_constants (url : string) (u : ugrid) : Prop :=
    exists bs docs clat clon cs e, fetch url (Ok bs) /\ read_multi_doc chk bs = Some (Ok docs) /\
      nth_error docs 4 = Some clat /\ nth_error docs 3 = Some clon /\ coordinates_from_docs powi clat clon = Ok cs /\
      extent_new (lat_lon_new (f32_lit 4203 100) (f32_lit (-81) 100)) (lat_lon_new (f32_lit 5050 100) (f32_lit 1770 100)) = Ok e /\
      calc_coord_dist_lookup_map chk (unstructured_new None 1851 847 e cs) (f32_lit 1 100) = Ok u.
  (** A grid with the values of a file that the server gave. *)
  Definition file_grid {T} (u : ugrid) (missing : T) (transform : f32 -> T) (f : swiss_step) (g : value_grid T) : Prop :=
    exists bs d rest, fetch (ss_href f) (Ok bs) /\ read_single_doc chk bs = Ok (d, rest) /\ regrid_doc powi missing transform u d = Ok g.
  Definition value_file (u : ugrid) : swiss_step -> fgrid -> Prop := file_grid u (f32_of_Z (-1)) (fun x => x).
  Definition percent_file (u : ugrid) : swiss_step -> fgrid -> Prop := file_grid u (f32_of_Z (-1)) (fun x => fdiv x (f32_of_Z 100)).
  (** The grids of the levels from a file. *)
  Definition level_grids_at (u : ugrid) (missing : Z) (transform : f32 -> Z) (url : string) (gs : list bgrid) : Prop :=
    exists bs docs, fetch url (Ok bs) /\ read_multi_doc chk bs = Some (Ok docs) /\
      Forall2 (fun d g => regrid_doc powi missing transform u d = Ok g) (level_docs docs) gs.

  (** ** A service that has the files *)

  (** It gives the file, and the file holds values; or there is an error, one of those that are [lost]. *)
  Variable lost : err -> Prop.
  Definition has_values {T} (missing : T) (transform : f32 -> T) (d : document) : Prop :=
    exists values, calculate_data_points powi d missing transform = Ok values.
  Definition good_single {T} (missing : T) (transform : f32 -> T) (url : string) : Prop :=
    answers lost (fetch url) (fun bs => ends_in lost (fun doc => has_values missing transform (fst doc)) (read_single_doc chk bs)).
  (** What the documents of a file with several hold. *)
  Definition all_docs (P : list document -> Prop) (bs : bytes) : Prop := exists o, read_multi_doc chk bs = Some o /\ ends_in lost P o.
  (** The same for a file with documents for [count] levels. *)
  Definition good_levels (count : nat) (missing : Z) (transform : f32 -> Z) (url : string) : Prop :=
    answers lost (fetch url) (all_docs (fun docs => length (level_docs docs) = count /\ Forall (has_values missing transform) (level_docs docs))).
  (** The horizontal constants: the documents 3 and 4 hold the longitudes and latitudes. *)
  Definition good_constants (url : string) : Prop :=
    answers lost (fetch url) (all_docs (fun docs => exists clat clon cs,
      nth_error docs 4 = Some clat /\ nth_error docs 3 = Some clon /\ coordinates_from_docs powi clat clon = Ok cs)).
  (** What the files of a variable have to hold. *)
  Definition good_var_file (count : nat) (v : swiss_var) (url : string) : Prop :=
    match v with
    | SClct => good_single (f32_of_Z (-1)) (fun x => fdiv x (f32_of_Z 100)) url
    | SClc => good_levels count CLC_MISSING clc_transform url
    | SU | SV => good_levels count U_V_MISSING u_v_transform url
    | SHhl => good_levels count HHL_MISSING hhl_transform url
    | _ => good_single (f32_of_Z (-1)) (fun x => x) url
    end.
End Grids.
(** The service answers with the constants, a reference time and the same number of files of each variable; or with an error. *)
Definition service_files (chk : bool) (powi : f32 -> Z -> f32) (lost : err -> Prop) (rfc3339 : rfc3339_parser) (sv : service) (files count : nat) : Prop :=
  answers lost (sv_assets sv) (fun l => exists hor vert,
     first_asset "horizontal_constants_icon-ch1-eps.grib2" l hor /\ good_constants chk powi (sv_fetch sv) lost (as_href hor) /\
     first_asset "vertical_constants_icon-ch1-eps.grib2" l vert /\ good_levels chk powi (sv_fetch sv) lost count HHL_MISSING hhl_transform (as_href vert)) /\
  answers lost (sv_search sv latest_request) (fun all => exists features f t, all = features ++ [f] /\ ref_from_str rfc3339 (ft_ref f) = Ok t /\
     valid_time t /\ dt_hour t mod 3 = 0 /\
     forall v, answers lost (sv_search sv (file_request v t)) (fun features => exists parsed, length features = files /\
         Forall2 described features parsed /\ short_horizons parsed /\
         Forall (fun s => good_var_file chk powi (sv_fetch sv) lost count v (ss_href s)) parsed)).
(** It has all the files. *)
Definition good_service (chk : bool) (powi : f32 -> Z -> f32) : rfc3339_parser -> service -> nat -> nat -> Prop := service_files chk powi (fun _ => False).

(** ** Rendering *)

(** The variable whose files are the steps of a layer, and the first step. *)
Definition main_var (t : layer_type) : swiss_var :=
  match t with CloudPrecip => SClct | Weather => SClct | Wind10m => SU10m | Temp2m => ST2m | VerticalCloud => SClc | VerticalWind => SU end.
Definition first_step (t : layer_type) : nat := match t with CloudPrecip => 1 | _ => 0 end.
(** What is known when the rendering of the layers begins: the grid, the place of the height grids and the reference time. *)
Definition started (chk : bool) (powi : f32 -> Z -> f32) (rfc3339 : rfc3339_parser) (sv : service) (u : ugrid) (heights : string) (t : datetime) : Prop :=
  exists l hor vert, sv_assets sv (Ok l) /\
    first_asset "horizontal_constants_icon-ch1-eps.grib2" l hor /\ grid_of_constants chk powi (sv_fetch sv) (as_href hor) u /\
    first_asset "vertical_constants_icon-ch1-eps.grib2" l vert /\ heights = as_href vert /\ latest rfc3339 sv t.
