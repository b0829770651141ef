(** The vocabulary of the properties of the files of the German weather service (C49, C50, C54, C59). *)
From Coq Require Import String ZArith List Bool.
From Verif Require Import Base F32 Grib2Model GeoModel Par TileModel ChartModel ChartSpec MetobinModel Text TextSpec ForecastModel ForecastSpec FetchModel FetchSpec DwdModel.
Import ListNotations.
Open Scope Z_scope.

(** The models with files of the German weather service. *)
Definition dwd_model (m : fc_model) : Prop := m = IconD2 \/ m = IconEu.

(** The files of a run that are asked for. *)
Inductive dwd_file :=
| SingleFile (v : single_var) (step_nr : Z)
| LevelFile (v : level_var) (step_nr level : Z)
| HeightFile (level : Z).
Definition numbered (nr : Z) : fc_step := {| st_nr := nr; st_url := EmptyString |}.
Definition dwd_url (run : fc_run) (f : dwd_file) : outcome string :=
  match f with
  | SingleFile v nr => single_url v run (numbered nr)
  | LevelFile v nr level => level_url v run (numbered nr) level
  | HeightFile level => hhl_url run level
  end.
(** The same, written out. *)
Definition single_lower (v : single_var) : string :=
  match v with
  | Ceiling => "ceiling" | ClctMod => "clct_mod" | TotPrec => "tot_prec" | Ww => "ww" | U10m => "u_10m" | V10m => "v_10m"
  | Vmax10m => "vmax_10m" | T2m => "t_2m"
  end.
Definition single_upper (v : single_var) : string :=
  match v with
  | Ceiling => "CEILING" | ClctMod => "CLCT_MOD" | TotPrec => "TOT_PREC" | Ww => "WW" | U10m => "U_10M" | V10m => "V_10M"
  | Vmax10m => "VMAX_10M" | T2m => "T_2M"
  end.
Definition level_lower (v : level_var) : string := match v with Clc => "clc" | UWind => "u" | VWind => "v" end.
Definition level_upper (v : level_var) : string := match v with Clc => "CLC" | UWind => "U" | VWind => "V" end.
Definition url_layout (run : fc_run) (f : dwd_file) (url : string) : Prop :=
  exists y mo d file, padded 4 y (year (run_date run)) /\ padded 2 mo (month (run_date run)) /\ padded 2 d (day (run_date run)) /\
    let start := (y ++ mo ++ d ++ run_name run)%string in
    match run_model run with
    | IconD2 => url = ("https://opendata.dwd.de/weather/nwp/icon-d2/grib/" ++ run_name run ++ "/" ++ file)%string /\
        match f with
        | SingleFile v nr => exists st, padded 3 st nr /\
            file = (single_lower v ++ "/icon-d2_germany_regular-lat-lon_single-level_" ++ start ++ "_" ++ st ++ "_2d_" ++ single_lower v ++ ".grib2.bz2")%string
        | LevelFile v nr level => exists st l, padded 3 st nr /\ plain l level /\
            file = (level_lower v ++ "/icon-d2_germany_regular-lat-lon_model-level_" ++ start ++ "_" ++ st ++ "_" ++ l ++ "_" ++ level_lower v ++ ".grib2.bz2")%string
        | HeightFile level => exists l, plain l level /\
            file = ("hhl/icon-d2_germany_regular-lat-lon_time-invariant_" ++ start ++ "_000_" ++ l ++ "_hhl.grib2.bz2")%string
        end
    | IconEu => url = ("https://opendata.dwd.de/weather/nwp/icon-eu/grib/" ++ run_name run ++ "/" ++ file)%string /\
        match f with
        | SingleFile v nr => exists st, padded 3 st nr /\
            file = (single_lower v ++ "/icon-eu_europe_regular-lat-lon_single-level_" ++ start ++ "_" ++ st ++ "_" ++ single_upper v ++ ".grib2.bz2")%string
        | LevelFile v nr level => exists st l, padded 3 st nr /\ plain l level /\
            file = (level_lower v ++ "/icon-eu_europe_regular-lat-lon_model-level_" ++ start ++ "_" ++ st ++ "_" ++ l ++ "_" ++ level_upper v ++ ".grib2.bz2")%string
        | HeightFile level => exists l, plain l level /\
            file = ("hhl/icon-eu_europe_regular-lat-lon_time-invariant_" ++ start ++ "_" ++ l ++ "_HHL.grib2.bz2")%string
        end
    | _ => False
    end.
Definition dwd_file_ok (f : dwd_file) : Prop :=
  match f with SingleFile _ nr => 0 <= nr | LevelFile _ nr level => 0 <= nr /\ 0 <= level | HeightFile level => 0 <= level end.

(** ** Search for a run *)

(** The files that have to be there for a run to count as complete. *)
Definition probed (m : fc_model) (f : dwd_file) : Prop :=
  (exists v, f = SingleFile v (last_step m)) \/ f = LevelFile Clc (last_step m) 65 \/ f = LevelFile UWind (last_step m) 65.
(** All of them, respectively one of them not, were found (status 200) when asked for. *)
Definition complete_run (head : heads) (run : fc_run) : Prop :=
  forall f, probed (run_model run) f -> exists u n, dwd_url run f = Ok u /\ head n u = Some 200.
Definition incomplete_run (head : heads) (run : fc_run) : Prop :=
  exists f u n, probed (run_model run) f /\ dwd_url run f = Ok u /\ head n u <> Some 200.
(** The runs of a day, in this order. *)
Definition run_of (m : fc_model) (d : date) (name : string) : fc_run := {| run_model := m; run_date := d; run_name := name |}.
(** The name is that of a run, [later] are the names of the later runs of a day. *)
Definition run_before (name : string) (later : list string) : Prop :=
  exists earlier, ["00"%string; "03"%string; "06"%string; "09"%string; "12"%string; "15"%string; "18"%string; "21"%string] = earlier ++ name :: later.

(** ** Dates *)

(** The number of the day, counted from 1 January 0000 as 0. *)
Definition days_before_year (y : Z) : Z := 365 * y + (y + 3) / 4 - (y + 99) / 100 + (y + 399) / 400.
Fixpoint days_before_month (y : Z) (n : nat) : Z :=
  match n with O => 0 | S n' => days_before_month y n' + days_in_month y (Z.of_nat n) end.
Definition day_number (d : date) : Z := days_before_year (year d) + days_before_month (year d) (Z.to_nat (month d - 1)) + (day d - 1).

(** ** Steps *)

(** A step of the run that is selected by the filter; the empty filter selects all. *)
Definition wanted_nr (run : fc_run) (steps : list Z) (n : Z) : Prop := 2 <= n <= last_step (run_model run) /\ (steps = [] \/ In n steps).

(** ** Grids *)

(** The first and the last model level that is read. *)
Definition first_level (m : fc_model) : Z := match m with IconCh1 => 31 | _ => 25 end.
Definition last_level (m : fc_model) : Z := match m with IconGlobal => 90 | IconEu => 74 | IconD2 => 65 | IconCh1 => 79 end.

Section Grids.
  Variables (chk : bool) (powi : f32 -> Z -> f32) (fetch : fetcher).
  (** The grid with the values of a file of the run that the server gave. *)
  Definition grid_from {T} (run : fc_run) (f : dwd_file) (missing : T) (transform : f32 -> T) (g : value_grid T) : Prop :=
    exists url bs d rest, dwd_url run f = Ok url /\ fetch url (Ok bs) /\ read_single_doc chk bs = Ok (d, rest) /\
      regular_create_and_transform powi d missing transform = Ok g.
  (** Values of floats, with -1 for missing ones. *)
  Definition float_grid (run : fc_run) (v : single_var) (nr : Z) (g : fgrid) : Prop :=
    grid_from run (SingleFile v nr) (f32_of_Z (-1)) (fun x => x) g.
  (** The grids of the levels of the model. *)
  Definition level_grids (run : fc_run) (file : Z -> dwd_file) (missing : Z) (transform : f32 -> Z) (gs : list bgrid) : Prop :=
    Forall2 (fun level g => grid_from run (file level) missing transform g)
      (range (first_level (run_model run)) (last_level (run_model run))) gs.

  (** ** A run with all its files *)

  (** The server gives the file, and it holds a grid of these dimensions and this extent with all its values; or there is
      an error, one of those that are [lost], from the server or in the file. *)
  Definition good_file {T} (lost : err -> Prop) (run : fc_run) (f : dwd_file) (missing : T) (transform : f32 -> T) (w h : Z) (e : extent) (known : T -> Prop) : Prop :=
    exists url, dwd_url run f = Ok url /\
      answers lost (fetch url) (fun bs => ends_in lost (fun doc => exists g, regular_create_and_transform powi (fst doc) missing transform = Ok g /\
        dims g = (w, h) /\ extent_of g = e /\ complete g /\ Forall known (vg_values g)) (read_single_doc chk bs)).
  (** The value has no code, or a known one. *)
  Definition known_code (v : f32) : Prop := v = f32_of_Z (-1) \/ exists c, weather_from_value (f_to_u8 v) = Ok c.
  (** Each file of the run is there, or an error. *)
  Definition run_files (lost : err -> Prop) (run : fc_run) (w h : Z) (e : extent) : Prop :=
    (forall v n, 1 <= n <= last_step (run_model run) ->
       good_file lost run (SingleFile v n) (f32_of_Z (-1)) (fun x => x) w h e (match v with Ww => known_code | _ => fun _ => True end)) /\
    (forall v n level, 2 <= n <= last_step (run_model run) -> first_level (run_model run) <= level <= last_level (run_model run) ->
       good_file lost run (LevelFile v n level) (match v with Clc => CLC_MISSING | _ => U_V_MISSING end) (match v with Clc => clc_transform | _ => u_v_transform end)
         w h e (fun _ => True)) /\
    (forall level, first_level (run_model run) <= level <= last_level (run_model run) ->
       good_file lost run (HeightFile level) HHL_MISSING hhl_transform w h e (fun _ => True)).
  (** All the files of the run are there. *)
  Definition good_run : fc_run -> Z -> Z -> extent -> Prop := run_files (fun _ => False).
End Grids.
