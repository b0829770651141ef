(** The vocabulary of the properties of forecasts and their rendering. *)
From Coq Require Import Ascii String ZArith List Bool.
From Verif Require Import Base F32 GeoModel ImagingModel Par TileModel TileSpec ChartModel MetobinModel Text TextSpec ForecastModel.
Import ListNotations.
Open Scope Z_scope.

Definition valid_date (d : date) : Prop := 0 <= year d <= 9999 /\ 1 <= month d <= 12 /\ 1 <= day d <= days_in_month (year d) (month d).
(** A run whose name has no slash (those of /repo are two digits). *)
Definition valid_run (run : fc_run) : Prop := valid_date (run_date run) /\ contains "/" (run_name run) = false.

(** The step is selected by the filter; the empty filter selects all. *)
Definition wanted (filter : list Z) (s : fc_step) : Prop := filter = [] \/ In (st_nr s) filter.
(** The steps whose layer was read, in this order. *)
Definition reads (tr : list effect) : list fc_step := flat_map (fun e => match e with ERead s => [s] | _ => [] end) tr.
(** The path an effect is about. *)
Definition effect_path (e : effect) : option string :=
  match e with EDir p => Some p | EPart p _ => Some p | EImage p _ => Some p | ECreate p => Some p | EWrite p _ => Some p | _ => None end.

(** ** Files *)

(** What a file can hold: the whole PNG of an image; pieces of the PNGs of some images (each byte is at its place in one of them,
    or zero), as in a file that is being written; data. *)
Inductive content := Png (d : drawable) | Pieces (ds : list drawable) | Data (b : bytes).
(** What is in the file [q] after some effects, if [before] was in it; None: no such file.
    (A file is written only directly after it has been created.) *)
Fixpoint file_after (q : string) (before : option content) (tr : list effect) : option content :=
  match tr with
  | [] => before
  | e :: rest =>
      let now := match e with
                 | EPart p d => if String.eqb p q then Some (Pieces [d]) else before
                 | EImage p d => if String.eqb p q then Some (Png d) else before
                 | ECreate p => if String.eqb p q then Some (Data []) else before
                 | EWrite p b => if String.eqb p q then Some (Data b) else before
                 | _ => before
                 end in
      file_after q now rest
  end.

(** The files of a step: map tiles and meteobin files. *)
Inductive out_file := TileFile (t : layer_type) (zoom x y : Z) | BinFile (b : bin_type).
Definition bin_layer (b : bin_type) : layer_type :=
  match b with
  | BinPrecip => CloudPrecip | BinTemp => Temp2m | BinVerticalClouds => VerticalCloud
  | BinVerticalWind => VerticalWind | BinWind => Wind10m | BinWeather => Weather
  end.
Definition file_path (run : fc_run) (step_nr : Z) (f : out_file) : string :=
  match f with
  | TileFile t zoom x y => output_path run step_nr t ++ dec zoom ++ "/" ++ dec x ++ "/" ++ dec y ++ ".png"
  | BinFile b => output_path run step_nr (bin_layer b) ++ bin_file b
  end%string.
(** The same, written out: ./output/<model>/<date><run>/<step>/<layer>/<file>. *)
Definition model_dir (m : fc_model) : string :=
  match m with IconGlobal => "icon-global" | IconEu => "icon-eu" | IconD2 => "icon-d2" | IconCh1 => "icon-ch1" end.
Definition layer_dir (t : layer_type) : string :=
  match t with
  | CloudPrecip => "clct_precip" | Weather => "clct_precip" | Wind10m => "wind" | Temp2m => "temp"
  | VerticalCloud => "vertical_clouds" | VerticalWind => "vertical_wind"
  end.
Definition layout (run : fc_run) (step_nr : Z) (f : out_file) (path : string) : Prop :=
  exists y mo d st file, padded 4 y (year (run_date run)) /\ padded 2 mo (month (run_date run)) /\ padded 2 d (day (run_date run)) /\ padded 3 st step_nr /\
    path = ("./output/" ++ model_dir (run_model run) ++ "/" ++ y ++ mo ++ d ++ run_name run ++ "/" ++ st ++ "/" ++ file)%string /\
    match f with
    | TileFile t zoom x y => exists zs xs ys, plain zs zoom /\ plain xs x /\ plain ys y /\
        file = (layer_dir t ++ "/" ++ zs ++ "/" ++ xs ++ "/" ++ ys ++ ".png")%string
    | BinFile BinPrecip => file = "clct_precip/PRECIP.meteobin"%string
    | BinFile BinWeather => file = "clct_precip/WW.meteobin"%string
    | BinFile BinWind => file = "wind/WIND.meteobin"%string
    | BinFile BinTemp => file = "temp/TEMP.meteobin"%string
    | BinFile BinVerticalClouds => file = "vertical_clouds/VERTICAL_CLOUDS.meteobin"%string
    | BinFile BinVerticalWind => file = "vertical_wind/VERTICAL_WIND.meteobin"%string
    end.
(** Only these layers have map tiles. *)
Definition proper (f : out_file) : Prop :=
  match f with
  | TileFile t zoom x y => (t = CloudPrecip \/ t = Wind10m \/ t = Temp2m) /\ 0 <= zoom /\ 0 <= x /\ 0 <= y
  | BinFile _ => True
  end.

(** ** The five kinds of forecast charts *)

(** The last zoom level of each model; the first one is 0. *)
Definition last_zoom (m : fc_model) : Z := match m with IconGlobal => 5 | IconEu => 6 | IconD2 => 7 | IconCh1 => 8 end.

(** What is rendered from the data of a step: map tiles that cover an extent, with the content of each, and meteobin files. *)
Record kind := {
  k_type : layer_type;
  k_data : Type;
  k_tiles : k_data -> option (extent * (tile -> outcome drawable));
  k_bins : k_data -> list (bin_type * outcome bytes);
  k_render : bool -> fc_run -> list fc_step -> list Z -> (fc_step -> outcome k_data -> Prop) -> prog effect }.

Section Kinds.
  Variables (chk : bool) (m : libm).
  Definition cloud_precip_kind : kind := {|
    k_type := CloudPrecip; k_data := cloud_precip_layer * weather_layer;
    k_tiles := fun l => Some (g_extent (vg_grid (cp_cloud (fst l))),
                 create_single_tile chk m (cloud_and_precip_by_lat_lon (fst l)) (cloud_precip_color chk));
    k_bins := fun l => [(BinPrecip, precip_bin (fst l)); (BinWeather, weather_bin (snd l))];
    k_render := cloud_precip_render chk m |}.
  Definition wind_kind : kind := {|
    k_type := Wind10m; k_data := wind_layer;
    k_tiles := fun l => Some (g_extent (vg_grid (wl_zonal l)), create_single_tile chk m (wind_tot_by_lat_lon l) (fun v => Ok (wind_color v)));
    k_bins := fun l => [(BinWind, wind_bin l)];
    k_render := wind_render chk m |}.
  Definition temp_kind : kind := {|
    k_type := Temp2m; k_data := temp_layer;
    k_tiles := fun l => Some (g_extent (vg_grid l), create_single_tile chk m (temp_by_lat_lon l) (fun v => Ok (temp_color v)));
    k_bins := fun l => [(BinTemp, temp_bin l)];
    k_render := temp_render chk m |}.
  Definition vertical_cloud_kind : kind := {|
    k_type := VerticalCloud; k_data := vertical_cloud_layer;
    k_tiles := fun _ => None;
    k_bins := fun l => [(BinVerticalClouds, vertical_cloud_bin l)];
    k_render := vertical_cloud_render |}.
  Definition vertical_wind_kind : kind := {|
    k_type := VerticalWind; k_data := vertical_wind_layer;
    k_tiles := fun _ => None;
    k_bins := fun l => [(BinVerticalWind, vertical_wind_bin l)];
    k_render := vertical_wind_render |}.
  Definition kinds : list kind := [cloud_precip_kind; wind_kind; temp_kind; vertical_cloud_kind; vertical_wind_kind].

  (** The tile is one of those to render for this data. *)
  Definition tile_of (k : kind) (run : fc_run) (l : k_data k) (zoom x y : Z) (o : outcome drawable) : Prop :=
    exists e make, k_tiles k l = Some (e, make) /\ 0 <= zoom <= last_zoom (run_model run) /\
      covers chk m e zoom x y /\ o = make {| t_x := x; t_y := y; t_zoom := zoom |}.
  (** The data of a step belongs to a file with this content. *)
  Definition produces (k : kind) (run : fc_run) (l : k_data k) (f : out_file) (c : content) : Prop :=
    match f with
    | TileFile t zoom x y => t = k_type k /\ exists d, tile_of k run l zoom x y (Ok d) /\ c = Png d
    | BinFile b => exists data, In (b, Ok data) (k_bins k l) /\ c = Data data
    end.
  (** All the tiles and meteobin files can be computed. *)
  Definition computable (k : kind) (run : fc_run) (l : k_data k) : Prop :=
    (forall zoom x y o, tile_of k run l zoom x y o -> exists d, o = Ok d) /\
    (forall b o, In (b, o) (k_bins k l) -> exists data, o = Ok data).
End Kinds.

(** The tile numbers are small enough that there is a next tile. *)
Definition tiles_addressable (chk : bool) (m : libm) (run : fc_run) (e : extent) : Prop :=
  forall zoom x y, 0 <= zoom <= last_zoom (run_model run) -> covers chk m e zoom x y ->
    x < 2 ^ 32 - 1 /\ y < 2 ^ 32 - 1.
(** The last forecast step of each model. *)
Definition last_step (m : fc_model) : Z := match m with IconGlobal => 78 | IconEu => 78 | IconD2 => 48 | IconCh1 => 33 end.

(** The data of a step is determined by the step (the source of the files does not change meanwhile). *)
Definition stable {L} (read : fc_step -> outcome L -> Prop) : Prop := forall s l l', read s (Ok l) -> read s (Ok l') -> l = l'.

(** ** Order of effects *)

(** Among the effects [done] the directory of the file [p], or one below it (which makes its parents too), was created. *)
Definition has_dir (done : list effect) (p : string) : Prop :=
  exists dir file, p = (dir ++ "/" ++ file)%string /\ contains "/" file = false /\
    exists d, In (EDir d) done /\ (d = dir \/ exists sub, d = (dir ++ "/" ++ sub)%string).
(** What has to be done before an effect: the directory of a file exists, a file is created before data is written to it
    (and an image has been begun before it is completed). *)
Definition prepared (done : list effect) (e : effect) : Prop :=
  match e with
  | EPart p _ => has_dir done p
  | EImage p d => has_dir done p /\ In (EPart p d) done
  | ECreate p => has_dir done p
  | EWrite p _ => In (ECreate p) done
  | _ => True
  end.
