(** Model of what /repo sends to the servers and how it takes their answers apart: the JSON texts of
    /repo/src/meteo_swiss/data_geo_admin_ch (the code that serde derives for its structs) and the decompression of
    /repo/src/system/file_helper.rs, and which files are files of the machine itself
    (/repo/src/grib2/converter/file_to_grid_converter.rs).  The answer is a JSON value here; its text is in JsonModel.v. *)
From Coq Require Import Ascii String ZArith List Bool Permutation.
From Verif Require Import Base F32 Grib2Model Text ForecastModel FetchModel SwissModel.
Import ListNotations.
Open Scope Z_scope.
Local Open Scope string_scope.

(** ** JSON *)

(** A JSON value; an object is the list of its members as they are written, so that names may occur twice. *)
Inductive json :=
| JNull | JBool (b : bool) | JNumber (text : string) | JString (s : string) | JArray (l : list json) | JObject (members : list (string * json)).

(** serde_json's escapes in a string: quotation marks, backslashes and control characters. *)
Definition hex_digit (n : nat) : ascii := ascii_of_nat (if Nat.ltb n 10 then 48 + n else 87 + n).
Definition escape_char (c : ascii) : string :=
  let n := nat_of_ascii c in
  if Nat.eqb n 34 then String "\" (String c "")
  else if Nat.eqb n 92 then "\\"
  else if Nat.eqb n 8 then "\b" else if Nat.eqb n 9 then "\t" else if Nat.eqb n 10 then "\n"
  else if Nat.eqb n 12 then "\f" else if Nat.eqb n 13 then "\r"
  else if Nat.ltb n 32 then "\u00" ++ String (hex_digit (Nat.div n 16)) (String (hex_digit (Nat.modulo n 16)) "")
  else String c "".
Fixpoint escape (s : string) : string := match s with EmptyString => "" | String c r => escape_char c ++ escape r end.
Definition quoted (s : string) : string := """" ++ escape s ++ """".
(** Elements with commas between them. *)
Fixpoint commas (l : list string) : string :=
  match l with [] => "" | [a] => a | a :: r => a ++ "," ++ commas r end.
(** serde_json's [to_vec]: without spaces. *)
Fixpoint json_text (j : json) : string :=
  match j with
  | JNull => "null"
  | JBool b => if b then "true" else "false"
  | JNumber t => t
  | JString s => quoted s
  | JArray l => "[" ++ commas (map json_text l) ++ "]"
  | JObject ms => "{" ++ commas (map (fun m => quoted (fst m) ++ ":" ++ json_text (snd m)) ms) ++ "}"
  end.

(** ** Requests *)

(** icon_ch_forecast_endpoint.rs:1-2, 9-13 *)
Definition SEARCH_URL : string := "https://data.geo.admin.ch/api/stac/v1/search".
Definition ASSETS_URL : string := "https://data.geo.admin.ch/api/stac/v1/collections/ch.meteoschweiz.ogd-forecasting-icon-ch1/assets".
(** [#[serde(skip_serializing_if = "Option::is_none")]] *)
Definition optional (name : string) (o : option string) : list (string * json) := match o with Some s => [(name, JString s)] | None => [] end.
(** icon_ch_forecast_request.rs:9-27 and icon_ch_forecast_search_service.rs:21: [json!(request)] makes a map that is
    sorted by the names of its members. *)
Definition request_json (rq : request) : json :=
  JObject ([("collections", JArray (map JString (rq_collections rq)))]
    ++ optional "forecast:horizon" (rq_horizon rq)
    ++ [("forecast:perturbed", JBool (rq_perturbed rq))]
    ++ optional "forecast:reference_datetime" (rq_ref rq)
    ++ optional "forecast:variable" (rq_var rq))%list.
Definition request_body (rq : request) : string := json_text (request_json rq).

(** ** Answers *)

(** The code derived by [#[derive(Deserialize)]] for a struct: from an object, each field must occur exactly once, others are
    ignored; from an array, the elements are the fields in the order of the declaration. *)
Definition member_values (name : string) (ms : list (string * json)) : list json := map snd (filter (fun m => String.eqb (fst m) name) ms).
Definition member (ms : list (string * json)) (name : string) : outcome json :=
  match member_values name ms with [v] => Ok v | _ => Err EInvalid end.
Definition struct_fields (names : list string) (j : json) : outcome (list json) :=
  match j with
  | JObject ms => try_map (member ms) names
  | JArray l => if Nat.eqb (length l) (length names) then Ok l else Err EInvalid
  | _ => Err EInvalid
  end.
(** A field of type String. *)
Definition decode_string (j : json) : outcome string := match j with JString s => Ok s | _ => Err EInvalid end.
(** A field of type Vec. *)
Definition decode_list (j : json) : outcome (list json) := match j with JArray l => Ok l | _ => Err EInvalid end.
(** A struct with fields of type String only. *)
Definition decode_strings (names : list string) (j : json) : outcome (list string) :=
  obind (struct_fields names j) (try_map decode_string).
(** icon_ch_forecast_response.rs:22-32 *)
Definition PROPERTIES : list string := ["datetime"; "title"; "forecast:reference_datetime"; "forecast:horizon"; "forecast:variable"].
(** icon_ch_forecast_response.rs:41-45 *)
Definition decode_href (j : json) : outcome string :=
  obind (decode_strings ["title"; "href"] j) (fun l => match l with [_; href] => Ok href | _ => Err EInvalid end).
(** A HashMap: inserting replaces the value of the same key. *)
Definition insert_key (k : string) (v : string) (l : list (string * string)) : list (string * string) :=
  ((k, v) :: filter (fun m => negb (String.eqb (fst m) k)) l)%list.
(** icon_ch_forecast_response.rs:35-39: [#[serde(flatten)]] takes all members of an object (and no array) into the map. *)
Definition decode_assets (j : json) : outcome (list (string * string)) :=
  match j with
  | JObject ms => omap (fun l => fold_left (fun acc m => insert_key (fst m) (snd m) acc) l [])
                       (try_map (fun m => omap (pair (fst m)) (decode_href (snd m))) ms)
  | _ => Err EInvalid
  end.
(** icon_ch_forecast_response.rs:14-20: title, reference time, horizon and assets. *)
Definition feature_parts (j : json) : outcome (string * string * string * list (string * string)) :=
  obind (struct_fields ["id"; "properties"; "assets"] j) (fun l =>
    match l with
    | [id; properties; assets] =>
        obind (decode_string id) (fun _ => obind (decode_strings PROPERTIES properties) (fun p =>
          match p with
          | [_; title; ref; hor; _] => omap (pair (title, ref, hor)) (decode_assets assets)
          | _ => Err EInvalid
          end))
    | _ => Err EInvalid
    end).
(** The HashMap of the assets may be iterated in any order. *)
Definition decode_feature (j : json) : result feature := fun o =>
  match feature_parts j with
  | Ok (title, ref, hor, assets) => exists hrefs, Permutation hrefs (map snd assets) /\
      o = Ok {| ft_title := title; ft_ref := ref; ft_horizon := hor; ft_hrefs := hrefs |}
  | Err e => o = Err e
  | Panic => o = Panic
  end.
(** icon_ch_forecast_response.rs:5-11 *)
Definition decode_response (j : json) : result (list feature) :=
  r_bind (r_of (obind (struct_fields ["timeStamp"; "features"] j) (fun l =>
    match l with [stamp; features] => obind (decode_string stamp) (fun _ => decode_list features) | _ => Err EInvalid end)))
  (r_collect decode_feature).
(** icon_ch_assets_response.rs:31-36 *)
Definition decode_asset (j : json) : outcome asset :=
  obind (decode_strings ["id"; "title"; "href"] j) (fun l => match l with [id; _; href] => Ok {| as_id := id; as_href := href |} | _ => Err EInvalid end).
(** icon_ch_assets_response.rs:4-7 *)
Definition decode_assets_response (j : json) : outcome (list asset) :=
  obind (struct_fields ["assets"] j) (fun l => match l with [assets] => obind (decode_list assets) (try_map decode_asset) | _ => Err EInvalid end).

(** ** Servers *)

(** What the servers can answer: to a POST request with a body, to a GET request for JSON and to a GET request for a file;
    the decompression (crate bzip2), which ends where the compressed data is damaged; and what reading a file of the machine itself gives
    ([File::open] and what follows).  Each call may give something else. *)
Record servers := {
  se_post : string -> string -> result json;
  se_json : string -> result json;
  se_file : string -> result bytes;
  se_bunzip : bytes -> bytes;
  se_local : string -> result bytes
}.
(** [str::ends_with] *)
Fixpoint has_suffix (suffix s : string) : bool :=
  String.eqb s suffix || match s with EmptyString => false | String _ r => has_suffix suffix r end.
(** file_helper.rs:9-37 *)
Definition get_url (se : servers) : fetcher := fun url =>
  r_bind (se_file se url) (fun bs => r_of (Ok (if has_suffix ".bz2" url then se_bunzip se bs else bs))).
(** file_to_grid_converter.rs:117-119 *)
Definition is_url (name : string) : bool := String.prefix "http://" name || String.prefix "https://" name.
(** file_to_grid_converter.rs:22-31, 36-45: a name that is no URL is that of a file of the machine itself, which is not decompressed. *)
Definition open_file (se : servers) : fetcher := fun name => if is_url name then get_url se name else se_local se name.
(** icon_ch_forecast_search_service.rs:17-31 and icon_ch_assets_service.rs:10-21.  An answer that cannot be decoded is an error. *)
Definition swiss_service (se : servers) : service :=
  {| sv_search := fun rq => r_bind (se_post se SEARCH_URL (request_body rq)) decode_response;
     sv_assets := r_bind (se_json se ASSETS_URL) (fun j => r_of (decode_assets_response j));
     sv_fetch := open_file se |}.
