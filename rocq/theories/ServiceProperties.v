(** The properties C66-C68, about requests to the servers and their answers. *)
From Coq Require Import Ascii String ZArith List Bool Permutation Lia.
From Verif Require Import Base Text TextSpec ForecastModel ForecastSpec FetchModel DwdModel DwdSpec DwdProperties SwissModel SwissSpec SwissProperties ServiceModel ServiceSpec ServiceProofs.
Import ListNotations.
Open Scope Z_scope.
Local Open Scope string_scope.

(** ** C66: requests *)

(** C66.  The files of a variable are looked for with a POST request of this form to the search of the service. *)
Theorem C66_files : forall se v t o, valid_time t -> (sv_search (swiss_service se) (file_request v t) o <->
  exists body answer, files_body v t body /\ se_post se "https://data.geo.admin.ch/api/stac/v1/search" body answer /\ decoded lists answer o).
Proof. exact c66_search_proof. Qed.
Print Assumptions C66_files.
(** C66.  The latest reference time is looked for with one fixed request. *)
Theorem C66_latest : forall se o, sv_search (swiss_service se) latest_request o <->
  exists answer, se_post se "https://data.geo.admin.ch/api/stac/v1/search" latest_body answer /\ decoded lists answer o.
Proof. exact c66_latest_search_proof. Qed.
Print Assumptions C66_latest.
(** C66.  A list of files is what the service's answer to that request says, in the order of the horizons. *)
Theorem C66_found : forall chk se v t l, valid_time t -> find_files chk (swiss_service se) v t (Ok l) ->
  exists body j features parsed, files_body v t body /\ se_post se "https://data.geo.admin.ch/api/stac/v1/search" body (Ok j) /\ lists j features /\
    Forall2 described features parsed /\ Permutation parsed l /\ (short_horizons parsed -> by_horizon parsed l).
Proof. exact c66_found_proof. Qed.
Print Assumptions C66_found.

Example C66_sample : valid_time at_six /\ files_body SVmax10m at_six
  "{""collections"":[""ch.meteoschweiz.ogd-forecasting-icon-ch1""],""forecast:perturbed"":false,""forecast:reference_datetime"":""2025-11-20T06:00:00Z"",""forecast:variable"":""VMAX_10M""}".
Proof. split; [exact at_six_valid|]. apply c66_files_proof; [exact at_six_valid|]. vm_compute. reflexivity. Qed.

(** ** C67: answers *)

(** C67.  The answer to a search is taken for what it says; one that does not say anything is refused with an error. *)
Theorem C67_search : forall se rq o, sv_search (swiss_service se) rq o <->
  exists answer, se_post se SEARCH_URL (request_body rq) answer /\ decoded lists answer o.
Proof. exact c67_search_proof. Qed.
Print Assumptions C67_search.
(** C67.  The same for the list of the constant files. *)
Theorem C67_assets : forall se o, sv_assets (swiss_service se) o <->
  exists answer, se_json se "https://data.geo.admin.ch/api/stac/v1/collections/ch.meteoschweiz.ogd-forecasting-icon-ch1/assets" answer /\ decoded lists_assets answer o.
Proof. exact c67_assets_proof. Qed.
Print Assumptions C67_assets.
(** C67.  The order of members and members with other names do not matter, in the answer and in its features. *)
Theorem C67_more : forall ms ms' extra fs, Permutation ms' (extra ++ ms)%list -> (forall m, In m extra -> fst m <> "timeStamp" /\ fst m <> "features") ->
  lists (JObject ms) fs -> lists (JObject ms') fs.
Proof. exact c67_more_proof. Qed.
Print Assumptions C67_more.
Theorem C67_more_feature : forall ms ms' extra f, Permutation ms' (extra ++ ms)%list ->
  (forall m, In m extra -> fst m <> "id" /\ fst m <> "properties" /\ fst m <> "assets") -> says (JObject ms) f -> says (JObject ms') f.
Proof. exact c67_more_feature_proof. Qed.
Print Assumptions C67_more_feature.

(** An answer with one feature that has two assets. *)
Definition sample_asset (href : string) : json := JObject [("type", JString "application/grib"); ("href", JString href); ("title", JString "data")].
Definition sample_feature (assets : list (string * json)) : json :=
  JObject [("id", JString "x"); ("bbox", JNull); ("assets", JObject assets);
    ("properties", JObject [("datetime", JString "d"); ("forecast:perturbed", JBool false); ("title", JString "file"); ("forecast:variable", JString "T_2M");
      ("forecast:horizon", JString "P0DT01H00M00S"); ("forecast:reference_datetime", JString "2025-11-20T06:00:00Z")])].
Definition sample_answer (assets : list (string * json)) : json :=
  JObject [("type", JString "FeatureCollection"); ("timeStamp", JString "now"); ("features", JArray [sample_feature assets])].
Definition sample_found (hrefs : list string) : feature :=
  {| ft_title := "file"; ft_ref := "2025-11-20T06:00:00Z"; ft_horizon := "P0DT01H00M00S"; ft_hrefs := hrefs |}.
Example C67_sample : lists (sample_answer [("a", sample_asset "https://a"); ("b", sample_asset "https://b")]) [sample_found ["https://b"; "https://a"]] /\
  lists (sample_answer [("a", sample_asset "https://a"); ("b", sample_asset "https://b")]) [sample_found ["https://a"; "https://b"]].
Proof.
  assert (X : forall hrefs, Permutation hrefs ["https://b"; "https://a"] ->
    lists (sample_answer [("a", sample_asset "https://a"); ("b", sample_asset "https://b")]) [sample_found hrefs]).
  { intros hrefs P. exists "now", [sample_feature [("a", sample_asset "https://a"); ("b", sample_asset "https://b")]].
    split; [apply struct_ok; vm_compute; reflexivity|]. constructor; [|constructor]. apply feature_ok.
    exists hrefs. split; [exact P|reflexivity]. }
  split; apply X; [apply Permutation_refl|apply perm_swap].
Qed.
(** Finding: one asset without a title makes the whole answer unusable. *)
Example C67_untitled : forall fs, ~ lists (sample_answer [("a", sample_asset "https://a"); ("b", JObject [("href", JString "https://b")])]) fs.
Proof.
  intros fs (s & es & R & F). apply struct_ok in R. vm_compute in R. injection R as <- <-. inversion F as [|? f ? ? S _]; subst.
  apply feature_ok in S. vm_compute in S. discriminate.
Qed.

(** ** C68: files *)

(** C68.  A file is decompressed if its name ends with .bz2, and only then. *)
Theorem C68_compressed : forall se url o, (exists p, url = p ++ ".bz2") -> (get_url se url o <-> exists a, se_file se url a /\ o = omap (se_bunzip se) a).
Proof. exact c68_compressed_proof. Qed.
Print Assumptions C68_compressed.
Theorem C68_plain : forall se url o, ~ (exists p, url = p ++ ".bz2") -> (get_url se url o <-> se_file se url o).
Proof. exact c68_plain_proof. Qed.
Print Assumptions C68_plain.
(** C68.  Each file of the German service is decompressed. *)
Theorem C68_dwd : forall run f url, valid_run run -> dwd_file_ok f -> dwd_url run f = Ok url -> exists p, url = p ++ ".bz2".
Proof. exact c68_dwd_proof. Qed.
Print Assumptions C68_dwd.

Example C68_sample : (exists p, "https://data.geo.admin.ch/icon-ch1-eps-202511200600-1-t_2m-ctrl.grib2.bz2" = p ++ ".bz2") /\
  ~ (exists p, "https://data.geo.admin.ch/icon-ch1-eps-202511200600-1-t_2m-ctrl.grib2" = p ++ ".bz2") /\
  valid_run (run_of IconD2 (day_of 2025 11 20) "06") /\ dwd_file_ok (SingleFile T2m 13).
Proof.
  split; [apply suffix_ok; vm_compute; reflexivity|]. split; [intro H; apply suffix_ok in H; vm_compute in H; discriminate|].
  split; [exact (proj2 (proj2 (proj2 C49_sample)))|cbn; lia].
Qed.
