(** The property C88, about the files of the machine itself. *)
From Coq Require Import Ascii String ZArith List Bool Lia Permutation.
From Verif Require Import Base F32 Grib2FloatProofs Grib2Model GeoModel Par TileModel TileProperties ChartModel Text ForecastModel ForecastSpec FetchModel FetchSpec DwdModel DwdSpec DwdProofs
  DwdProperties SwissModel SwissSpec SwissProofs SwissProperties ServiceModel ServiceSpec ServiceProofs ServiceProperties JsonModel JsonSpec JsonProofs JsonProperties
  CliModel ReqModel ReqSpec ReqProofs ReqProperties LocalSpec LocalProofs.
Import ListNotations.
Open Scope Z_scope.

(** C88.  A web address is fetched (and decompressed as C68 says); any other name is that of a file of the machine, which is read as it is,
    also if its name ends with .bz2. *)
Theorem C88_web : forall se name o, on_web name -> (open_file se name o <-> get_url se name o).
Proof. exact c88_web_proof. Qed.
Print Assumptions C88_web.
Theorem C88_local : forall se name o, ~ on_web name -> (open_file se name o <-> se_local se name o).
Proof. exact c88_local_proof. Qed.
Print Assumptions C88_local.
(** C88.  Forecasts of the German service: all that is opened or asked about is on its server, whatever it answers. *)
Theorem C88_german_names : forall chk powi fetch m faulty head today today' model variables steps tr r u,
  dwd_model model -> valid_date today -> l_dwd_render chk powi fetch m faulty head today today' model variables steps tr r ->
  opened u tr \/ asked_about u tr -> exists rest, u = ("https://opendata.dwd.de/weather/nwp/" ++ rest)%string.
Proof. exact c88_german_names_proof. Qed.
Print Assumptions C88_german_names.
(** C88.  So what they do does not depend on the files of the machine. *)
Theorem C88_german : forall chk powi se (local : fetcher) m faulty head today today' model variables steps t r,
  dwd_model model -> valid_date today ->
  (dwd_render_latest chk powi (open_file se) m faulty head today today' model variables steps t r <->
   dwd_render_latest chk powi (open_file (with_files se local)) m faulty head today today' model variables steps t r).
Proof. exact c88_german_proof. Qed.
Print Assumptions C88_german.
(** C88.  Forecasts of the Swiss service: what is opened was named by the service. *)
Theorem C88_swiss_names : forall chk powi rfc3339 sv m faulty steps variables tr r u,
  l_swiss_render chk powi rfc3339 sv m faulty steps variables tr r -> opened u tr -> can_name sv u.
Proof. exact c88_swiss_names_proof. Qed.
Print Assumptions C88_swiss_names.
(** C88.  If the service names web addresses only, what is done does not depend on the files of the machine. *)
Theorem C88_swiss : forall chk powi rfc3339 se (local : fetcher) m faulty steps variables t r, (forall u, can_name (swiss_service se) u -> on_web u) ->
  (swiss_render_latest chk powi rfc3339 (swiss_service se) m faulty steps variables t r <->
   swiss_render_latest chk powi rfc3339 (swiss_service (with_files se local)) m faulty steps variables t r).
Proof. exact c88_swiss_proof. Qed.
Print Assumptions C88_swiss.
(** C88.  In any case it depends on no files of the machine but those that were opened. *)
Theorem C88_opened_only : forall chk powi rfc3339 se (local : fetcher) m faulty steps variables tr r,
  l_swiss_render chk powi rfc3339 (swiss_service se) m faulty steps variables tr r ->
  (forall u, opened u tr -> ~ on_web u -> forall o, se_local se u o -> local u o) ->
  l_swiss_render chk powi rfc3339 (swiss_service (with_files se local)) m faulty steps variables tr r.
Proof. exact c88_frame_proof. Qed.
Print Assumptions C88_opened_only.
(** C88.  Finding: the service can make the program read any file of the machine.  If it gives the name of the file as that of the horizontal
    constants, each call opens it, and the call ends with an error if the file cannot be read. *)
Theorem C88_any_file : forall chk powi rfc3339 se m faulty steps variables tr r assets hor,
  (forall o, sv_assets (swiss_service se) o -> o = Ok assets) -> first_asset "horizontal_constants_icon-ch1-eps.grib2" assets hor -> ~ on_web (as_href hor) ->
  l_swiss_render chk powi rfc3339 (swiss_service se) m faulty steps variables tr r ->
  opened (as_href hor) tr /\ forall e, (forall o, se_local se (as_href hor) o -> o = Err e) -> r = Err e.
Proof. exact c88_finding_proof. Qed.
Print Assumptions C88_any_file.

Local Open Scope string_scope.
(** Names of both kinds. *)
Example C88_names : on_web "https://data.geo.admin.ch/a.grib2" /\ on_web "http://localhost/a.grib2.bz2" /\ ~ on_web "/etc/passwd" /\ ~ on_web "HTTPS://data.geo.admin.ch/a.grib2" /\ ~ on_web "file:///a.bz2".
Proof. rewrite <- !is_url_ok. repeat split; try (vm_compute; reflexivity); vm_compute; discriminate. Qed.
(** The sample of C59, with the files of its server on the web, and nothing on the machine; there is an execution that succeeds. *)
Definition sample_web : servers :=
  {| se_post := fun _ _ o => o = Err EIo; se_json := fun _ o => o = Err EIo; se_file := served; se_bunzip := fun b => b; se_local := fun _ o => o = Err EIo |}.
Example C88_sample : dwd_model IconD2 /\ valid_date today /\ exists tr u,
  l_dwd_render true powi_rt (open_file sample_web) flat false sample_heads today today IconD2 rain_and_temperature [5; 6]%Z tr (Ok tt) /\ opened u tr.
Proof.
  destruct C79_sample as (tr & T & M & V & _ & _ & C & _). split; [exact M|]. split; [exact V|].
  cbn [map] in C. injection C as C _. unfold times_asked in C.
  assert (O : exists u, In (AskFile u) (asked tr)).
  { destruct (filter _ (asked tr)) as [|q l] eqn:F; [discriminate C|]. assert (I : In q (q :: l)) by now left. rewrite <- F in I. apply filter_In in I. destruct I as [I B]. destruct q as [u|u|rq|]; try discriminate B. now exists u. }
  destruct O as [u O]. apply asked_in in O. exists tr, u. split; [|exact O].
  refine (dwd_frame _ _ _ _ _ _ _ _ _ _ _ _ _ _ _ T). apply Forall_forall. intros [v|v|rq|] I; cbn [files_given]; try exact Logic.I.
  intros o G. apply asked_in in I. destruct (C88_german_names _ _ _ _ _ _ _ _ _ _ _ _ _ v M V T (or_introl I)) as [rest ->].
  apply c88_web_proof; [apply on_web_start|]. unfold get_url, r_bind, r_of. exists o. split; [exact G|]. destruct o; [|reflexivity..]. now destruct (has_suffix _ _).
Qed.
(** A service that names one file on the web. *)
Definition web_service : servers :=
  {| se_post := fun _ _ o => o = Ok (sample_answer [("a", sample_asset "https://a")]); se_json := fun _ o => o = Err EIo;
     se_file := fun _ o => o = Err EIo; se_bunzip := fun b => b; se_local := fun _ o => o = Err EIo |}.
Example C88_swiss_sample : (forall u, can_name (swiss_service web_service) u -> on_web u) /\ can_name (swiss_service web_service) "https://a".
Proof.
  split.
  - intros u [(assets & a & (o & -> & E) & _)|(rq & features & f & (o & -> & E) & I & J)]; [discriminate E|]. destruct E as (o & E & F). unfold r_of in E. vm_compute in E. subst o.
    cbn [r_collect] in F. inversion F as [|x y l l' D F']; subst. inversion F'; subst. destruct I as [->|[]]. unfold decode_feature in D.
    set (j := JObject _) in D. assert (X : exists t r h assets, feature_parts j = Ok (t, r, h, assets) /\ map snd assets = ["https://a"]) by (eexists; eexists; eexists; eexists; split; [vm_compute; reflexivity|reflexivity]).
    destruct X as (t & r & h & assets & X & Y). rewrite X in D. destruct D as (hrefs & P & Q). rewrite Y in P. injection Q as ->. cbn [ft_hrefs] in J. apply (Permutation_in _ P) in J. destruct J as [<-|[]].
    exists "a". now right.
  - right. exists latest_request, [sample_found ["https://a"]], (sample_found ["https://a"]). split; [|split; now left].
    exists (Ok (sample_answer [("a", sample_asset "https://a")])). split; [reflexivity|].
    eexists. split; [vm_compute; reflexivity|]. cbn [r_collect]. constructor; [|constructor]. exists ["https://a"]. split; [apply Permutation_refl|reflexivity].
Qed.
(** A service that names the file with the users of the machine (as a text, see C81), and an execution, in which this file is opened; it is not a GRIB file. *)
Definition bad_assets : string := "{""assets"":[{""id"":""horizontal_constants_icon-ch1-eps.grib2"",""title"":""constants"",""href"":""/etc/passwd""}]}".
Definition bad_asset : asset := {| as_id := "horizontal_constants_icon-ch1-eps.grib2"; as_href := "/etc/passwd" |}.
Definition bad_service : servers := json_servers (fun _ => true)
  {| te_post := fun _ _ o => o = Err EIo; te_get := fun _ o => o = Ok bad_assets; te_file := fun _ o => o = Err EIo; te_bunzip := fun b => b;
     te_local := fun name o => o = if String.eqb name "/etc/passwd" then Ok [114; 111; 111; 116; 58]%Z else Err EIo |}.
Example C88_passwd : (forall o, sv_assets (swiss_service bad_service) o -> o = Ok [bad_asset]) /\ first_asset "horizontal_constants_icon-ch1-eps.grib2" [bad_asset] bad_asset /\
  ~ on_web (as_href bad_asset) /\
  exists e, l_swiss_render true powi_rt zulu (swiss_service bad_service) flat false [] [] [Asked AskAssets; Asked (AskFile "/etc/passwd")] (Err e).
Proof.
  assert (A : forall o, sv_assets (swiss_service bad_service) o <-> o = Ok [bad_asset]).
  { intro o. split.
    - intros (o1 & (o2 & -> & E1) & E). unfold r_of in E1. vm_compute in E1. subst o1. unfold r_of in E. vm_compute in E. exact E.
    - intros ->. eexists. split; [eexists; split; [reflexivity|reflexivity]|]. vm_compute. reflexivity. }
  split; [intro o; apply A|]. split; [exists [], []; repeat split; constructor|]. split; [exact (proj1 (proj2 (proj2 C88_names)))|].
  eexists. exists [AskAssets], (Ok [bad_asset]). eexists. split; [split; [reflexivity|now apply A]|]. split; [|reflexivity]. cbn [p_let]. change (find_asset HOR_CONSTS_ID [bad_asset]) with (Some bad_asset). cbn [expect p_let].
  exists [AskFile "/etc/passwd"]. eexists. exists []. split; [|split; [|reflexivity]].
  - exists [AskFile "/etc/passwd"]. eexists. split.
    + exists [AskFile "/etc/passwd"], (Ok [114; 111; 111; 116; 58]%Z). split; [split; [reflexivity|reflexivity]|]. exists []. split; [split; [reflexivity|vm_compute; reflexivity]|reflexivity].
    + cbv beta iota. split; reflexivity.
  - cbn [p_let]. split; reflexivity.
Qed.
