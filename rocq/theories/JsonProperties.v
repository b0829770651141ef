(** The property C81, about the texts of requests and answers. *)
From Coq Require Import Ascii String ZArith List Bool Permutation Lia Arith.
From Verif Require Import Base Text TextSpec TextSpecProofs Utf8Spec Utf8Proofs FetchModel SwissModel SwissSpec NcTextModel ServiceModel ServiceSpec ServiceProofs ServiceProperties JsonModel JsonSpec JsonProofs.
Import ListNotations.
Open Scope Z_scope.
Local Open Scope string_scope.

(** ** C81: texts of requests and answers *)

(** C81.  A text is read as a value exactly if it is JSON (RFC 8259), stands for this value, and nests at most 127 arrays and objects. *)
Theorem C81_value : forall representable text j, read_json representable text = Some j <-> json_text_of representable text j /\ (nesting j <= 127)%nat.
Proof. exact read_json_exact. Qed.
Print Assumptions C81_value.
(** C81.  A text that does not have the form of JSON is refused. *)
Theorem C81_refused : forall representable text, ~ json_form text -> read_json representable text = None.
Proof. exact read_json_refuses. Qed.
Print Assumptions C81_refused.
(** C81.  A text stands for one value at most. *)
Theorem C81_one : forall representable text j j', json_text_of representable text j -> json_text_of representable text j' -> j = j'.
Proof. exact one_value. Qed.
Print Assumptions C81_one.
(** C81.  What is written stands for what was to be written, whatever characters there are in its strings. *)
Theorem C81_written : forall representable j, writable representable j -> json_text_of representable (json_text j) j.
Proof. exact written_text. Qed.
Print Assumptions C81_written.
(** C81.  The body of a request is JSON that says what was asked for. *)
Theorem C81_request : forall representable rq, Forall (fun s => is_text (bytes_of s)) (rq_collections rq) ->
  text_of_optional (rq_horizon rq) -> text_of_optional (rq_ref rq) -> text_of_optional (rq_var rq) ->
  exists ms, json_text_of representable (request_body rq) (JObject ms) /\ has_member ms "collections" (JArray (map JString (rq_collections rq))) /\
    has_member ms "forecast:perturbed" (JBool (rq_perturbed rq)) /\ may_have ms "forecast:horizon" (rq_horizon rq) /\
    may_have ms "forecast:reference_datetime" (rq_ref rq) /\ may_have ms "forecast:variable" (rq_var rq) /\
    (forall m, In m ms -> In (fst m) ["collections"; "forecast:perturbed"; "forecast:horizon"; "forecast:reference_datetime"; "forecast:variable"]).
Proof. exact c81_request_proof. Qed.
Print Assumptions C81_request.
(** C81.  What a search gives is what the text of the service's answer says; and everything that this text says can be its result. *)
Theorem C81_search : forall representable te rq o, sv_search (swiss_service (json_servers representable te)) rq o ->
  exists answer, te_post te "https://data.geo.admin.ch/api/stac/v1/search" (request_body rq) answer /\ answer_decoded representable lists answer o.
Proof. exact c81_search_proof. Qed.
Print Assumptions C81_search.
Theorem C81_search_any : forall representable te rq text j o, te_post te "https://data.geo.admin.ch/api/stac/v1/search" (request_body rq) (Ok text) ->
  json_text_of representable text j -> (nesting j <= 127)%nat -> decoded lists (Ok j) o -> sv_search (swiss_service (json_servers representable te)) rq o.
Proof. exact c81_search_any_proof. Qed.
Print Assumptions C81_search_any.
(** C81.  The same for the list of the constant files. *)
Theorem C81_assets : forall representable te o, sv_assets (swiss_service (json_servers representable te)) o ->
  exists answer, te_get te "https://data.geo.admin.ch/api/stac/v1/collections/ch.meteoschweiz.ogd-forecasting-icon-ch1/assets" answer /\
    answer_decoded representable lists_assets answer o.
Proof. exact c81_assets_proof. Qed.
Print Assumptions C81_assets.
Theorem C81_assets_any : forall representable te text j o,
  te_get te "https://data.geo.admin.ch/api/stac/v1/collections/ch.meteoschweiz.ogd-forecasting-icon-ch1/assets" (Ok text) ->
  json_text_of representable text j -> (nesting j <= 127)%nat -> decoded lists_assets (Ok j) o -> sv_assets (swiss_service (json_servers representable te)) o.
Proof. exact c81_assets_any_proof. Qed.
Print Assumptions C81_assets_any.

(** White space, escapes, a character above FFFF in two halves, numbers, and a name that occurs twice. *)
Definition sample_text : string := " { ""a"" : [ 1, -2.5e+3 ,0 , true,null ] ,""a"":""\u00e9\uD83D\ude00\n\/"" , ""\"""" : { } } ".
Definition sample_value : json :=
  JObject [("a", JArray [JNumber "1"; JNumber "-2.5e+3"; JNumber "0"; JBool true; JNull]);
           ("a", JString (str_of [195; 169; 240; 159; 152; 128; 10; 47])); ("""", JObject [])].
Example C81_sample : json_text_of (fun _ => true) sample_text sample_value.
Proof. apply C81_value. vm_compute. reflexivity. Qed.
(** Texts that are refused. *)
Example C81_bad : Forall (fun text => read_json (fun _ => true) text = None)
  ["[1,]"; "[1 2]"; "{""a""}"; "{""a"":1,}"; "{a:1}"; "01"; "1."; ".5"; "+1"; "1e"; "nul"; "True"; "[] []"; "[1"; """\x"""; """\u12"""; "'a'"; ""; " ";
   String "034" (String "010" (String "034" ""))].
Proof. repeat constructor. Qed.
(** The limit is 127: 127 arrays in each other are read, 128 are not. *)
Definition arrays (n : nat) : string := Nat.iter n (append "[") "" ++ Nat.iter n (append "]") "".
Example C81_deep : (exists j, read_json (fun _ => true) (arrays 127) = Some j /\ nesting j = 127%nat) /\ read_json (fun _ => true) (arrays 128) = None.
Proof. split; [|vm_compute; reflexivity]. eexists. split; vm_compute; reflexivity. Qed.
(** A value with all kinds of characters can be written: quotation marks, control characters and characters above 7F. *)
Definition hard : string := String "034" (String "\" (String "000" (String "031" (str_of [195; 169])))).
Example C81_hard : writable (fun _ => true) (JObject [(hard, JArray [JString hard; JNumber "12"])]) /\ escape hard = "\""\\\u0000\u001f" ++ str_of [195; 169].
Proof.
  assert (T : is_text (bytes_of hard)) by (apply utf8_valid_text; vm_compute; reflexivity). split; [|vm_compute; reflexivity].
  constructor. constructor; [|constructor]. split; [exact T|]. constructor. constructor; [now constructor|]. constructor; [|constructor]. constructor; [|reflexivity].
  exists "", "12", "", "". split; [reflexivity|]. split; [now left|]. split; [|split; now left]. right. exists "1"%char, 1, "2". split; [now apply digit_of_digit|]. split; [lia|]. split; [|reflexivity].
  right. exists 2. apply numeral_spec. split; [discriminate|reflexivity].
Qed.
(** A server that answers with the text of an answer, and what the search gives. *)
Definition answering (text : string) : text_servers :=
  {| te_post := fun _ _ o => o = Ok text; te_get := fun _ o => o = Err EIo; te_file := fun _ o => o = Err EIo; te_bunzip := fun b => b; te_local := fun _ o => o = Err EIo |}.
Example C81_found : sv_search (swiss_service (json_servers (fun _ => true) (answering (json_text (sample_answer [("a", sample_asset "https://a"); ("b", sample_asset "https://b")])))))
  latest_request (Ok [sample_found ["https://a"; "https://b"]]).
Proof.
  eapply C81_search_any; [reflexivity| |
    |left; exists [sample_found ["https://a"; "https://b"]]; split; [exact (proj2 C67_sample)|reflexivity]]; [|vm_compute; repeat constructor].
  apply C81_value. split; vm_compute; reflexivity.
Qed.
