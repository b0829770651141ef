(** The vocabulary of the properties of requests and answers (C66-C68). *)
From Coq Require Import Ascii String ZArith List Bool Permutation.
From Verif Require Import Base Text TextSpec FetchModel SwissModel SwissSpec ServiceModel.
Import ListNotations.
Open Scope Z_scope.
Local Open Scope string_scope.

(** ** Answers *)

(** The object has exactly one member of this name, with this value. *)
Definition has_member (ms : list (string * json)) (name : string) (v : json) : Prop :=
  exists earlier later, ms = (earlier ++ (name, v) :: later)%list /\ forall m, In m (earlier ++ later)%list -> fst m <> name.
(** A record: an object with these members and possibly others, or an array of just these values. *)
Definition record_of (names : list string) (j : json) (values : list json) : Prop :=
  (exists ms, j = JObject ms /\ Forall2 (has_member ms) names values) \/ (j = JArray values /\ length values = length names).
(** The link of an asset. *)
Definition links_to (j : json) (href : string) : Prop := exists title, record_of ["title"; "href"] j [JString title; JString href].
(** The links of the assets, in any order; if a name occurs twice, that of the last one. *)
Definition last_member (ms : list (string * json)) (m : string * json) : Prop :=
  exists earlier later, ms = (earlier ++ m :: later)%list /\ forall m', In m' later -> fst m' <> fst m.
Definition links (ms : list (string * json)) (hrefs : list string) : Prop :=
  (forall m, In m ms -> exists href, links_to (snd m) href) /\
  exists kept, NoDup (map fst kept) /\ (forall m, In m kept <-> last_member ms m) /\ exists l, Permutation kept l /\ Forall2 (fun m href => links_to (snd m) href) l hrefs.
(** What an element of the answer says about a file. *)
Definition says (j : json) (f : feature) : Prop :=
  exists id datetime variable properties ms,
    record_of ["id"; "properties"; "assets"] j [JString id; properties; JObject ms] /\
    record_of ["datetime"; "title"; "forecast:reference_datetime"; "forecast:horizon"; "forecast:variable"] properties
      [JString datetime; JString (ft_title f); JString (ft_ref f); JString (ft_horizon f); JString variable] /\
    links ms (ft_hrefs f).
(** What the whole answer says. *)
Definition lists (j : json) (fs : list feature) : Prop :=
  exists stamp elements, record_of ["timeStamp"; "features"] j [JString stamp; JArray elements] /\ Forall2 says elements fs.
Definition lists_assets (j : json) (l : list asset) : Prop :=
  exists elements, record_of ["assets"] j [JArray elements] /\
    Forall2 (fun e a => exists title, record_of ["id"; "title"; "href"] e [JString (as_id a); JString title; JString (as_href a)]) elements l.

(** ** Requests *)

(** The two bodies that the program sends. *)
Definition latest_body : string :=
  "{""collections"":[""ch.meteoschweiz.ogd-forecasting-icon-ch1""],""forecast:horizon"":""P0DT00H00M00S"",""forecast:perturbed"":false,""forecast:variable"":""T_2M""}".
Definition files_body (v : swiss_var) (t : datetime) (body : string) : Prop :=
  exists time, time_text t time /\
    body = "{""collections"":[""ch.meteoschweiz.ogd-forecasting-icon-ch1""],""forecast:perturbed"":false,""forecast:reference_datetime"":""" ++ time ++
           """,""forecast:variable"":""" ++ var_text v ++ """}".
(** The answer of a server is decoded if it says something, and refused otherwise; an error is passed on. *)
Definition decoded {A} (says : json -> A -> Prop) (answer : outcome json) (o : outcome A) : Prop :=
  match answer with
  | Ok j => (exists a, says j a /\ o = Ok a) \/ (o = Err EInvalid /\ forall a, ~ says j a)
  | Err e => o = Err e
  | Panic => o = Panic
  end.
