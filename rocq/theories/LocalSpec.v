(** The vocabulary of the property about the files of the machine itself (C88). *)
From Coq Require Import String ZArith List Bool.
From Verif Require Import Base Text ForecastModel FetchModel DwdModel SwissModel ServiceModel ReqModel.
Import ListNotations.
Open Scope Z_scope.
Local Open Scope string_scope.

(** The name is a web address. *)
Definition on_web (name : string) : Prop := exists rest, name = "http://" ++ rest \/ name = "https://" ++ rest.
(** The same servers, asked by a machine with other files. *)
Definition with_files (se : servers) (local : fetcher) : servers :=
  {| se_post := se_post se; se_json := se_json se; se_file := se_file se; se_bunzip := se_bunzip se; se_local := local |}.
(** The service can name the file, as a constant or as a forecast. *)
Definition can_name (sv : service) (u : string) : Prop :=
  (exists assets a, sv_assets sv (Ok assets) /\ In a assets /\ as_href a = u) \/
  (exists rq features f, sv_search sv rq (Ok features) /\ In f features /\ In u (ft_hrefs f)).
(** The file was opened; or asked about. *)
Definition opened (u : string) (tr : list event) : Prop := In (Asked (AskFile u)) tr.
Definition asked_about (u : string) (tr : list event) : Prop := In (Asked (AskHead u)) tr.
