(** The property C79, about the requests that are sent to the services. *)
From Coq Require Import Ascii String ZArith List Bool Lia Permutation.
From Verif Require Import Base F32 Grib2FloatProofs GeoModel Par TileModel TileProperties ChartModel Text ForecastModel ForecastSpec FetchModel FetchSpec DwdModel DwdSpec DwdProofs
  DwdProperties SwissModel SwissSpec SwissProofs SwissProperties CliModel CliSpec ReqModel ReqSpec ReqProofs.
Import ListNotations.
Open Scope Z_scope.

(** C79.  The program with the record of its requests does the same as the one without: each execution of the one belongs to one of the other. *)
Theorem C79_same : forall w a t printed code, main w a t printed code <-> exists tr, l_main w a tr printed code /\ done tr = t.
Proof. exact c79_same_proof. Qed.
Print Assumptions C79_same.
(** C79.  It asks the service of the model only; for an unknown model it asks nothing. *)
Theorem C79_service : forall w a tr printed code, l_main w a tr printed code ->
  (ar_model a = "icon-ch1"%string /\ (exists r, l_swiss_render (wo_chk w) (wo_powi w) (wo_rfc3339 w) (wo_service w) (wo_libm w) (wo_faulty w) (ar_steps a) (ar_variables a) tr r)) \/
  (exists model, (ar_model a = "icon-d2"%string /\ model = IconD2 \/ ar_model a = "icon-eu"%string /\ model = IconEu) /\
     exists r, l_dwd_render (wo_chk w) (wo_powi w) (wo_fetch w) (wo_libm w) (wo_faulty w) (wo_heads w) (wo_today w) (wo_today' w) model (ar_variables a) (ar_steps a) tr r) \/
  (~ In (ar_model a) ["icon-ch1"; "icon-d2"; "icon-eu"]%string /\ tr = []).
Proof. exact c79_service_proof. Qed.
Print Assumptions C79_service.
(** C79.  German service: first the questions which files are there, all before anything else is done; then requests for files of the run
    that was found, and only for those that the named layers and the selected steps need.  If the call succeeds, each of them was
    sent; else some of them. *)
Theorem C79_dwd : forall chk powi fetch m faulty head today today' model variables steps tr r,
  dwd_model model -> valid_date today -> l_dwd_render chk powi fetch m faulty head today today' model variables steps tr r ->
  exists hs rest run L, tr = map Asked (map AskHead hs) ++ rest /\ (forall u, ~ In (Asked (AskHead u)) rest) /\ find_latest_run head model today today' = Ok run /\
    asks_for run (dwd_files variables steps run) L /\ some_of L (asked rest) /\ (r = Ok tt -> exactly L (asked rest)).
Proof. exact c79_dwd_proof. Qed.
Print Assumptions C79_dwd.
(** C79.  The questions: each at most once, at most 80, only about the last step of runs of today.  After a file of a run is not found, no
    other file of this run is asked about.  If a run of today is taken, each of its ten files was asked about and found, of each later run one was not, and no
    earlier run was asked about; else of each run of today one was not found. *)
Theorem C79_search : forall chk powi fetch m faulty head today today' model variables steps tr r,
  dwd_model model -> valid_date today -> l_dwd_render chk powi fetch m faulty head today today' model variables steps tr r ->
  exists hs rest run, tr = map Asked (map AskHead hs) ++ rest /\ (forall u, ~ In (Asked (AskHead u)) rest) /\ find_latest_run head model today today' = Ok run /\
    NoDup hs /\ (List.length hs <= 80)%nat /\
    (forall i j u v name later, run_before name later -> (i < j)%nat -> nth_error hs i = Some u -> nth_error hs j = Some v -> probe model today name u -> head i u <> Some 200 ->
      ~ probe model today name v) /\
    ((exists name later, run_before name later /\ run = run_of model today name /\
        (forall u, In u hs -> exists name', (name' = name \/ In name' later) /\ probe model today name' u) /\
        (forall name', In name' later -> exists i u, nth_error hs i = Some u /\ probe model today name' u /\ head i u <> Some 200) /\
        (forall u, probe model today name u -> exists i, nth_error hs i = Some u /\ head i u = Some 200)) \/
     (run = run_of IconD2 (prev_day today') "21" /\ (forall u, In u hs -> exists name later, run_before name later /\ probe model today name u) /\
        forall name later, run_before name later -> exists i u, nth_error hs i = Some u /\ probe model today name u /\ head i u <> Some 200)).
Proof. exact c79_search_proof. Qed.
Print Assumptions C79_search.
(** C79.  No file is requested more than once in a call, except cloud cover and precipitation, at most twice. *)
Theorem C79_once : forall chk powi fetch m faulty head today today' model variables steps tr r run f u,
  dwd_model model -> valid_date today -> valid_date (prev_day today') -> l_dwd_render chk powi fetch m faulty head today today' model variables steps tr r ->
  find_latest_run head model today today' = Ok run -> dwd_file_ok f -> dwd_url run f = Ok u ->
  (times_asked u tr <= match f with SingleFile ClctMod _ => 2 | SingleFile TotPrec _ => 2 | _ => 1 end)%nat.
Proof. exact c79_once_proof. Qed.
Print Assumptions C79_once.
(** C79.  Swiss service: the list of the constants, the horizontal constants, the search for the latest reference time; then for each named layer one
    search for each of its variables and the files of the selected steps.  If the call succeeds, each of these was sent; else some of them. *)
Theorem C79_swiss : forall chk powi rfc3339 sv m faulty steps variables tr r, l_swiss_render chk powi rfc3339 sv m faulty steps variables tr r ->
  exists L, swiss_asks rfc3339 sv steps (r = Ok tt) variables L /\ some_of L (asked tr) /\ (r = Ok tt -> exactly L (asked tr)).
Proof. exact c79_swiss_proof. Qed.
Print Assumptions C79_swiss.

(** The sample of C59 with the layers of rain and temperature, steps 5 and 6.  Finding: cloud cover of a step and precipitation
    between two steps are requested twice. *)
Definition rain_and_temperature : list string := ["cloud_precip"; "temp_2m"]%string.
Definition url_of (f : dwd_file) : string := match dwd_url the_run f with Ok u => u | _ => EmptyString end.
Example C79_sample : exists tr, l_dwd_render true powi_rt served flat false sample_heads today today IconD2 rain_and_temperature [5; 6] tr (Ok tt) /\
  dwd_model IconD2 /\ valid_date today /\ valid_date (prev_day today) /\ find_latest_run sample_heads IconD2 today today = Ok the_run /\
  map (fun f => times_asked (url_of f) tr) [SingleFile ClctMod 5; SingleFile TotPrec 5; SingleFile TotPrec 4; SingleFile T2m 5; SingleFile T2m 7; HeightFile 40] = [2; 2; 1; 1; 0; 0]%nat /\
  List.length (asked tr) = (5 + 10 + 14)%nat.
Proof.
  destruct C50_sample as (F & M & _ & _ & V & V').
  destruct (C59_succeeds true powi_rt served flat sample_heads today today IconD2 rain_and_temperature [5; 6] the_run 3 2 low_extent
    M V V' F low_good_run ltac:(lia) ltac:(lia) ltac:(vm_compute; reflexivity) low_addressable) as [(t & r & R) A].
  pose proof (A t r R) as ->. destruct (proj2 (dwd_shows true powi_rt served flat false sample_heads today today IconD2 rain_and_temperature [5; 6]) t (Ok tt) R) as (tr & T & _).
  exists tr. split; [exact T|]. split; [exact M|]. split; [exact V|]. split; [exact V'|]. split; [exact F|].
  destruct T as (qs & o & rest & [-> ->] & L & ->).
  assert (E : snd (l_find_run sample_heads 0 IconD2 today run_names_reversed) = Ok (Some the_run)) by (vm_compute; reflexivity). rewrite E in L. cbn [omap p_let] in L. clear E.
  destruct (pl_dwd_selected true powi_rt served flat false [5; 6] the_run rain_and_temperature _ _ L) as [_ P]. specialize (P eq_refl).
  assert (Q : forall f, times_asked (url_of f) (map Asked (fst (l_find_run sample_heads 0 IconD2 today run_names_reversed)) ++ rest) =
    List.length (filter (fun q => match q with AskFile u => String.eqb u (url_of f) | _ => false end)
      (fst (l_find_run sample_heads 0 IconD2 today run_names_reversed) ++ flat_map (files_asks the_run) (dwd_files rain_and_temperature [5; 6] the_run)))).
  { intro f. unfold times_asked. rewrite asked_app, asked_asked, !filter_app, !app_length. f_equal. now apply exact_filter. }
  split.
  - cbn [map]. rewrite !Q. vm_compute. reflexivity.
  - rewrite asked_app, asked_asked, app_length, (Permutation_length P). vm_compute. reflexivity.
Qed.
(** The sample of C60, two layers and two of three steps: 3 requests in the beginning, 3 searches and 6 files for the wind, the
    heights, and one search and 2 files for the clouds. *)
Lemma three_files v t l : listed swiss_sample (Ok tt = Ok tt) t v l -> exists a b c, l = [a; b; c].
Proof.
  intros [(features & parsed & Q & F & P & _)|[N _]]; [|now contradiction N]. cbn in Q. injection Q as ->. apply Permutation_length in P.
  inversion F as [|? p1 ? r1 _ F1]; subst. inversion F1 as [|? p2 ? r2 _ F2]; subst. inversion F2 as [|? p3 ? r3 _ F3]; subst. inversion F3; subst.
  destruct l as [|a [|b [|c [|d l]]]]; try discriminate P. now exists a, b, c.
Qed.
Example C79_swiss_sample : exists tr, l_swiss_render true powi_rt zulu swiss_sample flat false [1; 2] ["wind_10m"; "vertical_cloud"]%string tr (Ok tt) /\
  List.length (asked tr) = (3 + 3 + 6 + 1 + 1 + 2)%nat.
Proof.
  destruct C60_sample as (_ & _ & _ & t & R & _). destruct (proj2 (swiss_shows true powi_rt zulu swiss_sample flat false [1; 2] ["wind_10m"; "vertical_cloud"]%string) t (Ok tt) R) as (tr & T & _).
  destruct (C79_swiss _ _ _ _ _ _ _ _ _ _ T) as (L & S & _ & X). exists tr. split; [exact T|]. rewrite (Permutation_length (X eq_refl)). clear -S.
  destruct S as [N|assets hor N _ _|assets hor N _ _|assets hor vert time cp wi te vc vw _ _ _ _ _ W _ V _]; try (now contradiction N). specialize (W eq_refl). specialize (V eq_refl).
  inversion W; subst; clear W. inversion V; subst; clear V.
  repeat match goal with F : listed _ _ _ _ _ |- _ => apply three_files in F; destruct F as (? & ? & ? & ->) end. reflexivity.
Qed.
