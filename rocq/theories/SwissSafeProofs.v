(** Proofs about what the Swiss service can answer without ending a call in a panic (C86). *)
From Coq Require Import Ascii String ZArith Reals List Bool Lia Lra Permutation SpecFloat.
From Flocq Require Import Core.Core.
From Verif Require Import Base F32 F32Facts Grib2Model Grib2Spec Grib2Proofs Grib2DocProofs GeoModel GeoSpec GeoProofs GeoRegridProofs TileModel TileSpec ChartModel ChartSpec
  MetobinModel MetobinSpec MetobinProofs MercatorProofs Par ForecastModel ForecastSpec ForecastProofs FetchModel FetchSpec FetchProofs RenderProofs DwdModel DwdSpec DwdProofs MapSpec MapProofs
  FieldSpec FieldProofs ReqSpec ReqProofs SafeSpec SafeProofs SwissModel SwissSpec SwissProofs SwissMissingProofs SwissSafeSpec.
Import ListNotations.
Open Scope Z_scope.

Notation any := (fun _ : err => True).

(** ** The contents of the files *)
Lemma safe_data_points {T} chk powi w (missing : T) transform : wf_message chk w -> safe_data w ->
  (exists vs, calculate_data_points powi (message_meaning w) missing transform = Ok vs) \/ exists e, calculate_data_points powi (message_meaning w) missing transform = Err e.
Proof.
  intros W S. unfold safe_data in S. destruct (w5_tpl (w_5 w)) as [r e d b f|n p] eqn:E.
  - left. exact (proj1 (points_read chk powi w r e d b f missing transform W E) S).
  - right. exists EInvalid. apply (c07_unsupported_proof T powi (message_meaning w) missing transform n). unfold message_meaning. cbn [d_s5 s5_template meaning5]. rewrite E. reflexivity.
Qed.
Lemma docs_panic chk : forall fuel bs, Forall is_byte bs -> read_docs chk fuel bs = Some Panic ->
  exists ws tail, Forall (wf_message chk) ws /\ bs = concat (map message_bytes ws) ++ tail /\ Forall is_byte tail /\ read_single_doc chk tail = Panic.
Proof.
  induction fuel as [|f IH]; intros bs B E; [discriminate|]. cbn [read_docs] in E. destruct (read_single_doc chk bs) as [[d rest]|e|] eqn:R; [|discriminate|].
  - apply read_single_doc_iff in R; [|exact B]. destruct R as (w & W & -> & _). apply Forall_app in B.
    destruct (read_docs chk f rest) as [[ds|e|]|] eqn:D; try discriminate E. destruct (IH rest (proj2 B) D) as (ws & tail & Ws & -> & Bt & P).
    exists (w :: ws), tail. split; [now constructor|]. split; [cbn [map concat]; now rewrite app_assoc|]. auto.
  - exists [], bs. auto.
Qed.
Lemma docs_no_err chk : forall fuel bs e, read_docs chk fuel bs <> Some (Err e).
Proof.
  induction fuel as [|f IH]; intros bs e E; [discriminate|]. cbn [read_docs] in E. destruct (read_single_doc chk bs) as [[d rest]|?|]; try discriminate E.
  destruct (read_docs chk f rest) as [[ds|e'|]|] eqn:D; try discriminate E. exact (IH rest e' D).
Qed.
Lemma safe_docs chk P bs : safe_messages chk P bs -> all_docs chk any (fun docs => exists ws, docs = map message_meaning ws /\ Forall (wf_message chk) ws /\ P ws) bs.
Proof.
  intros [B S]. destruct (c02_terminates_proof chk bs B) as (N & _). unfold all_docs. destruct (read_multi_doc chk bs) as [o|] eqn:E; [|contradiction]. exists o. split; [reflexivity|].
  destruct o as [docs|e|]; [left|right; eauto|exfalso].
  - destruct (c02_only_concatenations_proof chk bs docs B E) as (ws & tail & e & Nw & W & Eb & -> & R). exists (map message_meaning ws). split; [reflexivity|]. exists ws. split; [reflexivity|]. split; [exact W|].
    destruct (S ws tail W Eb) as [_ Q]. apply Q; [exact Nw|]. intros w rest Ww ->. rewrite (read_single_doc_bwd chk w rest Ww) in R. discriminate R.
  - unfold read_multi_doc in E. destruct (read_docs chk (Datatypes.S (length bs)) bs) as [[[|d ds]|e|]|] eqn:D; try discriminate E.
    destruct (docs_panic chk _ bs B D) as (ws & tail & W & Eb & Bt & Pn). destruct (S ws tail W Eb) as [Np _]. apply Np. apply (single_doc_panic chk tail Bt). exact Pn.
Qed.
Lemma level_docs_map {A B} (f : A -> B) l : level_docs (map f l) = map f (level_docs l).
Proof. unfold level_docs. now rewrite skipn_map, firstn_map. Qed.
Lemma gives_of_any {A} (o : outcome A) (P : A -> Prop) : (exists a, o = Ok a /\ P a) \/ (exists e, o = Err e) -> gives any (r_of o) P.
Proof. intros [(a & E & H)|(e & E)]; [exact (gives_of any o a P E H)|exact (gives_lost any o e P E I)]. Qed.

(** ** The extent *)
Lemma swiss_on_map e : swiss_extent = Ok e -> on_map e.
Proof.
  intro E. assert (X : e = {| min_coord := {| lat := f32_lit 4203 100; lon := f32_lit (-81) 100 |}; max_coord := {| lat := f32_lit 5050 100; lon := f32_lit 1770 100 |} |}).
  { vm_compute in E. injection E as <-. vm_compute. reflexivity. }
  subst e. unfold on_map, fin_extent, fin_coord. cbn [min_coord max_coord lat lon].
  assert (F : forall n, fis_finite (f32_lit n 100) = true -> fin (f32_lit n 100)) by (intros n Fn; split; [apply f32_lit_valid|exact Fn]).
  pose proof (F 4203 eq_refl) as F1. pose proof (F (-81) eq_refl) as F2. pose proof (F 5050 eq_refl) as F3. pose proof (F 1770 eq_refl) as F4. clear F.
  assert (X : forall f s mm ex, f = S754_finite s mm ex -> ex < 0 -> xr f = (IZR (cond_Zopp s (Zpos mm)) / IZR (2 ^ (- ex)))%R) by (intros f s mm ex -> Hx; rewrite xr_F2R, F2R_neg_exp by exact Hx; reflexivity).
  assert (X1 : (42 <= xr (f32_lit 4203 100) <= 43)%R) by (rewrite (X (f32_lit 4203 100) false 11017912%positive (-18) ltac:(vm_compute; reflexivity)) by lia; cbn; lra).
  assert (X2 : (-1 <= xr (f32_lit (-81) 100) <= 0)%R) by (rewrite (X (f32_lit (-81) 100) true 13589545%positive (-24) ltac:(vm_compute; reflexivity)) by lia; cbn; lra).
  assert (X3 : (50 <= xr (f32_lit 5050 100) <= 51)%R) by (rewrite (X (f32_lit 5050 100) false 13238272%positive (-18) ltac:(vm_compute; reflexivity)) by lia; cbn; lra).
  assert (X4 : (17 <= xr (f32_lit 1770 100) <= 18)%R) by (rewrite (X (f32_lit 1770 100) false 9279898%positive (-19) ltac:(vm_compute; reflexivity)) by lia; cbn; lra).
  split; [auto|]. lra.
Qed.

(** ** Reading *)
Section Reading.
  Variables (chk : bool) (powi : f32 -> Z -> f32) (sv : service) (m : libm) (cs : list lat_lon) (e : extent) (d : f32) (u : ugrid) (t : datetime) (count : nat) (steps : list Z).
  Variables (w h : Z).
  Hypotheses (Hw : 1 <= w) (Hh : 1 <= h) (L : calc_coord_dist_lookup_map chk (unstructured_new None w h e cs) d = Ok u) (He : extent_eqb e e = true).
  Notation fetch := (sv_fetch sv).
  Notation fit := (fits w h e).
  Lemma any_regrid {T} (missing : T) transform ms : wf_message chk ms -> safe_data ms ->
    (exists g, regrid_doc powi missing transform u (message_meaning ms) = Ok g /\ fit g) \/ exists er, regrid_doc powi missing transform u (message_meaning ms) = Err er.
  Proof.
    intros W S. destruct (safe_data_points chk powi ms missing transform W S) as [H|(er & E)].
    - left. exact (regrid_fits chk powi w h e cs d u missing transform _ Hw Hh L H).
    - right. exists er. unfold regrid_doc. rewrite E. reflexivity.
  Qed.
  Lemma any_unstructured {T} (missing : T) transform url : safe (fetch url) (safe_single chk) -> gives any (fetch_unstructured chk powi fetch url missing transform u) fit.
  Proof.
    intro G. unfold fetch_unstructured, fetch_doc.
    eapply gives_bind with (P := fun doc => exists ms, doc = message_meaning ms /\ wf_message chk ms /\ safe_data ms).
    - eapply gives_bind; [exact G|]. intros bs (B & Np & S). apply gives_of_any. destruct (read_single_doc chk bs) as [[doc rest]|er|] eqn:R.
      + left. exists doc. split; [reflexivity|]. apply read_single_doc_iff in R; [|exact B]. destruct R as (ms & W & Eb & ->). exists ms. split; [reflexivity|]. split; [exact W|]. exact (S ms rest W Eb).
      + right. exists er. reflexivity.
      + destruct Np. apply (single_doc_panic chk bs B). exact R.
    - intros doc (ms & -> & W & S). apply gives_of_any. exact (any_regrid missing transform ms W S).
  Qed.
  Definition fit_levels (gs : list bgrid) : Prop := Forall fit gs /\ length gs = count.
  Lemma any_multi missing transform url : safe (fetch url) (safe_levels chk count) ->
    gives any (fetch_multi_unstructured chk powi fetch url missing transform u (Some SWISS_LEVELS)) fit_levels.
  Proof.
    intro G. unfold fetch_multi_unstructured.
    eapply gives_bind with (P := fun docs => exists ws, docs = map message_meaning ws /\ Forall (wf_message chk) ws /\ length (level_docs ws) = count /\ Forall safe_data (level_docs ws)).
    { apply gives_docs. destruct G as [Tg G]. split; [exact Tg|]. intros o Ho. destruct (G o Ho) as [(bs & -> & S)|X]; [|now right]. left. exists bs. split; [reflexivity|]. exact (safe_docs chk _ bs S). }
    intros docs (ws & -> & W & Lc & S). unfold multi_unstructured. rewrite select_levels, level_docs_map.
    assert (Wl : Forall (wf_message chk) (level_docs ws)).
    { unfold level_docs. rewrite Forall_forall in *. intros x J. apply W. rewrite <- (firstn_skipn 31 ws). apply in_or_app. right. rewrite <- (firstn_skipn 49 (skipn 31 ws)). apply in_or_app. now left. }
    revert Lc S Wl. generalize (level_docs ws). clear W. intros l Lc S W.
    assert (All : forall doc, In doc (map message_meaning l) -> (exists g, regrid_doc powi missing transform u doc = Ok g /\ fit g) \/ exists er, regrid_doc powi missing transform u doc = Err er).
    { intros doc J. apply in_map_iff in J. destruct J as (ms & <- & J). rewrite Forall_forall in *. apply any_regrid; auto. }
    split.
    - assert (X : (exists gs, Forall2 (fun doc g => regrid_doc powi missing transform u doc = Ok g) (map message_meaning l) gs) \/ exists doc er, In doc (map message_meaning l) /\ regrid_doc powi missing transform u doc = Err er).
      { clear -All. induction (map message_meaning l) as [|x xs IH]; [left; exists []; constructor|]. destruct (All x (or_introl eq_refl)) as [(g & E & _)|(er & E)]; [|right; exists x, er; split; [now left|exact E]].
        destruct IH as [(gs & F)|(doc & er & J & E')]; [intros; apply All; now right|left; exists (g :: gs); now constructor|right; exists doc, er; split; [now right|exact E']]. }
      destruct X as [(gs & F)|(doc & er & J & E)]; [exists (Ok gs); now constructor|exists (Err er); exact (par_err _ _ doc er J E)].
    - intros o R. destruct R as [ys F|doc er J E|doc J E].
      + left. exists ys. split; [reflexivity|]. split.
        * clear Lc S W. revert All. induction F as [|x y xs ys E F IH]; intro All; constructor; [|apply IH; intros; apply All; now right].
          destruct (All x (or_introl eq_refl)) as [(g & E' & Fg)|(er & E')]; [|congruence]. rewrite E in E'. injection E' as ->. exact Fg.
        * pose proof (forall2_len _ _ _ F) as Lf. rewrite map_length in Lf. transitivity (length l); [symmetry; exact Lf|exact Lc].
      + right. eauto.
      + exfalso. destruct (All doc J) as [(g & E' & _)|(er & E')]; congruence.
  Qed.

  (** ** The lists of files *)
  Hypotheses (Hc : (1 <= count)%nat) (V : valid_time t) (A : tiles_addressable chk m (swiss_run_of t) e).
  Definition listed (v : swiss_var) (l : list swiss_step) : Prop := exists features, sv_search sv (file_request v t) (Ok features) /\ length l = length features /\
    Forall (fun s => safe (fetch (ss_href s)) (safe_file chk count v)) l.
  Lemma described_unique features p q : Forall2 described features p -> Forall2 described features q -> p = q.
  Proof.
    intros F. revert q. induction F as [|x y l ys D F IH]; intros q F'; inversion F' as [|? z ? ? D' F'']; subst; [reflexivity|]. f_equal; [|auto].
    destruct D as (E1 & E2 & m1 & E3), D' as (E1' & E2' & m2 & E3'). rewrite E2 in E2'. rewrite E3 in E3'. injection E2' as E2'. injection E3' as E3' _.
    destruct y as [yt yh yr], z as [zt zh zr]. cbn in *. congruence.
  Qed.
  Lemma any_files v : safe (sv_search sv (file_request v t)) (safe_listing chk sv count v) -> gives any (find_files chk sv v t) (listed v).
  Proof.
    intros [T H]. split.
    - destruct T as (o & Ho). unfold find_files, r_bind.
      change (swiss_request (Some (ref_name t)) None (Some (swiss_var_name v))) with (file_request v t).
      destruct o as [features|er|]; eexists; eexists; (split; [exact Ho|]); reflexivity.
    - intros r R. apply c52_files_proof in R. destruct R as (a & Sa & R). destruct (H a Sa) as [(features & -> & S)|(er & -> & _)]; [|right; eauto].
      destruct R as [(p & l & -> & F & P & _)|[[-> _]|(_ & Ck & p & F & L2 & NS)]].
      + left. exists l. split; [reflexivity|]. exists features. split; [exact Sa|]. split; [rewrite <- (Permutation_length P); symmetry; exact (forall2_len _ _ _ F)|].
        destruct (S p F) as [_ Al]. rewrite Forall_forall in *. intros s J. apply Al. eapply Permutation_in; [symmetry; exact P|exact J].
      + right. eauto.
      + exfalso. apply NS. exact (proj1 (S p F) Ck L2).
  Qed.
  Lemma any_live_run (q : fc_run -> prog effect) : live any (q (swiss_run_of t)) -> live any (p_let (swiss_run t) q).
  Proof.
    intro Lq. unfold swiss_run. rewrite (c53_run_name_proof t V). destruct (dt_hour t mod 3 =? 0); [exact Lq|]. cbn [omap p_let].
    split; [exists [], (Err EInvalid); split; reflexivity|]. intros tr r [_ ->]. right. eauto.
  Qed.
  Lemma any_live_steps v skip (q : list fc_step -> prog effect) : safe (sv_search sv (file_request v t)) (safe_listing chk sv count v) ->
    (forall l, listed v l -> live any (q (number_steps skip l))) -> live any (p_call (swiss_steps chk sv v t skip) q).
  Proof.
    intros S H. assert (G : gives any (swiss_steps chk sv v t skip) (fun ss => exists l, listed v l /\ ss = number_steps skip l)).
    { unfold swiss_steps. eapply gives_bind; [exact (any_files v S)|]. intros l Ll. eapply gives_of; [reflexivity|]. eauto. }
    destruct G as [T R]. apply live_call; [exact T|]. intros o Ho. destruct (R o Ho) as [(ss & -> & l & Gl & ->)|X]; [left; eauto|now right].
  Qed.
  Lemma listed_nth v l n : listed v l -> (n < length l)%nat -> exists f, nth_error l n = Some f /\ safe (fetch (ss_href f)) (safe_file chk count v).
  Proof.
    intros (features & _ & E & F) Ln. destruct (nth_error l n) as [f|] eqn:N; [|apply nth_error_None in N; lia]. exists f. split; [reflexivity|]. rewrite Forall_forall in F. exact (F f (nth_error_In _ _ N)).
  Qed.
  Lemma any_lookup {B} v skip l n (q : fc_step -> result B) P : listed v l -> (n < length l)%nat -> (skip = true -> (1 <= n)%nat) ->
    (forall s, safe (fetch (st_url s)) (safe_file chk count v) -> gives any (q s) P) ->
    gives any (r_bind (r_of (unwrap (step_by_nr (number_steps skip l) (Z.of_nat n)))) q) P.
  Proof.
    intros Gl Ln Hs H. destruct (listed_nth v l n Gl Ln) as (f & N & Gf). rewrite (lookup_some skip l n f N Hs). cbn [unwrap]. eapply gives_bind; [eapply (gives_of _ _ _ (eq _)); reflexivity|]. intros ? <-. apply H. exact Gf.
  Qed.
  (** A lookup that may fail. *)
  Lemma any_lookup_err {B} v l n (q : fc_step -> result B) P : listed v l ->
    (forall s, safe (fetch (st_url s)) (safe_file chk count v) -> gives any (q s) P) ->
    gives any (r_bind (r_of (step_by_nr (number_steps false l) (Z.of_nat n))) q) P.
  Proof.
    intros Gl H. destruct (step_case (number_steps false l) (Z.of_nat n)) as [(s & E)|E]; rewrite E.
    - eapply gives_bind; [eapply (gives_of _ _ _ (eq _)); reflexivity|]. intros ? <-. apply H. apply lookup_ok in E. destruct E as (f & N & _ & -> & _).
      destruct Gl as (features & _ & _ & F). rewrite Forall_forall in F. exact (F f (nth_error_In _ _ N)).
    - eapply gives_bind with (P := fun _ => False); [eapply gives_lost; [reflexivity|exact I]|intros ? []].
  Qed.
  Lemma step_place v skip l s : listed v l -> In s (number_steps skip l) -> wanted steps s ->
    exists n, st_nr s = Z.of_nat n /\ (n < length l)%nat /\ (skip = true -> (1 <= n)%nat) /\ wanted_step steps n.
  Proof.
    intros _ J W. apply number_in in J. destruct J as (i & f & N & Hs & ->). exists i. split; [reflexivity|]. split; [apply nth_error_Some; congruence|]. split; [exact Hs|exact W].
  Qed.
  Notation run := (swiss_run_of t).
  Lemma any_addressable {T} (g : value_grid T) : fit g -> tiles_addressable chk m run (g_extent (vg_grid g)).
  Proof. intros (_ & E & _). unfold extent_of in E. now rewrite E. Qed.
  Notation listing v := (safe (sv_search sv (file_request v t)) (safe_listing chk sv count v)).

  (** ** The layers *)
  Lemma any_temp : listing ST2m -> live any (swiss_temp chk powi sv m false steps u t).
  Proof.
    intro G1. destruct (kind_in chk m) as (K1 & K2 & K3 & K4 & K5). apply any_live_run. apply (any_live_steps _ _ _ G1). intros l Gl.
    assert (X : forall s, In s (number_steps false l) -> gives any (swiss_read_temp chk powi fetch (number_steps false l) u s) (computable chk m (temp_kind chk m) run)).
    { intros s J. apply number_in in J. destruct J as (n & f & N & Hs & ->). unfold swiss_read_temp. cbn [st_nr]. apply (any_lookup ST2m false l n _ _ Gl ltac:(apply nth_error_Some; congruence) Hs). intros s' Gs.
      eapply gives_impl; [|exact (any_unstructured _ _ _ Gs)]. intros g F. apply (c46_temp_data_proof chk m run g w h); [now apply any_addressable|apply F|lia|lia|apply F]. }
    apply (render_live any chk m _ K3 run _ steps _ (swiss_valid t V) (proj1 (numbering_steps false l))); [intros s J; exact (proj1 (X s J))|]. intros s o J _ R. exact (proj2 (X s J) o R).
  Qed.
  Lemma any_wind : listing SU10m -> listing SV10m -> listing SVmax10m -> live any (swiss_wind chk powi sv m false steps u t).
  Proof.
    intros G1 G2 G3. destruct (kind_in chk m) as (K1 & K2 & K3 & K4 & K5). apply any_live_run. apply (any_live_steps _ _ _ G1). intros lu Gu. apply (any_live_steps _ _ _ G2). intros lv Gv. apply (any_live_steps _ _ _ G3). intros lg Gg.
    assert (X : forall s, In s (number_steps false lu) -> gives any (swiss_read_wind chk powi fetch (number_steps false lu) (number_steps false lv) (number_steps false lg) u s) (computable chk m (wind_kind chk m) run)).
    { intros s J. apply number_in in J. destruct J as (n & f & N & _ & ->). unfold swiss_read_wind. cbn [st_nr].
      apply (any_lookup_err SU10m lu n _ _ Gu). intros s1 S1. apply (any_lookup_err SV10m lv n _ _ Gv). intros s2 S2. apply (any_lookup_err SVmax10m lg n _ _ Gg). intros s3 S3.
      eapply gives_bind; [exact (any_unstructured _ _ _ S1)|]. intros a Fa. eapply gives_bind; [exact (any_unstructured _ _ _ S2)|]. intros b Fb. eapply gives_bind; [exact (any_unstructured _ _ _ S3)|]. intros c Fc.
      eapply gives_of.
      - unfold wind_new. rewrite (fits_dims w h e a b), (fits_extents w h e He a b), (fits_dims w h e c a), (fits_extents w h e He c a) by assumption. cbn [negb]. reflexivity.
      - apply (c46_wind_data_proof chk m run _ w h); cbn [wl_zonal wl_meridional wl_gusts]; [now apply any_addressable|apply Fa|lia|lia|apply Fa|apply Fb|]. intros g' Eg. injection Eg as <-. apply Fc. }
    apply (render_live any chk m _ K2 run _ steps _ (swiss_valid t V) (proj1 (numbering_steps false lu))); [intros s J; exact (proj1 (X s J))|]. intros s o J _ R. exact (proj2 (X s J) o R).
  Qed.
  (** Reading always gives something. *)
  Hypothesis T : forall url, exists o, fetch url o.
  Lemma tot_unstructured {T'} (missing : T') transform url : exists o, fetch_unstructured chk powi fetch url missing transform u o.
  Proof. unfold fetch_unstructured, fetch_doc. tot. apply T. Qed.
  Lemma tot_multi (missing : Z) transform url : exists o, fetch_multi_unstructured chk powi fetch url missing transform u (Some SWISS_LEVELS) o.
  Proof.
    unfold fetch_multi_unstructured, fetch_docs. apply tot_bind; [apply tot_bind; [apply T|intro; tot]|].
    - intro docs. unfold multi_unstructured. generalize (select_docs (Some SWISS_LEVELS) docs). intro l.
      assert (X : (exists gs, Forall2 (fun doc g => regrid_doc powi missing transform u doc = Ok g) l gs) \/ exists doc, In doc l /\ (regrid_doc powi missing transform u doc = Panic \/ exists er, regrid_doc powi missing transform u doc = Err er)).
      { induction l as [|x l [(gs & F)|(doc & J & E)]]; [left; exists []; constructor| |right; exists doc; split; [now right|exact E]].
        destruct (regrid_doc powi missing transform u x) as [g|er|] eqn:E; [left; exists (g :: gs); now constructor|right; exists x; split; [now left|right; eauto]|right; exists x; split; [now left|now left]]. }
      destruct X as [(gs & F)|(doc & J & [E|(er & E)])]; [exists (Ok gs); now constructor|exists Panic; exact (par_panic _ _ doc J E)|exists (Err er); exact (par_err _ _ doc er J E)].
  Qed.
  Notation enough ty := (safe_numbers sv steps t ty).
  Lemma enough_files ty v main other n : enough ty -> ty <> Wind10m -> In v (other_vars ty) -> listed (main_var ty) main -> listed v other ->
    (first_step ty <= n < length main)%nat -> wanted_step steps n -> (n < length other)%nat.
  Proof. intros E N J (fm & Sm & Lm & _) (fo & So & Lo & _) B W. rewrite Lo. exact (E N v fm fo J Sm So n ltac:(lia) W). Qed.
  Lemma any_cloud : listing SClct -> listing STotPrec -> listing SCeiling -> enough CloudPrecip -> live any (swiss_cloud_precip chk powi sv m false steps u t).
  Proof.
    intros G1 G2 G3 En. destruct (kind_in chk m) as (K1 & K2 & K3 & K4 & K5). apply any_live_run. apply (any_live_steps _ _ _ G1). intros lc Gc. apply (any_live_steps _ _ _ G2). intros lp Gp. apply (any_live_steps _ _ _ G3). intros le Ge.
    apply (render_live any chk m _ K1 run _ steps _ (swiss_valid t V) (proj1 (numbering_steps true lc))).
    { intros s _. unfold swiss_read_cloud_precip_weather, swiss_read_cloud_precip, swiss_read_weather. tot; apply tot_unstructured. }
    intros s o J Wd. revert o. refine (proj2 (_ : gives any (swiss_read_cloud_precip_weather chk powi fetch (number_steps true lc) (number_steps false lp) (number_steps false le) u s) (computable chk m (cloud_precip_kind chk m) run))).
    destruct (step_place SClct true lc s Gc J Wd) as (n & Es & Ln & Hs & Wn). specialize (Hs eq_refl). unfold swiss_read_cloud_precip_weather.
    assert (Lp : (n < length lp)%nat) by exact (enough_files CloudPrecip STotPrec lc lp n En ltac:(discriminate) ltac:(cbn; auto) Gc Gp (conj Hs Ln) Wn).
    assert (Le : (n < length le)%nat) by exact (enough_files CloudPrecip SCeiling lc le n En ltac:(discriminate) ltac:(cbn; auto) Gc Ge (conj Hs Ln) Wn).
    eapply gives_bind with (P := fun cp => fit (cp_cloud cp) /\ fit (cp_precip0 cp) /\ fit (cp_precip1 cp)).
    - unfold swiss_read_cloud_precip. rewrite Es. apply (any_lookup SClct true lc n _ _ Gc Ln (fun _ => Hs)). intros s1 S1.
      eapply gives_bind; [eapply (gives_of _ _ (Z.of_nat (n - 1)) (eq (Z.of_nat (n - 1)))); [|reflexivity]; unfold usub; destruct (Z.leb_spec 1 (Z.of_nat n)); [f_equal; lia|lia]|]. intros ? <-.
      apply (any_lookup STotPrec false lp (n - 1) _ _ Gp ltac:(lia)); [discriminate|]. intros s2 S2. apply (any_lookup STotPrec false lp n _ _ Gp Lp); [discriminate|]. intros s3 S3.
      eapply gives_bind; [exact (any_unstructured _ _ _ S1)|]. intros c Fc. eapply gives_bind; [exact (any_unstructured _ _ _ S2)|]. intros p0 F0. eapply gives_bind; [exact (any_unstructured _ _ _ S3)|]. intros p1 F1.
      eapply gives_of; [unfold cloud_precip_new; rewrite (fits_dims w h e c p0), (fits_dims w h e p0 p1), (fits_extents w h e He c p0), (fits_extents w h e He p0 p1) by assumption; reflexivity|]. cbn. auto.
    - intros cp (Fc & F0 & F1). eapply gives_bind with (P := fun we => fit (we_clct we) /\ fit (we_ceiling we) /\ we_ww we = None).
      + unfold swiss_read_weather. rewrite Es. apply (any_lookup SClct true lc n _ _ Gc Ln (fun _ => Hs)). intros s1 S1. apply (any_lookup SCeiling false le n _ _ Ge Le); [discriminate|]. intros s2 S2.
        eapply gives_bind; [exact (any_unstructured _ _ _ S1)|]. intros c Fc'. eapply gives_bind; [exact (any_unstructured _ _ _ S2)|]. intros ce Fce.
        eapply gives_of; [unfold weather_new; rewrite (fits_dims w h e c ce), (fits_extents w h e He c ce) by assumption; reflexivity|]. cbn. auto.
      + intros we (Fw & Fce & Nw). eapply gives_of; [reflexivity|].
        apply (c46_cloud_precip_data_proof chk m run cp we w h) with (w' := w) (h' := h); [now apply any_addressable|apply Fc|lia|lia|apply Fc|apply F0|apply F1|apply Fw|lia|lia|apply Fw|apply Fce|].
        intros x y _ _. unfold ww_by_xy. rewrite Nw. discriminate.
  Qed.
  Lemma levels_complete gs : fit_levels gs -> Forall complete gs.
  Proof. intros [F _]. eapply Forall_impl; [|exact F]. intros g (_ & _ & C). exact C. Qed.
  Lemma levels_head gs : fit_levels gs -> exists g, hd_error gs = Some g /\ dims g = (w, h).
  Proof. intros [F Lg]. destruct gs as [|g gs]; cbn in Lg; [lia|]. exists g. split; [reflexivity|]. inversion F as [|? ? (D & _) _]. exact D. Qed.
  Lemma levels_len gs gs' : fit_levels gs -> fit_levels gs' -> len gs = len gs' /\ len gs <> 0.
  Proof. intros [_ E] [_ E']. unfold len. rewrite E, E'. lia. Qed.
  Lemma any_vc hhl : fit_levels hhl -> listing SClc -> live any (swiss_vertical_cloud chk powi sv false steps u t hhl).
  Proof.
    intros Fh G1. destruct (kind_in chk m) as (K1 & K2 & K3 & K4 & K5). apply any_live_run. apply (any_live_steps _ _ _ G1). intros l Gl.
    assert (X : forall s, In s (number_steps false l) -> gives any (swiss_read_vertical_cloud chk powi fetch (number_steps false l) u hhl s) (computable chk m vertical_cloud_kind run)).
    { intros s J. apply number_in in J. destruct J as (n & f & N & Hs & ->). unfold swiss_read_vertical_cloud. cbn [st_nr]. apply (any_lookup SClc false l n _ _ Gl ltac:(apply nth_error_Some; congruence) Hs). intros s' Gs.
      eapply gives_bind; [exact (any_multi _ _ _ Gs)|]. intros clc Fc. destruct (levels_len hhl clc Fh Fc) as [E Nn]. destruct (levels_head clc Fc) as (g & Hg & Dg).
      assert (X : vertical_cloud_new hhl clc = Ok {| vc_hhl := hhl; vc_clc := clc |}).
      { unfold vertical_cloud_new. rewrite <- E, Z.eqb_refl. destruct (Z.eqb_spec (len hhl) 0); [contradiction|reflexivity]. }
      eapply gives_of; [exact X|]. apply (c46_vertical_cloud_data_proof chk m run hhl clc _ g w h X Hg Dg); [lia|lia|now apply levels_complete|now apply levels_complete]. }
    apply (render_live any chk m _ K4 run _ steps _ (swiss_valid t V) (proj1 (numbering_steps false l))); [intros s J; exact (proj1 (X s J))|]. intros s o J _ R. exact (proj2 (X s J) o R).
  Qed.
  Lemma any_vw hhl : fit_levels hhl -> listing SU -> listing SV -> enough VerticalWind -> live any (swiss_vertical_wind chk powi sv false steps u t hhl).
  Proof.
    intros Fh G1 G2 En. destruct (kind_in chk m) as (K1 & K2 & K3 & K4 & K5). apply any_live_run. apply (any_live_steps _ _ _ G1). intros lu Gu. apply (any_live_steps _ _ _ G2). intros lv Gv.
    apply (render_live any chk m _ K5 run _ steps _ (swiss_valid t V) (proj1 (numbering_steps false lu))).
    { intros s _. unfold swiss_read_vertical_wind. tot; apply tot_multi. }
    intros s o J Wd. revert o. refine (proj2 (_ : gives any (swiss_read_vertical_wind chk powi fetch (number_steps false lu) (number_steps false lv) u hhl s) (computable chk m vertical_wind_kind run))).
    destruct (step_place SU false lu s Gu J Wd) as (n & Es & Ln & Hs & Wn). unfold swiss_read_vertical_wind. rewrite Es.
    assert (Lv : (n < length lv)%nat) by exact (enough_files VerticalWind SV lu lv n En ltac:(discriminate) ltac:(cbn; auto) Gu Gv (conj (Nat.le_0_l n) Ln) Wn).
    apply (any_lookup SU false lu n _ _ Gu Ln Hs). intros s1 S1. apply (any_lookup SV false lv n _ _ Gv Lv); [discriminate|]. intros s2 S2.
    eapply gives_bind; [exact (any_multi _ _ _ S1)|]. intros a Fa. eapply gives_bind; [exact (any_multi _ _ _ S2)|]. intros b Fb.
    destruct (levels_len hhl a Fh Fa) as [E Nn]. destruct (levels_len hhl b Fh Fb) as [E' _]. destruct (levels_head a Fa) as (g & Hg & Dg).
    assert (X : vertical_wind_new hhl a b = Ok {| vw_hhl := hhl; vw_u := a; vw_v := b |}).
    { unfold vertical_wind_new. rewrite <- E, <- E', Z.eqb_refl. destruct (Z.eqb_spec (len hhl) 0); [contradiction|reflexivity]. }
    eapply gives_of; [exact X|]. apply (c46_vertical_wind_data_proof chk m run hhl a b _ g w h X Hg Dg); [lia|lia|now apply levels_complete|now apply levels_complete|now apply levels_complete].
  Qed.
End Reading.

(** ** C86 *)
Lemma c86_swiss_proof : forall chk powi rfc3339 sv m steps vars count, libm_accurate m -> dated rfc3339 sv -> (1 <= count)%nat -> (forall url, exists o, sv_fetch sv url o) ->
  safe_swiss chk rfc3339 sv vars steps count ->
  (exists tr r, swiss_render_latest chk powi rfc3339 sv m false steps vars tr r) /\
  forall tr r, swiss_render_latest chk powi rfc3339 sv m false steps vars tr r -> r <> Panic.
Proof.
  intros chk powi rfc sv m steps vars count Am Dt Hc T [[Ta Ha] [[Tl Hl] G]].
  assert (X : live any (swiss_render_latest chk powi rfc sv m false steps vars)); [|split; [exact (proj1 X)|intros tr r R; destruct (proj2 X tr r R) as [->|(er & -> & _)]; discriminate]].
  unfold swiss_render_latest. apply live_call; [exact Ta|]. intros o Ho. destruct (Ha o Ho) as [(l & -> & hor & vert & F1 & Gh & F2 & Gv)|X]; [|now right]. left. exists l. split; [reflexivity|].
  apply (live_let_some _ _ hor); [exact (find_asset_some _ _ _ F1)|].
  assert (X : exists e, swiss_extent = Ok e /\ extent_eqb e e = true) by (eexists; split; [reflexivity|vm_compute; reflexivity]). destruct X as (e & Ee & He).
  assert (U : gives any (read_hor_consts chk powi (sv_fetch sv) (as_href hor)) (fun u => exists cs, calc_coord_dist_lookup_map chk (unstructured_new None 1851 847 e cs) (f32_lit 1 100) = Ok u)).
  { unfold read_hor_consts.
    eapply gives_bind with (P := fun docs => exists ws, docs = map message_meaning ws /\ Forall (wf_message chk) ws /\ exists clon clat, nth_error ws 3 = Some clon /\ nth_error ws 4 = Some clat /\ safe_data clon /\ safe_data clat).
    { apply gives_docs. destruct Gh as [Tg Gh]. split; [exact Tg|]. intros o' Ho'. destruct (Gh o' Ho') as [(bs & -> & S)|X]; [|now right]. left. exists bs. split; [reflexivity|]. exact (safe_docs chk _ bs S). }
    intros docs (ws & -> & W & clon & clat & N3 & N4 & S3 & S4). apply gives_of_any. rewrite Forall_forall in W.
    assert (J4 : index_vec (map message_meaning ws) 4 = Ok (message_meaning clat)) by (apply index_vec_ok; exact (map_nth_error message_meaning 4 ws N4)).
    assert (J3 : index_vec (map message_meaning ws) 3 = Ok (message_meaning clon)) by (apply index_vec_ok; exact (map_nth_error message_meaning 3 ws N3)).
    rewrite J4, J3. cbn [obind]. rewrite Ee. cbn [obind]. unfold coordinates_from_docs.
    destruct (safe_data_points chk powi clat (f32_of_Z 255) (fun x => x) (W _ (nth_error_In _ _ N4)) S4) as [(la & ->)|(er & ->)]; [|right; eexists; reflexivity].
    destruct (safe_data_points chk powi clon (f32_of_Z 255) (fun x => x) (W _ (nth_error_In _ _ N3)) S3) as [(lo & ->)|(er & ->)]; [|right; eexists; reflexivity].
    cbn [obind]. destruct (Nat.eqb (length la) (length lo)); [|right; eexists; reflexivity]. cbn [obind]. left.
    destruct (c19_total_proof chk 1851 847 e (map (fun '(a, b) => lat_lon_new a b) (combine la lo)) (f32_lit 1 100) ltac:(lia) ltac:(lia)) as (u & Eu & _). exists u. split; [exact Eu|]. eauto. }
  destruct U as [Tu Hu]. apply live_call; [exact Tu|]. intros ou Hou. destruct (Hu ou Hou) as [(u & -> & cs & Lu)|X]; [|now right]. left. exists u. split; [reflexivity|].
  apply (live_let_some _ _ vert); [exact (find_asset_some _ _ _ F2)|].
  assert (Tf : exists ot, find_latest_ref rfc sv ot).
  { destruct Tl as (a & Sa). destruct (Hl a Sa) as [(all & -> & _)|(er & -> & _)].
    - destruct (rev all) as [|f r] eqn:Er.
      + exists (Err EInvalid). apply (proj2 (c53_find_proof _ _ _)). exists (Ok all). split; [exact Sa|]. left. split; [|reflexivity]. rewrite <- (rev_involutive all), Er. reflexivity.
      + eexists. apply (proj2 (c53_find_proof _ _ _)). exists (Ok all). split; [exact Sa|]. right. exists (rev r), f. split; [|reflexivity]. rewrite <- (rev_involutive all), Er. reflexivity.
    - exists (Err er). apply (proj2 (c53_find_proof _ _ _)). exists (Err er). auto. }
  apply live_call; [exact Tf|]. intros ot Hot.
  assert (Lt : (exists t, ot = Ok t /\ latest rfc sv t /\ valid_time t) \/ exists er, ot = Err er).
  { pose proof Hot as Hot'. apply (proj1 (c53_find_proof _ _ _)) in Hot. destruct Hot as (a & Sa & E). destruct (Hl a Sa) as [(all & -> & _)|(er & -> & _)]; [|right; eauto].
    destruct E as [[_ ->]|(fs & f & -> & E)]; [right; eauto|]. destruct (c53_parse_proof rfc (ft_ref f)) as [P1 P2].
    destruct (rfc (ft_ref f)) as [[lt off]|] eqn:Ep; [|right; exists EInvalid; rewrite E; now apply P1].
    assert (Ll : local_time lt off) by (apply (Dt latest_request (fs ++ [f]) f lt off Sa); [apply in_or_app; right; now left|exact Ep]).
    destruct (P2 lt off eq_refl Ll) as [Pa Pb].
    assert (D : (dt_minute lt = 0 /\ dt_second lt = 0 /\ dt_hour lt mod 3 = 0) \/ ~ (dt_minute lt = 0 /\ dt_second lt = 0 /\ dt_hour lt mod 3 = 0)) by lia.
    destruct D as [D|D]; [|right; exists EInvalid; rewrite E; now apply Pb]. left. destruct (Pa D) as (t & Et & Vt & _). exists t. rewrite Et in E. split; [exact E|]. split; [|exact Vt]. subst ot. now apply latest_spec. }
  destruct Lt as [(t & -> & La & V)|(er & ->)]; [|right; eauto]. left. exists t. split; [reflexivity|].
  pose proof (c64_addressable_proof chk m (swiss_run_of t) e Am (swiss_on_map e Ee)) as A.
  assert (B1 : 1 <= 1851) by lia. assert (B2 : 1 <= 847) by lia. apply selected_live.
  - intro N. destruct (G t CloudPrecip La N) as [En S]. eapply (any_cloud chk powi sv m cs e _ u t count steps 1851 847); try eassumption; apply S; cbn; auto 10.
  - intro N. destruct (G t Wind10m La N) as [En S]. eapply (any_wind chk powi sv m cs e _ u t count steps 1851 847); try eassumption; apply S; cbn; auto 10.
  - intro N. destruct (G t Temp2m La N) as [En S]. eapply (any_temp chk powi sv m cs e _ u t count steps 1851 847); try eassumption; apply S; cbn; auto 10.
  - intros _. apply (tot_multi chk powi sv u T).
  - intros N oh Hoh. destruct (proj2 (any_multi chk powi sv cs e _ u count 1851 847 B1 B2 Lu HHL_MISSING hhl_transform _ (Gv N)) oh Hoh) as [(hhl & -> & Fh)|X]; [|now right]. left. exists hhl. split; [reflexivity|]. split; intro N'.
    + destruct (G t VerticalCloud La N') as [En S]. eapply (any_vc chk powi sv m cs e _ u t count steps 1851 847); try eassumption; apply S; cbn; auto 10.
    + destruct (G t VerticalWind La N') as [En S]. eapply (any_vw chk powi sv m cs e _ u t count steps 1851 847); try eassumption; apply S; cbn; auto 10.
Qed.

(** ** Constants that end every call in a panic *)
Lemma few_docs chk ws tail : ws <> [] -> Forall (wf_message chk) ws -> Forall is_byte tail -> ~ panic_input chk tail ->
  (forall w rest, wf_message chk w -> tail <> message_bytes w ++ rest) -> read_multi_doc chk (concat (map message_bytes ws) ++ tail) = Some (Ok (map message_meaning ws)).
Proof.
  intros N W B Np Nm. destruct (read_single_doc chk tail) as [[d rest]|er|] eqn:R.
  - apply read_single_doc_iff in R; [|exact B]. destruct R as (w & Ww & E & _). destruct (Nm w rest Ww E).
  - exact (c02_concatenation_proof chk ws tail er N W B R).
  - destruct Np. apply (single_doc_panic chk tail B). exact R.
Qed.
Lemma c86_constants_proof : forall chk powi rfc3339 sv m steps vars,
  (exists o, sv_assets sv o) -> (forall url, exists o, sv_fetch sv url o) ->
  (forall o, sv_assets sv o -> exists l, o = Ok l /\
     (Forall (fun a => as_id a <> "horizontal_constants_icon-ch1-eps.grib2"%string) l \/
      exists hor, first_asset "horizontal_constants_icon-ch1-eps.grib2" l hor /\
        forall o', sv_fetch sv (as_href hor) o' -> exists ws tail, o' = Ok (concat (map message_bytes ws) ++ tail) /\
          (1 <= length ws <= 4)%nat /\ Forall (wf_message chk) ws /\ Forall is_byte tail /\ ~ panic_input chk tail /\
          forall w rest, wf_message chk w -> tail <> message_bytes w ++ rest)) ->
  (exists tr r, swiss_render_latest chk powi rfc3339 sv m false steps vars tr r) /\
  forall tr r, swiss_render_latest chk powi rfc3339 sv m false steps vars tr r -> tr = [] /\ r = Panic.
Proof.
  intros chk powi rfc sv m steps vars (oa & Oa) T H.
  assert (X : forall hor, (forall o', sv_fetch sv (as_href hor) o' -> exists ws tail, o' = Ok (concat (map message_bytes ws) ++ tail) /\
          (1 <= length ws <= 4)%nat /\ Forall (wf_message chk) ws /\ Forall is_byte tail /\ ~ panic_input chk tail /\
          forall w rest, wf_message chk w -> tail <> message_bytes w ++ rest) -> forall o, read_hor_consts chk powi (sv_fetch sv) (as_href hor) o <-> o = Panic).
  { intros hor F. assert (Y : forall bo, sv_fetch sv (as_href hor) bo -> exists bs docs, bo = Ok bs /\ read_multi_doc chk bs = Some (Ok docs) /\ (length docs <= 4)%nat).
    { intros bo Fb. destruct (F bo Fb) as (ws & tail & -> & Lw & W & B & Np & Nm). eexists. exists (map message_meaning ws). split; [reflexivity|]. split; [|rewrite map_length; lia].
      apply few_docs; try assumption. intros ->. cbn in Lw. lia. }
    assert (Z : forall docs : list document, (length docs <= 4)%nat -> index_vec docs 4 = Panic).
    { intros docs Ld. unfold index_vec. rewrite (proj2 (nth_error_None docs (Z.to_nat 4))); [reflexivity|exact Ld]. }
    intro o. unfold read_hor_consts, fetch_docs. split.
    - intros (od & (ob & Fb & Rd) & R). destruct (Y ob Fb) as (bs & docs & -> & E & Ld). rewrite E in Rd. unfold r_of in Rd. subst od. rewrite (Z docs Ld) in R. exact R.
    - intros ->. destruct (T (as_href hor)) as (ob & Fb). destruct (Y ob Fb) as (bs & docs & -> & E & Ld). exists (Ok docs). split.
      + exists (Ok bs). split; [exact Fb|]. rewrite E. reflexivity.
      + rewrite (Z docs Ld). reflexivity. }
  assert (Y : forall l, Forall (fun a => as_id a <> "horizontal_constants_icon-ch1-eps.grib2"%string) l -> find_asset HOR_CONSTS_ID l = None).
  { intros l F. unfold find_asset. destruct (find _ l) as [a|] eqn:E; [|reflexivity]. apply find_some in E. destruct E as [J E]. apply String.eqb_eq in E. rewrite Forall_forall in F. destruct (F a J E). }
  unfold swiss_render_latest. split.
  - destruct (H oa Oa) as (l & -> & [F|(hor & Fa & F)]); exists [], Panic, (Ok l); (split; [exact Oa|]); cbn [p_let].
    + rewrite (Y l F). split; reflexivity.
    + pose proof (find_asset_some _ _ _ Fa) as Ff. change "horizontal_constants_icon-ch1-eps.grib2"%string with HOR_CONSTS_ID in Ff. rewrite Ff. cbn [expect p_let].
      exists Panic. split; [exact (proj2 (X hor F Panic) eq_refl)|split; reflexivity].
  - intros tr r (o & Ho & R). destruct (H o Ho) as (l & -> & [F|(hor & Fa & F)]); cbn [p_let] in R.
    + rewrite (Y l F) in R. exact R.
    + pose proof (find_asset_some _ _ _ Fa) as Ff. change "horizontal_constants_icon-ch1-eps.grib2"%string with HOR_CONSTS_ID in Ff. rewrite Ff in R. cbn [expect p_let] in R.
      destruct R as (ou & Hu & R). apply (X hor F) in Hu. subst ou. exact R.
Qed.

(** ** Files that are safe *)
Lemma safe_meaning w w' : message_meaning w = message_meaning w' -> safe_data w -> safe_data w'.
Proof.
  intros E S. assert (E3 : w3_points (w_3 w) = w3_points (w_3 w')) by exact (f_equal (fun d => s3_points (d_s3 d)) E).
  assert (E6 : w6_bitmap (w_6 w) = w6_bitmap (w_6 w')) by exact (f_equal (fun d => s6_bitmap (d_s6 d)) E).
  assert (E7 : w7_data (w_7 w) = w7_data (w_7 w')) by exact (f_equal (fun d => s7_data (d_s7 d)) E).
  assert (E5 : meaning5_tpl (w5_tpl (w_5 w)) = meaning5_tpl (w5_tpl (w_5 w'))) by exact (f_equal (fun d => s5_template (d_s5 d)) E).
  unfold safe_data, enough_data in *. destruct (w5_tpl (w_5 w')); [|exact I]. destruct (w5_tpl (w_5 w)); [|discriminate E5]. rewrite <- E3, <- E6, <- E7. exact S.
Qed.
Lemma docs_prefix chk : forall ws fuel tail, Forall (wf_message chk) ws ->
  read_docs chk (length ws + fuel) (concat (map message_bytes ws) ++ tail) = match read_docs chk fuel tail with Some (Ok ds) => Some (Ok (map message_meaning ws ++ ds)) | other => other end.
Proof.
  induction ws as [|w ws IH]; intros fuel tail W; cbn [length Nat.add map concat app].
  - destruct (read_docs chk fuel tail) as [[ds|e|]|]; reflexivity.
  - inversion W as [|? ? Ww Ws]; subst. cbn [read_docs]. rewrite <- app_assoc, (read_single_doc_bwd chk w _ Ww), (IH fuel tail Ws). destruct (read_docs chk fuel tail) as [[ds|e|]|]; reflexivity.
Qed.
Lemma messages_length ws : (length ws <= length (concat (map message_bytes ws)))%nat.
Proof. induction ws as [|w ws IH]; cbn [length map concat]; [lia|]. rewrite app_length. pose proof (message_nonempty w). lia. Qed.
Lemma safe_read chk (P : list wire -> Prop) bs docs : Forall is_byte bs -> read_multi_doc chk bs = Some (Ok docs) ->
  (forall ws, Forall (wf_message chk) ws -> map message_meaning ws = docs -> P ws) -> safe_messages chk P bs.
Proof.
  intros B E H. split; [exact B|]. intros ws tail W ->. pose proof (messages_length ws) as Lw. apply Forall_app in B. destruct B as [_ Bt].
  assert (R : exists fuel ds, read_docs chk (Datatypes.S fuel) tail = Some (Ok ds) /\ docs = map message_meaning ws ++ ds).
  { unfold read_multi_doc in E. set (bs := concat (map message_bytes ws) ++ tail) in *. assert (Lb : (length ws <= length bs)%nat) by (unfold bs; rewrite app_length; lia).
    replace (Datatypes.S (length bs)) with (length ws + Datatypes.S (length bs - length ws))%nat in E by lia.
    pose proof (docs_prefix chk ws (Datatypes.S (length bs - length ws)) tail W) as D0. fold bs in D0. rewrite D0 in E. clear D0.
    destruct (read_docs chk (Datatypes.S (length bs - length ws)) tail) as [[ds|e|]|] eqn:D; try discriminate E.
    - exists (length bs - length ws)%nat, ds. split; [exact D|]. destruct (map message_meaning ws ++ ds); [discriminate E|congruence]. }
  destruct R as (fuel & ds & R & ->). cbn [read_docs] in R. split.
  - intro Pn. apply (single_doc_panic chk tail Bt) in Pn. rewrite Pn in R. discriminate R.
  - intros _ Nm. destruct (read_single_doc chk tail) as [[d rest]|e|] eqn:S; [|injection R as <-; apply (H ws W); now rewrite app_nil_r|discriminate R].
    apply read_single_doc_iff in S; [|exact Bt]. destruct S as (w & Ww & Et & _). destruct (Nm w rest Ww Et).
Qed.
Lemma safe_unread chk (P : list wire -> Prop) bs e : Forall is_byte bs -> read_single_doc chk bs = Err e -> safe_messages chk P bs /\ safe_single chk bs.
Proof.
  intros B E. assert (Np : ~ panic_input chk bs) by (intro X; apply (single_doc_panic chk bs B) in X; congruence).
  assert (Nm : forall w rest, wf_message chk w -> bs = message_bytes w ++ rest -> False) by (intros w rest W ->; rewrite (read_single_doc_bwd chk w rest W) in E; discriminate E).
  split; (split; [exact B|]).
  - intros [|w ws] tail W Eb; [cbn in Eb; subst tail; split; [exact Np|intro X; destruct (X eq_refl)]|]. exfalso. inversion W; subst. eapply Nm; [eassumption|]. cbn [map concat]. symmetry. apply app_assoc.
  - split; [exact Np|]. intros w rest W Eb. destruct (Nm w rest W Eb).
Qed.
