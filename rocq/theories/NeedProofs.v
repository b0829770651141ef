(** Proofs of the property about the files a rendering depends on (C74). *)
From Coq Require Import Ascii String ZArith List Bool Lia Sorted Permutation.
From Verif Require Import Base F32 Grib2Model GeoModel Par ParFacts TileModel ChartModel MetobinModel Text
  ForecastModel ForecastSpec ForecastProofs FetchModel FetchSpec FetchProofs RenderProofs DwdModel DwdSpec DwdProofs SwissModel SwissSpec SwissProofs CliModel NeedSpec.
Import ListNotations.
Open Scope Z_scope.

(** ** Programs with the same executions *)
Definition same (p q : prog effect) : Prop := forall tr r, p tr r <-> q tr r.
Lemma same_refl p : same p p. Proof. intros tr r. tauto. Qed.
Lemma same_then p p' q q' : same p p' -> same q q' -> same (p_then p q) (p_then p' q').
Proof.
  intros P Q tr r. unfold p_then. rewrite (P tr r). split; (intros [H|(t1 & t2 & E & A & B)]; [left; exact H|right]); exists t1, t2; (split; [exact E|]); split; (apply P || apply Q); assumption.
Qed.
Lemma same_if b p p' : (b = true -> same p p') -> same (p_if b p) (p_if b p').
Proof. destruct b; intro H; [exact (H eq_refl)|apply same_refl]. Qed.
Lemma same_let {A} (o : outcome A) (q q' : A -> prog effect) : (forall a, o = Ok a -> same (q a) (q' a)) -> same (p_let o q) (p_let o q').
Proof. intro H. destruct o; [exact (H a eq_refl)|apply same_refl|apply same_refl]. Qed.
Lemma same_call {A} (f f' : result A) (q q' : A -> prog effect) : same_answers f f' -> (forall a, f (Ok a) -> same (q a) (q' a)) -> same (p_call f q) (p_call f' q').
Proof.
  intros F Q tr r. unfold p_call. split; intros (o & Fo & P); exists o.
  - split; [apply F; exact Fo|]. destruct o; cbn [p_let] in *; [apply (Q a Fo); exact P|exact P|exact P].
  - apply F in Fo. split; [exact Fo|]. destruct o; cbn [p_let] in *; [apply (Q a Fo); exact P|exact P|exact P].
Qed.
Lemma same_for_par {A} (l : list A) (b b' : A -> prog effect) : (forall a, In a l -> same (b a) (b' a)) -> same (for_par l b) (for_par l b').
Proof.
  intros H tr r. unfold for_par. assert (X : forall xs, Forall2 (Par.started b) l xs <-> Forall2 (Par.started b') l xs).
  { intro xs. split; intro F.
    - induction F as [|a x l xs S F IH]; constructor; [|apply IH; intros; apply H; now right]. destruct x as [[t o]|]; cbn [Par.started] in *; [|exact I]. apply H; [now left|exact S].
    - induction F as [|a x l xs S F IH]; constructor; [|apply IH; intros; apply H; now right]. destruct x as [[t o]|]; cbn [Par.started] in *; [|exact I]. apply H; [now left|exact S]. }
  split; intros (xs & F & R); exists xs; (split; [apply X; exact F|exact R]).
Qed.
Lemma same_steps {L} filter steps (read read' : fc_step -> outcome L -> Prop) body :
  (forall s, In s steps -> wanted filter s -> same_answers (read s) (read' s)) -> same (render_steps filter steps read body) (render_steps filter steps read' body).
Proof.
  intro H. apply same_for_par. intros s J. destruct (skipped filter s) eqn:K; [apply same_refl|]. apply same_then; [apply same_refl|]. apply same_call; [|intros; apply same_refl].
  apply H; [exact J|]. apply skipped_wanted. exact K.
Qed.

(** ** Readings with the same results *)
Lemma same_r_refl {A} (p : result A) : same_answers p p. Proof. intro o. tauto. Qed.
Lemma same_bind {A B} (p p' : result A) (q q' : A -> result B) : same_answers p p' -> (forall a, p (Ok a) -> same_answers (q a) (q' a)) -> same_answers (r_bind p q) (r_bind p' q').
Proof.
  intros F Q o. unfold r_bind. split; intros (x & Fx & P); exists x.
  - split; [apply F; exact Fx|]. destruct x; [apply (Q a Fx); exact P|exact P|exact P].
  - apply F in Fx. split; [exact Fx|]. destruct x; [apply (Q a Fx); exact P|exact P|exact P].
Qed.
Lemma same_collect {A B} (f f' : A -> result B) l : (forall x, In x l -> same_answers (f x) (f' x)) -> same_answers (r_collect f l) (r_collect f' l).
Proof.
  intros H o. destruct o as [ys|e|]; cbn [r_collect].
  - split; intro F; induction F as [|a x l xs S F IH]; constructor; try (apply IH; intros; apply H; now right); apply (H a); try (now left); exact S.
  - split; intros (x & J & F); exists x; (split; [exact J|apply (H x J); exact F]).
  - split; intros (x & J & F); exists x; (split; [exact J|apply (H x J); exact F]).
Qed.
Section Files.
  Variables (chk : bool) (powi : f32 -> Z -> f32) (fetch fetch' : fetcher).
  Lemma same_doc url : same_answers (fetch url) (fetch' url) -> same_answers (fetch_doc chk fetch url) (fetch_doc chk fetch' url).
  Proof. intro H. apply same_bind; [exact H|intros; apply same_r_refl]. Qed.
  Lemma same_docs url : same_answers (fetch url) (fetch' url) -> same_answers (fetch_docs chk fetch url) (fetch_docs chk fetch' url).
  Proof. intro H. apply same_bind; [exact H|intros; apply same_r_refl]. Qed.
  Lemma same_regular {T} url (missing : T) transform : same_answers (fetch url) (fetch' url) ->
    same_answers (fetch_regular chk powi fetch url missing transform) (fetch_regular chk powi fetch' url missing transform).
  Proof. intro H. apply same_bind; [apply same_doc; exact H|intros; apply same_r_refl]. Qed.
  Lemma same_unstructured {T} url (missing : T) transform u : same_answers (fetch url) (fetch' url) ->
    same_answers (fetch_unstructured chk powi fetch url missing transform u) (fetch_unstructured chk powi fetch' url missing transform u).
  Proof. intro H. apply same_bind; [apply same_doc; exact H|intros; apply same_r_refl]. Qed.
  Lemma same_multi {T} url (missing : T) transform u range : same_answers (fetch url) (fetch' url) ->
    same_answers (fetch_multi_unstructured chk powi fetch url missing transform u range) (fetch_multi_unstructured chk powi fetch' url missing transform u range).
  Proof. intro H. apply same_bind; [apply same_docs; exact H|intros; apply same_r_refl]. Qed.
End Files.

(** ** The German service *)
Lemma same_found head head' n urls : (forall n u, In u urls -> head n u = head' n u) -> all_found head n urls = all_found head' n urls.
Proof.
  revert n. induction urls as [|u urls IH]; intros n H; [reflexivity|]. cbn [all_found]. rewrite (H n u) by now left. destruct (head' n u) as [s|]; [|reflexivity].
  destruct (Z.eqb s 200); [|reflexivity]. apply IH. intros; apply H. now right.
Qed.
Lemma all_ok_in {A} (l : list (outcome A)) ys y : all_ok l = Ok ys -> In y ys -> In (Ok y) l.
Proof.
  revert ys. induction l as [|o l IH]; intros ys E J; cbn [all_ok] in E; [injection E as <-; destruct J|]. destruct o as [a|e|]; cbn [obind] in E; try discriminate E.
  destruct (all_ok l) as [zs|e|] eqn:Z; cbn [omap obind] in E; try discriminate E. injection E as <-. destruct J as [<-|J]; [now left|right; exact (IH zs eq_refl J)].
Qed.
Lemma same_find head head' m today n names : (forall name f u n, In name names -> probed m f -> dwd_url (run_of m today name) f = Ok u -> head n u = head' n u) ->
  find_run head n m today names = find_run head' n m today names.
Proof.
  revert n. induction names as [|name names IH]; intros n H; [reflexivity|]. cbn [find_run].
  destruct (probe_urls _ _) as [urls|e|] eqn:E; cbn [obind]; try reflexivity.
  rewrite (same_found head head' n urls).
  - destruct (all_found head' n urls) as [found n']. destruct found; [reflexivity|]. apply IH. intros name' f u k J. apply H. now right.
  - intros k u J. unfold probe_urls in E. apply (all_ok_in _ _ _ E) in J.
    assert (S : snd (step_range m) = last_step m) by (destruct m; reflexivity). rewrite S in J.
    assert (P : exists f, probed m f /\ dwd_url (run_of m today name) f = Ok u).
    { cbn [In] in J. destruct J as [J|[J|[J|[J|[J|[J|[J|[J|[J|[J|[]]]]]]]]]]]; unfold probed;
        [exists (SingleFile ClctMod (last_step m))|exists (SingleFile TotPrec (last_step m))|exists (SingleFile Ceiling (last_step m))|exists (SingleFile Ww (last_step m))|exists (SingleFile U10m (last_step m))
        |exists (SingleFile V10m (last_step m))|exists (SingleFile Vmax10m (last_step m))|exists (SingleFile T2m (last_step m))|exists (LevelFile Clc (last_step m) 65)|exists (LevelFile UWind (last_step m) 65)];
        (split; [try (left; eexists; reflexivity); tauto|exact J]). }
    destruct P as (f & P & U). exact (H name f u k (or_introl eq_refl) P U).
Qed.
Lemma same_latest head head' m today today' : same_heads head head' m today -> find_latest_run head m today today' = find_latest_run head' m today today'.
Proof.
  intro H. unfold find_latest_run. rewrite (same_find head head' m today 0 run_names_reversed); [reflexivity|]. intros name f u n J. unfold run_names_reversed in J. apply in_rev in J.
  apply in_split in J. destruct J as (e & l & J). apply (H name l f u n). exists e. exact J.
Qed.

Section Dwd.
  Variables (chk : bool) (powi : f32 -> Z -> f32) (fetch fetch' : fetcher) (run : fc_run) (variables : list string) (steps : list Z).
  Hypothesis Same : forall f u, needed variables steps run f -> dwd_url run f = Ok u -> same_answers (fetch u) (fetch' u).

  Lemma same_single v n s : needed variables steps run (SingleFile v n) -> st_nr s = n -> same_answers (read_single chk powi fetch v run s) (read_single chk powi fetch' v run s).
  Proof.
    intros N E. apply same_bind; [apply same_r_refl|]. intros url U. apply same_regular. apply (Same _ _ N). subst n. symmetry. exact U.
  Qed.
  Lemma same_level v n s level (missing : Z) transform : needed variables steps run (LevelFile v n level) -> st_nr s = n ->
    same_answers (r_bind (r_of (level_url v run s level)) (fun url => fetch_regular chk powi fetch url missing transform))
                 (r_bind (r_of (level_url v run s level)) (fun url => fetch_regular chk powi fetch' url missing transform)).
  Proof.
    intros N E. apply same_bind; [apply same_r_refl|]. intros url U. apply same_regular. apply (Same _ _ N). subst n. symmetry. exact U.
  Qed.
  Lemma wanted_in s : In s (forecast_steps (run_model run)) -> wanted steps s -> wanted_nr run steps (st_nr s).
  Proof. intros J W. apply step_in in J. split; [lia|exact W]. Qed.
  Lemma levels_in level : In level (range (fst (vertical_level_range (run_model run))) (snd (vertical_level_range (run_model run)))) ->
    first_level (run_model run) <= level <= last_level (run_model run).
  Proof. intro J. apply TileProofs.in_range in J. destruct (run_model run); cbn in *; lia. Qed.

  Variables (m : libm) (faulty : bool).
  Lemma same_temp : named variables Temp2m -> same (dwd_temp chk powi fetch m faulty steps run) (dwd_temp chk powi fetch' m faulty steps run).
  Proof. intro N. apply same_steps. intros s J W. eapply same_single; [|reflexivity]. apply need_temp; [exact N|apply wanted_in; assumption]. Qed.
  Lemma same_wind : named variables Wind10m -> same (dwd_wind chk powi fetch m faulty steps run) (dwd_wind chk powi fetch' m faulty steps run).
  Proof.
    intro N. apply same_steps. intros s J W. assert (X : forall v, In v [U10m; V10m; Vmax10m] -> same_answers (read_single chk powi fetch v run s) (read_single chk powi fetch' v run s)).
    { intros v V. eapply same_single; [|reflexivity]. apply need_wind; [exact N|apply wanted_in; assumption|exact V]. }
    unfold read_wind. apply same_bind; [apply X; cbn; tauto|]. intros u _. apply same_bind; [apply X; cbn; tauto|]. intros v _. apply same_bind; [apply X; cbn; tauto|]. intros g _. apply same_r_refl.
  Qed.
  Lemma looked_up l n s : r_of (unwrap (step_by_nr l n)) (Ok s) -> st_nr s = n.
  Proof. intro H. pose proof (c48_lookup_proof l n) as L. unfold r_of in H. destruct (step_by_nr l n) as [x|e|]; cbn [unwrap] in H; try discriminate H. injection H as ->. apply L. Qed.
  Lemma same_cloud_precip : named variables CloudPrecip -> same (dwd_cloud_precip chk powi fetch m faulty steps run) (dwd_cloud_precip chk powi fetch' m faulty steps run).
  Proof.
    intro N. apply same_steps. intros s J W. pose proof (wanted_in s J W) as Wn.
    assert (X : forall v s', In v [ClctMod; TotPrec; Ceiling; Ww] -> st_nr s' = st_nr s -> same_answers (read_single chk powi fetch v run s') (read_single chk powi fetch' v run s')).
    { intros v s' V E. eapply same_single; [|exact E]. apply need_cloud_precip; assumption. }
    unfold read_cloud_precip_weather. apply same_bind.
    - unfold read_cloud_precip. apply same_bind; [apply same_r_refl|]. intros c C. apply looked_up in C. apply same_bind; [apply same_r_refl|]. intros before B.
      apply same_bind; [apply same_r_refl|]. intros p0 P0. apply looked_up in P0. apply same_bind; [apply same_r_refl|]. intros p1 P1. apply looked_up in P1.
      apply same_bind; [apply X; [cbn; tauto|exact C]|]. intros g0 _. apply same_bind; [|intros g1 _; apply same_bind; [apply X; [cbn; tauto|exact P1]|intros; apply same_r_refl]].
      eapply same_single; [|reflexivity]. rewrite P0. replace before with (st_nr s - 1); [apply need_precip_before; assumption|].
      assert (L : 2 <= st_nr s <= 78) by (destruct Wn as [Q _]; destruct (run_model run); cbn in Q; lia).
      unfold r_of, usub in B. destruct (Z.leb_spec 1 (st_nr s)); [|lia]. apply (f_equal (fun o => match o with Ok x => x | _ => 0 end)) in B; cbn beta iota in B; subst before. reflexivity.
    - intros cp _. apply same_bind; [|intros; apply same_r_refl]. unfold read_weather.
      apply same_bind; [apply X; [cbn; tauto|reflexivity]|]. intros a _. apply same_bind; [apply X; [cbn; tauto|reflexivity]|]. intros b _.
      apply same_bind; [apply X; [cbn; tauto|reflexivity]|]. intros; apply same_r_refl.
  Qed.
  Lemma same_hhl : named variables VerticalCloud \/ named variables VerticalWind ->
    same_answers (read_hhl chk powi fetch run (vertical_level_range (run_model run))) (read_hhl chk powi fetch' run (vertical_level_range (run_model run))).
  Proof.
    intro N. apply same_collect. intros level J. apply same_bind; [apply same_r_refl|]. intros url U. apply same_regular.
    apply (Same (HeightFile level)); [apply need_heights; [exact N|apply levels_in; exact J]|symmetry; exact U].
  Qed.
  Lemma same_vertical_cloud hhl : named variables VerticalCloud ->
    same (dwd_vertical_cloud chk powi fetch faulty steps (vertical_level_range (run_model run)) run hhl) (dwd_vertical_cloud chk powi fetch' faulty steps (vertical_level_range (run_model run)) run hhl).
  Proof.
    intro N. apply same_steps. intros s J W. apply same_bind; [|intros; apply same_r_refl]. apply same_collect. intros level L. eapply same_level; [|reflexivity].
    apply need_vertical_cloud; [exact N|apply wanted_in; assumption|apply levels_in; exact L].
  Qed.
  Lemma same_vertical_wind hhl : named variables VerticalWind ->
    same (dwd_vertical_wind chk powi fetch faulty steps (vertical_level_range (run_model run)) run hhl) (dwd_vertical_wind chk powi fetch' faulty steps (vertical_level_range (run_model run)) run hhl).
  Proof.
    intro N. apply same_steps. intros s J W.
    assert (X : forall v missing tr, In v [UWind; VWind] -> same_answers (read_levels chk powi fetch v missing tr run s (vertical_level_range (run_model run))) (read_levels chk powi fetch' v missing tr run s (vertical_level_range (run_model run)))).
    { intros v missing tr V. apply same_collect. intros level L. eapply same_level; [|reflexivity]. apply need_vertical_wind; [exact N|apply wanted_in; assumption|exact V|apply levels_in; exact L]. }
    apply same_bind; [apply X; cbn; tauto|]. intros u _. apply same_bind; [apply X; cbn; tauto|]. intros; apply same_r_refl.
  Qed.
End Dwd.
Lemma same_selected variables cp wi te hh vc vw cp' wi' te' hh' vc' vw' :
  (named variables CloudPrecip -> same cp cp') -> (named variables Wind10m -> same wi wi') -> (named variables Temp2m -> same te te') ->
  (named variables VerticalCloud \/ named variables VerticalWind -> same_answers hh hh') ->
  (forall h, named variables VerticalCloud -> same (vc h) (vc' h)) -> (forall h, named variables VerticalWind -> same (vw h) (vw' h)) ->
  same (render_selected variables cp wi te hh vc vw) (render_selected variables cp' wi' te' hh' vc' vw').
Proof.
  intros C W T H V U. unfold render_selected.
  repeat (apply same_then; [apply same_if; intro S; apply selected_spec in S; auto|]).
  apply same_if. intro S. apply orb_true_iff in S. rewrite !selected_spec in S. apply same_then; [apply same_refl|]. apply same_call; [auto|]. intros h _.
  apply same_then; apply same_if; intro S'; apply selected_spec in S'; auto.
Qed.
Lemma c74_dwd_proof : forall chk powi fetch fetch' m faulty head head' today today' model variables steps,
  same_heads head head' model today -> same_files fetch fetch' head model today today' variables steps ->
  forall tr r, dwd_render_latest chk powi fetch m faulty head today today' model variables steps tr r <-> dwd_render_latest chk powi fetch' m faulty head' today today' model variables steps tr r.
Proof.
  intros chk powi fetch fetch' m faulty head head' today today' model variables steps H F. unfold dwd_render_latest. rewrite <- (same_latest head head' model today today' H).
  apply same_let. intros run R. assert (S : forall f u, needed variables steps run f -> dwd_url run f = Ok u -> same_answers (fetch u) (fetch' u)) by (intros f u; apply (F run f u R)).
  apply same_selected; intros; [eapply same_cloud_precip|eapply same_wind|eapply same_temp|eapply same_hhl|eapply same_vertical_cloud|eapply same_vertical_wind]; eassumption.
Qed.

(** ** The Swiss service *)
Section Swiss.
  Variables (chk : bool) (powi : f32 -> Z -> f32) (sv sv' : service) (variables : list string) (steps : list Z) (time : datetime) (m : libm) (faulty : bool) (u : ugrid).
  Hypothesis Search : forall t v, named variables t -> In v (layer_vars t) -> same_answers (sv_search sv (file_request v time)) (sv_search sv' (file_request v time)).
  Hypothesis Fetch : forall v n files f, swiss_needed variables steps v n -> files_of sv v time files -> nth_error files n = Some f ->
       same_answers (sv_fetch sv (ss_href f)) (sv_fetch sv' (ss_href f)).
  Lemma same_list t v skip : named variables t -> In v (layer_vars t) -> same_answers (swiss_steps chk sv v time skip) (swiss_steps chk sv' v time skip).
  Proof.
    intros N V. apply same_bind; [|intros; apply same_r_refl]. apply same_bind; [|intros; apply same_r_refl].
    replace (swiss_request (Some (ref_name time)) None (Some (swiss_var_name v))) with (file_request v time) by (destruct v; reflexivity). exact (Search t v N V).
  Qed.
  Lemma listed v skip l s n : swiss_steps chk sv v time skip (Ok l) -> In s l -> st_nr s = Z.of_nat n -> swiss_needed variables steps v n ->
    same_answers (sv_fetch sv (st_url s)) (sv_fetch sv' (st_url s)).
  Proof.
    intros L J E N. destruct (c52_numbers_proof _ _ _ _ _ _ L) as (files & F & _ & I). apply I in J. destruct J as (i & f & Nf & _ & ->). cbn [st_nr st_url] in *.
    apply Nat2Z.inj in E. subst i. exact (Fetch v n files f N F Nf).
  Qed.
  Lemma found_in l n s : step_by_nr l n = Ok s -> In s l /\ st_nr s = n.
  Proof. intro E. pose proof (c48_lookup_proof l n) as L. rewrite E in L. destruct L as (L & a & b & -> & _). split; [apply in_elt|exact L]. Qed.
  Lemma unwrapped {A} (o : outcome A) a : r_of (unwrap o) (Ok a) -> o = Ok a.
  Proof. unfold r_of. destruct o; cbn [unwrap]; congruence. Qed.
  Lemma step_number v skip l s : swiss_steps chk sv v time skip (Ok l) -> In s l -> exists n, st_nr s = Z.of_nat n /\ (skip = true -> (1 <= n)%nat).
  Proof. intros L J. destruct (c52_numbers_proof _ _ _ _ _ _ L) as (files & F & _ & I). apply I in J. destruct J as (i & f & _ & K & ->). exists i. split; [reflexivity|exact K]. Qed.
  Lemma wanted_number s n : wanted steps s -> st_nr s = Z.of_nat n -> wanted_step steps n.
  Proof. intros [W|W] E; [left; exact W|right; rewrite <- E; exact W]. Qed.

  Lemma same_swiss_temp : named variables Temp2m -> same (swiss_temp chk powi sv m faulty steps u time) (swiss_temp chk powi sv' m faulty steps u time).
  Proof.
    intro N. apply same_let. intros run _. apply same_call; [apply (same_list Temp2m); [exact N|cbn; tauto]|]. intros l L. apply same_steps. intros s J W.
    destruct (step_number _ _ _ _ L J) as (n & E & _). pose proof (wanted_number s n W E) as Wn.
    apply same_bind; [apply same_r_refl|]. intros s' S. apply unwrapped, found_in in S. destruct S as [J' E']. apply same_unstructured.
    apply (listed ST2m false l s' n L J'); [congruence|]. apply (swiss_need _ _ Temp2m); [exact N|cbn; tauto|exact Wn].
  Qed.
  Lemma same_swiss_wind : named variables Wind10m -> same (swiss_wind chk powi sv m faulty steps u time) (swiss_wind chk powi sv' m faulty steps u time).
  Proof.
    intro N. apply same_let. intros run _. apply same_call; [apply (same_list Wind10m); [exact N|cbn; tauto]|]. intros us Lu. apply same_call; [apply (same_list Wind10m); [exact N|cbn; tauto]|]. intros vs Lv.
    apply same_call; [apply (same_list Wind10m); [exact N|cbn; tauto]|]. intros gs Lg. apply same_steps. intros s J W.
    destruct (step_number _ _ _ _ Lu J) as (n & E & _). pose proof (wanted_number s n W E) as Wn.
    assert (X : forall v l s', In v (layer_vars Wind10m) -> swiss_steps chk sv v time false (Ok l) -> In s' l /\ st_nr s' = st_nr s -> same_answers (swiss_single chk powi (sv_fetch sv) u (st_url s')) (swiss_single chk powi (sv_fetch sv') u (st_url s'))).
    { intros v l s' V L [J' E']. apply same_unstructured. apply (listed v false l s' n L J'); [congruence|]. apply (swiss_need _ _ Wind10m); assumption. }
    unfold swiss_read_wind. apply same_bind; [apply same_r_refl|]. intros su Su. symmetry in Su. apply found_in in Su. apply same_bind; [apply same_r_refl|]. intros s_v Sv. symmetry in Sv. apply found_in in Sv.
    apply same_bind; [apply same_r_refl|]. intros sg Sg. symmetry in Sg. apply found_in in Sg.
    apply same_bind; [apply (X SU10m us); [cbn; tauto|exact Lu|exact Su]|]. intros a _. apply same_bind; [apply (X SV10m vs); [cbn; tauto|exact Lv|exact Sv]|]. intros b _.
    apply same_bind; [apply (X SVmax10m gs); [cbn; tauto|exact Lg|exact Sg]|]. intros; apply same_r_refl.
  Qed.
  Lemma same_swiss_cloud_precip : named variables CloudPrecip -> same (swiss_cloud_precip chk powi sv m faulty steps u time) (swiss_cloud_precip chk powi sv' m faulty steps u time).
  Proof.
    intro N. apply same_let. intros run _. apply same_call; [apply (same_list CloudPrecip); [exact N|cbn; tauto]|]. intros cl Lc. apply same_call; [apply (same_list CloudPrecip); [exact N|cbn; tauto]|]. intros pr Lp.
    apply same_call; [apply (same_list CloudPrecip); [exact N|cbn; tauto]|]. intros ce Le. apply same_steps. intros s J W.
    destruct (step_number _ _ _ _ Lc J) as (n & E & P). specialize (P eq_refl). pose proof (wanted_number s n W E) as Wn.
    assert (X : forall v skip l s', In v (layer_vars CloudPrecip) -> swiss_steps chk sv v time skip (Ok l) -> In s' l /\ st_nr s' = st_nr s -> same_answers (sv_fetch sv (st_url s')) (sv_fetch sv' (st_url s'))).
    { intros v skip l s' V L [J' E']. apply (listed v skip l s' n L J'); [congruence|]. apply (swiss_need _ _ CloudPrecip); assumption. }
    unfold swiss_read_cloud_precip_weather. apply same_bind.
    - unfold swiss_read_cloud_precip. apply same_bind; [apply same_r_refl|]. intros c C. apply unwrapped, found_in in C. apply same_bind; [apply same_r_refl|]. intros before B.
      apply same_bind; [apply same_r_refl|]. intros p0 P0. apply unwrapped, found_in in P0. apply same_bind; [apply same_r_refl|]. intros p1 P1. apply unwrapped, found_in in P1.
      apply same_bind; [apply same_unstructured; apply (X SClct true cl); [cbn; tauto|exact Lc|exact C]|]. intros g0 _.
      apply same_bind; [|intros g1 _; apply same_bind; [apply same_unstructured; apply (X STotPrec false pr); [cbn; tauto|exact Lp|exact P1]|intros; apply same_r_refl]].
      apply same_unstructured. destruct n as [|k]; [lia|]. apply (listed STotPrec false pr p0 k Lp (proj1 P0)); [|apply swiss_need_before; [exact N|exact Wn]].
      rewrite (proj2 P0). unfold r_of, usub in B. destruct (Z.leb_spec 1 (st_nr s)); [|lia]. apply (f_equal (fun o => match o with Ok x => x | _ => 0 end)) in B; cbn beta iota in B; subst before. lia.
    - intros cp _. apply same_bind; [|intros; apply same_r_refl]. unfold swiss_read_weather.
      apply same_bind; [apply same_r_refl|]. intros c C. apply unwrapped, found_in in C. apply same_bind; [apply same_r_refl|]. intros e Ce. apply unwrapped, found_in in Ce.
      apply same_bind; [apply same_unstructured; apply (X SClct true cl); [cbn; tauto|exact Lc|exact C]|]. intros g0 _.
      apply same_bind; [apply same_unstructured; apply (X SCeiling false ce); [cbn; tauto|exact Le|exact Ce]|]. intros; apply same_r_refl.
  Qed.
  Lemma same_swiss_vertical_cloud hhl : named variables VerticalCloud -> same (swiss_vertical_cloud chk powi sv faulty steps u time hhl) (swiss_vertical_cloud chk powi sv' faulty steps u time hhl).
  Proof.
    intro N. apply same_let. intros run _. apply same_call; [apply (same_list VerticalCloud); [exact N|cbn; tauto]|]. intros l L. apply same_steps. intros s J W.
    destruct (step_number _ _ _ _ L J) as (n & E & _). pose proof (wanted_number s n W E) as Wn.
    apply same_bind; [apply same_r_refl|]. intros s' S. apply unwrapped, found_in in S. destruct S as [J' E']. apply same_bind; [|intros; apply same_r_refl]. apply same_multi.
    apply (listed SClc false l s' n L J'); [congruence|]. apply (swiss_need _ _ VerticalCloud); [exact N|cbn; tauto|exact Wn].
  Qed.
  Lemma same_swiss_vertical_wind hhl : named variables VerticalWind -> same (swiss_vertical_wind chk powi sv faulty steps u time hhl) (swiss_vertical_wind chk powi sv' faulty steps u time hhl).
  Proof.
    intro N. apply same_let. intros run _. apply same_call; [apply (same_list VerticalWind); [exact N|cbn; tauto]|]. intros us Lu. apply same_call; [apply (same_list VerticalWind); [exact N|cbn; tauto]|]. intros vs Lv.
    apply same_steps. intros s J W. destruct (step_number _ _ _ _ Lu J) as (n & E & _). pose proof (wanted_number s n W E) as Wn.
    assert (X : forall v l s', In v (layer_vars VerticalWind) -> swiss_steps chk sv v time false (Ok l) -> In s' l /\ st_nr s' = st_nr s -> same_answers (swiss_u_v chk powi (sv_fetch sv) u (st_url s')) (swiss_u_v chk powi (sv_fetch sv') u (st_url s'))).
    { intros v l s' V L [J' E']. apply same_multi. apply (listed v false l s' n L J'); [congruence|]. apply (swiss_need _ _ VerticalWind); assumption. }
    unfold swiss_read_vertical_wind. apply same_bind; [apply same_r_refl|]. intros su Su. apply unwrapped, found_in in Su. apply same_bind; [apply same_r_refl|]. intros s_v Sv. apply unwrapped, found_in in Sv.
    apply same_bind; [apply (X SU us); [cbn; tauto|exact Lu|exact Su]|]. intros a _. apply same_bind; [apply (X SV vs); [cbn; tauto|exact Lv|exact Sv]|]. intros; apply same_r_refl.
  Qed.
End Swiss.
Lemma c74_swiss_proof : forall chk powi rfc3339 sv sv' m faulty steps variables, same_service rfc3339 sv sv' variables steps ->
  forall tr r, swiss_render_latest chk powi rfc3339 sv m faulty steps variables tr r <-> swiss_render_latest chk powi rfc3339 sv' m faulty steps variables tr r.
Proof.
  intros chk powi rfc3339 sv sv' m faulty steps variables (A & L & H & V & T). unfold swiss_render_latest.
  apply same_call; [exact A|]. intros assets Ga. apply same_let. intros hor Eh. unfold expect in Eh. destruct (find_asset HOR_CONSTS_ID assets) as [a|] eqn:Fh; [|discriminate Eh]. injection Eh as ->.
  apply find_asset_first in Fh. apply same_call; [apply same_bind; [apply same_docs; exact (H assets hor Ga Fh)|intros; apply same_r_refl]|]. intros u _.
  apply same_let. intros vert Ev. destruct (find_asset VERT_CONSTS_ID assets) as [a|] eqn:Fv; [|discriminate Ev]. injection Ev as ->. apply find_asset_first in Fv.
  apply same_call; [apply same_bind; [exact L|intros; apply same_r_refl]|]. intros time Et. apply (proj1 (latest_spec _ _ _)) in Et. destruct (T time Et) as [Search Fetch].
  apply same_selected; intros; [eapply same_swiss_cloud_precip|eapply same_swiss_wind|eapply same_swiss_temp|apply same_multi|eapply same_swiss_vertical_cloud|eapply same_swiss_vertical_wind]; try eassumption.
  exact (V assets vert Ga Fv H0).
Qed.

(** ** The program *)
Lemma same_reporting w w' name p p' : wo_text w = wo_text w' -> same p p' -> forall tr printed code, reporting w name p tr printed code <-> reporting w' name p' tr printed code.
Proof. intros E S tr printed code. unfold reporting. rewrite E. split; intros (r & P & R); exists r; (split; [apply S; exact P|exact R]). Qed.
Lemma c74_program_proof : forall w w' a, alike w w' a -> forall tr printed code, main w a tr printed code <-> main w' a tr printed code.
Proof.
  intros w w' a (Ec & Ep & Em & Ef & Et & Et' & Er & Ex & D & S) tr printed code. unfold main. rewrite <- Ec, <- Ep, <- Em, <- Ef, <- Et, <- Et', <- Er.
  destruct (String.eqb_spec (ar_model a) "icon-ch1") as [E|_]; [|destruct (String.eqb_spec (ar_model a) "icon-d2") as [E|_]; [|destruct (String.eqb_spec (ar_model a) "icon-eu") as [E|_]; [|tauto]]];
    apply same_reporting; try exact Ex; intros t r.
  - apply c74_swiss_proof. exact (S E).
  - destruct (D IconD2 (or_introl (conj E eq_refl))). apply c74_dwd_proof; assumption.
  - destruct (D IconEu (or_intror (conj E eq_refl))). apply c74_dwd_proof; assumption.
Qed.
