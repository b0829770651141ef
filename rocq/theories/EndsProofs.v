(** Proofs that every call ends (C93). *)
From Coq Require Import String ZArith List Bool Lia.
From Verif Require Import Base F32 Par ParFacts Grib2Model GeoModel TileModel ChartModel MetobinModel ForecastModel ForecastProofs FetchModel DwdModel SwissModel CliModel ArgsModel
  SafeProofs SwissSafeProofs EndsSpec.
Import ListNotations.
Open Scope Z_scope.

(** ** Programs that end *)
Definition ends {E} (p : prog E) : Prop := exists tr r, p tr r.
Lemma ends_end {E} (o : outcome unit) : ends (@p_end E o).
Proof. exists [], o. split; reflexivity. Qed.
Lemma ends_emit {E} (e : E) : ends (p_emit e).
Proof. exists [e], (Ok tt). split; reflexivity. Qed.
Lemma ends_then {E} (p q : prog E) : ends p -> ends q -> ends (p_then p q).
Proof.
  intros (t1 & [[]|e|] & P) (t2 & r2 & Q).
  - exists (t1 ++ t2), r2. right. exists t1, t2. auto.
  - exists t1, (Err e). left. split; [exact P|discriminate].
  - exists t1, Panic. left. split; [exact P|discriminate].
Qed.
Lemma ends_let {A E} (o : outcome A) (q : A -> prog E) : (forall a, ends (q a)) -> ends (p_let o q).
Proof. intro H. destruct o as [a|e|]; cbn [p_let]; [apply H|apply ends_end|apply ends_end]. Qed.
Lemma ends_call {A E} (f : outcome A -> Prop) (q : A -> prog E) : (exists o, f o) -> (forall a, ends (q a)) -> ends (p_call f q).
Proof. intros (o & F) H. destruct (ends_let o q H) as (tr & r & R). exists tr, r, o. split; assumption. Qed.
Lemma ends_ignore {E} (p : prog E) : ends p -> ends (p_ignore p).
Proof. intros (tr & r & P). eexists tr, _. exists r. split; [exact P|reflexivity]. Qed.
Lemma ends_unwrap (p : prog effect) : ends p -> ends (p_unwrap p).
Proof. intros (tr & r & P). eexists tr, _. exists r. split; [exact P|reflexivity]. Qed.
Lemma ends_disk faulty e : ends (p_disk faulty e).
Proof. exists [e], (Ok tt). left. split; reflexivity. Qed.
Lemma ends_write faulty path data : ends (p_write faulty path data).
Proof. exists [EWrite path data], (Ok tt). left. split; reflexivity. Qed.
Lemma ends_if {E} (b : bool) (p : prog E) : ends p -> ends (p_if b p).
Proof. intro H. unfold p_if. destruct b; [exact H|apply ends_end]. Qed.
Lemma ends_save faulty t run nr d z x y : ends (save_tile_step faulty t run nr d z x y).
Proof. unfold save_tile_step. cbv zeta. apply ends_then; [apply ends_unwrap, ends_disk|]. apply ends_ignore, ends_then; apply ends_disk. Qed.
Lemma ends_bin faulty bin t b run nr : ends (write_bin faulty bin t b run nr).
Proof. unfold write_bin. cbv zeta. apply ends_let. intro data. apply ends_then; [apply ends_unwrap, ends_disk|apply ends_ignore, ends_write]. Qed.
Lemma ends_vertical faulty bin t b run nr : ends (write_vertical_bin faulty bin t b run nr).
Proof. unfold write_vertical_bin. cbv zeta. apply ends_let. intro data. apply ends_then; [apply ends_disk|]. apply ends_then; [apply ends_unwrap, ends_disk|apply ends_write]. Qed.
Lemma ends_tiles {V} chk m e zl zh (value : lat_lon -> outcome (option V)) color_fn faulty t run nr :
  ends (create_all_tiles chk m e (zl, zh) value color_fn (save_tile_step faulty t run nr)).
Proof. apply (all_run chk m e value color_fn (save_tile_step faulty t run nr)). intros. apply ends_save. Qed.
Lemma ends_steps {L} filter steps (read : fc_step -> outcome L -> Prop) (body : L -> fc_step -> prog effect) :
  (forall s, exists o, read s o) -> (forall l s, ends (body l s)) -> ends (render_steps filter steps read body).
Proof.
  intros R B. unfold render_steps. apply for_par_runs. intros s _. destruct (skipped filter s); [apply ends_end|]. apply ends_then; [apply ends_emit|]. apply ends_call; [apply R|]. intro l. apply B.
Qed.
Lemma ends_temp chk m faulty run steps filter read : (forall s, exists o, read s o) -> ends (temp_render chk m faulty run steps filter read).
Proof. intro R. apply ends_steps; [exact R|]. intros l s. apply ends_then; [apply ends_ignore; unfold temp_tiles; destruct (zoom_range _); apply ends_tiles|apply ends_bin]. Qed.
Lemma ends_wind chk m faulty run steps filter read : (forall s, exists o, read s o) -> ends (wind_render chk m faulty run steps filter read).
Proof. intro R. apply ends_steps; [exact R|]. intros l s. apply ends_then; [apply ends_ignore; unfold wind_tiles; destruct (zoom_range _); apply ends_tiles|apply ends_bin]. Qed.
Lemma ends_cloud chk m faulty run steps filter read : (forall s, exists o, read s o) -> ends (cloud_precip_render chk m faulty run steps filter read).
Proof.
  intro R. apply ends_steps; [exact R|]. intros l s. apply ends_then; [apply ends_ignore; unfold cloud_precip_tiles; destruct (zoom_range _); apply ends_tiles|]. apply ends_then; apply ends_bin.
Qed.
Lemma ends_vc faulty run steps filter read : (forall s, exists o, read s o) -> ends (vertical_cloud_render faulty run steps filter read).
Proof. intro R. apply ends_steps; [exact R|]. intros l s. apply ends_ignore, ends_vertical. Qed.
Lemma ends_vw faulty run steps filter read : (forall s, exists o, read s o) -> ends (vertical_wind_render faulty run steps filter read).
Proof. intro R. apply ends_steps; [exact R|]. intros l s. apply ends_ignore, ends_vertical. Qed.
Lemma ends_selected filter a b c heights d e : ends a -> ends b -> ends c -> (exists o, heights o) -> (forall h, ends (d h)) -> (forall h, ends (e h)) ->
  ends (render_selected filter a b c heights d e).
Proof.
  intros A B C H D E. unfold render_selected. apply ends_then; [now apply ends_if|]. apply ends_then; [now apply ends_if|]. apply ends_then; [now apply ends_if|].
  apply ends_if. apply ends_then; [apply ends_emit|]. apply ends_call; [exact H|]. intro h. apply ends_then; apply ends_if; auto.
Qed.

(** ** The two renderers *)
Lemma ends_dwd chk powi fetch m faulty head today today' model variables steps : (forall url, exists o, fetch url o) ->
  ends (dwd_render_latest chk powi fetch m faulty head today today' model variables steps).
Proof.
  intro T. unfold dwd_render_latest. apply ends_let. intro run. cbv zeta. apply ends_selected.
  - apply ends_cloud. intro s. now apply tot_cloud.
  - apply ends_wind. intro s. now apply tot_wind.
  - apply ends_temp. intro s. unfold read_temp. now apply tot_single.
  - now apply tot_hhl.
  - intro h. apply ends_vc. intro s. now apply tot_vc.
  - intro h. apply ends_vw. intro s. now apply tot_vw.
Qed.
Section Swiss.
  Variables (chk : bool) (powi : f32 -> Z -> f32) (rfc3339 : rfc3339_parser) (sv : service) (m : libm) (faulty : bool) (steps : list Z).
  Hypotheses (TS : forall rq, exists o, sv_search sv rq o) (TA : exists o, sv_assets sv o) (T : forall url, exists o, sv_fetch sv url o).
  Lemma tot_steps v t skip : exists o, swiss_steps chk sv v t skip o.
  Proof. unfold swiss_steps, find_files. tot. apply TS. Qed.
  Lemma tot_single' u url : exists o, swiss_single chk powi (sv_fetch sv) u url o.
  Proof. unfold swiss_single, fetch_unstructured, fetch_doc. tot. apply T. Qed.
  Lemma tot_clct u url : exists o, swiss_clct chk powi (sv_fetch sv) u url o.
  Proof. unfold swiss_clct, fetch_unstructured, fetch_doc. tot. apply T. Qed.
  Lemma tot_docs url : exists o, fetch_docs chk (sv_fetch sv) url o.
  Proof. unfold fetch_docs. tot. apply T. Qed.
  Lemma ends_swiss variables : ends (swiss_render_latest chk powi rfc3339 sv m faulty steps variables).
  Proof.
    unfold swiss_render_latest. apply ends_call; [exact TA|]. intro assets. apply ends_let. intro hor. apply ends_call; [unfold read_hor_consts; tot; apply tot_docs|].
    intro u. apply ends_let. intro vert. apply ends_call; [unfold find_latest_ref; tot; apply TS|]. intro t. apply ends_selected.
    - apply ends_let. intro run. apply ends_call; [apply tot_steps|]. intro clct. apply ends_call; [apply tot_steps|]. intro prec. apply ends_call; [apply tot_steps|]. intro ceil.
      apply ends_cloud. intro s. unfold swiss_read_cloud_precip_weather, swiss_read_cloud_precip, swiss_read_weather. tot; first [apply tot_clct|apply tot_single'].
    - apply ends_let. intro run. apply ends_call; [apply tot_steps|]. intro us. apply ends_call; [apply tot_steps|]. intro vs. apply ends_call; [apply tot_steps|]. intro gs.
      apply ends_wind. intro s. unfold swiss_read_wind. tot; apply tot_single'.
    - apply ends_let. intro run. apply ends_call; [apply tot_steps|]. intro t2m. apply ends_temp. intro s. unfold swiss_read_temp. tot; apply tot_single'.
    - exact (tot_multi chk powi sv u T _ _ _).
    - intro h. apply ends_let. intro run. apply ends_call; [apply tot_steps|]. intro clc. apply ends_vc. intro s. unfold swiss_read_vertical_cloud. tot. exact (tot_multi chk powi sv u T _ _ _).
    - intro h. apply ends_let. intro run. apply ends_call; [apply tot_steps|]. intro us. apply ends_call; [apply tot_steps|]. intro vs. apply ends_vw. intro s. unfold swiss_read_vertical_wind.
      tot; exact (tot_multi chk powi sv u T _ _ _).
  Qed.
End Swiss.

(** ** The program *)
Lemma reporting_ends w name p : ends p -> exists tr printed code, reporting w name p tr printed code.
Proof. intros (tr & [[]|e|] & P); [exists tr, [], 0, (Ok tt)|eexists tr, _, 0; exists (Err e)|exists tr, [], 101, Panic]; split; auto. Qed.
Lemma c93_main_proof : forall w a, answering w -> exists tr printed code, main w a tr printed code.
Proof.
  intros w a (H1 & H2 & H3 & H4). unfold main. cbv zeta.
  destruct (String.eqb (ar_model a) "icon-ch1"); [apply reporting_ends; now apply ends_swiss|].
  destruct (String.eqb (ar_model a) "icon-d2"); [apply reporting_ends; now apply ends_dwd|].
  destruct (String.eqb (ar_model a) "icon-eu"); [apply reporting_ends; now apply ends_dwd|].
  eexists _, _, _. repeat split.
Qed.
Lemma c93_program_proof : forall w args, answering w -> exists tr printed code, program w args tr printed code.
Proof.
  intros w args A. unfold program. destruct (parse_line args) as [a| |]; [exact (c93_main_proof w a A)|exists [], [], 2; auto|exists [], [], 0; auto].
Qed.
