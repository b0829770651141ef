(** Proofs about disks that fail (C87). *)
From Coq Require Import Ascii String ZArith List Bool Lia Permutation.
From Verif Require Import Base F32 GeoModel ImagingModel Par ParFacts TileModel TileSpec TileProofs ChartModel MetobinModel Text
  TextFacts ForecastModel ForecastSpec ForecastProofs FetchModel FetchSpec FetchProofs RenderProofs DwdModel DwdSpec DwdProofs SwissModel SwissSpec SwissProofs
  OverlapSpec OverlapProofs DiskSpec.
Import ListNotations.
Open Scope Z_scope.

(** ** What a success tells *)
Lemma tiles_dirs {T} faulty run n ty chk m e (value : lat_lon -> outcome (option T)) color_fn tr :
  p_ignore (create_all_tiles chk m e (zoom_range (run_model run)) value color_fn (save_tile_step faulty ty run n)) tr (Ok tt) ->
  forall z x y, 0 <= z <= last_zoom (run_model run) -> covers chk m e z x y -> In (EDir (output_path run n ty ++ dec z ++ "/" ++ dec x)%string) tr.
Proof.
  assert (ZZ : zoom_range (run_model run) = (zl, zh run)) by (unfold zl, zh; destruct (run_model run); reflexivity). rewrite ZZ.
  pose proof (zooms_small run) as ZS. intros (r0 & R & H) z x y Hz C. destruct r0 as [[]|o|]; [| |discriminate].
  2: { destruct (all_fail chk m e value color_fn _ zl (zh run) tr (Err o) ltac:(lia) (save_noerr faulty run n ty) R ltac:(discriminate)) as [X _]. discriminate. }
  destruct (seen_all chk m e value color_fn _ _ _ R) as (l & ts & O & F & P).
  destruct (c32_complete_proof _ _ _ _ _ _ _ _ _ O) as (_ & I & _).
  assert (J : In (z, x, y) (map place l)) by (apply I; split; [exact Hz|exact C]).
  apply in_map_iff in J. destruct J as (s & Es & J). destruct (in_split _ _ J) as (l1 & l2 & ->).
  apply Forall2_app_inv_l in F. destruct F as (ts1 & ts2 & F1 & F2 & ->). apply Forall2_cons_inv in F2. destruct F2 as (t & ts2' & -> & R2 & F2').
  destruct (save_ok _ _ _ _ _ _ _ _ _ R2) as [D _]. injection Es as <- <- <-. rewrite P, concat_app. cbn [concat]. apply in_or_app. right. apply in_or_app. left. exact D.
Qed.
Lemma bin_created faulty data ty b run n tr : write_bin faulty (Ok data) ty b run n tr (Ok tt) -> In (ECreate (output_path run n ty ++ bin_file b)%string) tr.
Proof.
  unfold write_bin. cbn [p_let]. intro R. apply p_then_ok in R. destruct R as (t1 & t2 & -> & (r1 & [[-> ->]|(_ & -> & ->)] & H1) & _); [now left|discriminate H1].
Qed.
(** What the effects of a success on the files of a step contain. *)
Definition leaves (chk : bool) (m : libm) (k : kind) (run : fc_run) (n : Z) (l : k_data k) (t : list effect) : Prop :=
  forall f c, produces chk m k run l f c -> ~ vertical_file f ->
    match f with
    | TileFile ty z x y => In (EDir (output_path run n ty ++ dec z ++ "/" ++ dec x)%string) t
    | BinFile _ => In (ECreate (file_path run n f)) t
    end.
Lemma steps_leave {L} filter steps (read : fc_step -> outcome L -> Prop) (body : L -> fc_step -> prog effect) tr (P : L -> fc_step -> list effect -> Prop) :
  (forall l s t, body l s t (Ok tt) -> P l s t) -> (forall l s t t', P l s t -> incl t t' -> P l s t') ->
  render_steps filter steps read body tr (Ok tt) -> forall s, In s steps -> wanted filter s -> exists l, read s (Ok l) /\ P l s tr.
Proof.
  intros B M R s J W. apply for_par_ok in R. destruct R as (ts & F & I). apply interleaving_perm in I.
  destruct (in_split _ _ J) as (l1 & l2 & ->). apply Forall2_app_inv_l in F. destruct F as (u1 & u2 & _ & F & ->). apply Forall2_cons_inv in F. destruct F as (t & u3 & -> & R & _).
  cbn beta in R. apply skipped_wanted in W. rewrite W in R. apply p_then_ok in R. destruct R as (t1 & t2 & -> & _ & (o & Ro & R)).
  destruct o as [l|?|]; cbn [p_let] in R; [|destruct R; discriminate|destruct R; discriminate]. exists l. split; [exact Ro|]. apply (M l s t2); [exact (B l s t2 R)|].
  intros e X. apply (Permutation_in _ (Permutation_sym I)). rewrite concat_app. cbn [concat]. apply in_or_app. right. apply in_or_app. left. apply in_or_app. now right.
Qed.
Lemma leaves_incl chk m k run n l t t' : leaves chk m k run n l t -> incl t t' -> leaves chk m k run n l t'.
Proof. intros H I f c P V. specialize (H f c P V). destruct f; apply I, H. Qed.
Lemma leaves_tiled {T} chk m k run n (l : k_data k) faulty e (value : lat_lon -> outcome (option T)) color_fn (q : prog effect) t :
  k_tiles k l = Some (e, create_single_tile chk m value color_fn) ->
  (forall t, q t (Ok tt) -> forall b data, In (b, Ok data) (k_bins k l) -> In (ECreate (file_path run n (BinFile b))) t) ->
  p_then (p_ignore (create_all_tiles chk m e (zoom_range (run_model run)) value color_fn (save_tile_step faulty (k_type k) run n))) q t (Ok tt) ->
  leaves chk m k run n l t.
Proof.
  intros Et Q R f c P _. apply p_then_ok in R. destruct R as (t1 & t2 & -> & R1 & R2). destruct f as [ty z x y|b]; cbn [produces] in P; apply in_or_app.
  - left. destruct P as (-> & d & (e' & make & E' & Hz & C & _) & _). rewrite Et in E'. injection E' as <- <-. exact (tiles_dirs _ _ _ _ _ _ _ _ _ _ R1 z x y Hz C).
  - right. destruct P as (data & J & _). exact (Q t2 R2 b data J).
Qed.
Lemma success_leaves chk m k : In k (kinds chk m) -> forall faulty run steps filter read tr, k_render k faulty run steps filter read tr (Ok tt) ->
  forall s, In s steps -> wanted filter s -> exists l, read s (Ok l) /\ leaves chk m k run (st_nr s) l tr.
Proof.
  intros K faulty run steps filter read tr R. destruct K as [<-|[<-|[<-|[<-|[<-|[]]]]]];
    cbn [k_render k_data cloud_precip_kind wind_kind temp_kind vertical_cloud_kind vertical_wind_kind] in *; unfold cloud_precip_render, wind_render, temp_render, vertical_cloud_render, vertical_wind_render in R.
  - refine (steps_leave filter steps read _ tr (fun l s t => leaves chk m (cloud_precip_kind chk m) run (st_nr s) l t) _ _ R); [|intros ? ? ? ?; apply leaves_incl].
    intros l s t B. refine (leaves_tiled chk m (cloud_precip_kind chk m) run (st_nr s) l faulty _ _ _ _ t eq_refl _ B). clear t B. intros t B b data J.
    apply p_then_ok in B. destruct B as (t1 & t2 & -> & B1 & B2). cbn in J. apply in_or_app.
    destruct J as [J|[J|[]]]; injection J as <- E; [left; rewrite E in B1; exact (bin_created _ _ _ _ _ _ _ B1)|right; rewrite E in B2; exact (bin_created _ _ _ _ _ _ _ B2)].
  - refine (steps_leave filter steps read _ tr (fun l s t => leaves chk m (wind_kind chk m) run (st_nr s) l t) _ _ R); [|intros ? ? ? ?; apply leaves_incl].
    intros l s t B. refine (leaves_tiled chk m (wind_kind chk m) run (st_nr s) l faulty _ _ _ _ t eq_refl _ B). clear t B. intros t B b data J.
    cbn in J. destruct J as [J|[]]; injection J as <- E. rewrite E in B. exact (bin_created _ _ _ _ _ _ _ B).
  - refine (steps_leave filter steps read _ tr (fun l s t => leaves chk m (temp_kind chk m) run (st_nr s) l t) _ _ R); [|intros ? ? ? ?; apply leaves_incl].
    intros l s t B. refine (leaves_tiled chk m (temp_kind chk m) run (st_nr s) l faulty _ _ _ _ t eq_refl _ B). clear t B. intros t B b data J.
    cbn in J. destruct J as [J|[]]; injection J as <- E. rewrite E in B. exact (bin_created _ _ _ _ _ _ _ B).
  - refine (steps_leave filter steps read _ tr (fun l s t => leaves chk m vertical_cloud_kind run (st_nr s) l t) _ _ R); [|intros ? ? ? ?; apply leaves_incl].
    intros l s t _ f c P V. exfalso. apply V. destruct f as [ty z x y|b]; [destruct P as (_ & d & (e & make & E & _) & _); discriminate E|]. destruct P as (data & [J|[]] & _). injection J as <- _. now left.
  - refine (steps_leave filter steps read _ tr (fun l s t => leaves chk m vertical_wind_kind run (st_nr s) l t) _ _ R); [|intros ? ? ? ?; apply leaves_incl].
    intros l s t _ f c P V. exfalso. apply V. destruct f as [ty z x y|b]; [destruct P as (_ & d & (e & make & E & _) & _); discriminate E|]. destruct P as (data & [J|[]] & _). injection J as <- _. now right.
Qed.
Lemma nr_inj steps (s s' : fc_step) : NoDup (map st_nr steps) -> In s steps -> In s' steps -> st_nr s = st_nr s' -> s = s'.
Proof.
  intros ND J J' En. destruct (in_split _ _ J) as (l1 & l2 & ->). rewrite map_app in ND. cbn [map] in ND. apply NoDup_remove_2 in ND.
  apply in_app_or in J'. destruct J' as [J'|[J'|J']]; [|congruence|]; exfalso; apply ND; rewrite En; apply in_or_app; [left|right]; now apply in_map.
Qed.
Lemma produces_one chk m k run l f c c' : In k (kinds chk m) -> produces chk m k run l f c -> produces chk m k run l f c' -> c = c'.
Proof.
  intros K P P'. destruct f as [t z x y|b]; cbn [produces] in P, P'.
  - destruct P as (_ & d & (e & make & Ek & _ & _ & E1) & ->), P' as (_ & d' & (e' & make' & Ek' & _ & _ & E1') & ->). congruence.
  - destruct P as (d & I1 & ->), P' as (d' & I2 & ->). destruct K as [<-|[<-|[<-|[<-|[<-|[]]]]]]; cbn in I1, I2;
      repeat match goal with H : _ \/ _ |- _ => destruct H end; try contradiction; congruence.
Qed.
Lemma c87_success_proof : forall chk m k, In k (kinds chk m) -> forall run steps filter read tr,
  valid_run run -> Forall (fun s => 0 <= st_nr s) steps -> NoDup (map st_nr steps) -> stable read ->
  k_render k true run steps filter read tr (Ok tt) ->
  (forall s l f c, In s steps -> wanted filter s -> read s (Ok l) -> produces chk m k run l f c ->
     (~ vertical_file f -> has_dir tr (file_path run (st_nr s) f)) /\
     forall before, (exists found, beginning true c found /\ file_after (file_path run (st_nr s) f) before tr = Some found) \/
       (unnoticed f /\ file_after (file_path run (st_nr s) f) before tr = before)) /\
  (forall q, (forall s l f c, In s steps -> wanted filter s -> read s (Ok l) -> produces chk m k run l f c -> q <> file_path run (st_nr s) f) ->
     forall before, file_after q before tr = before).
Proof.
  intros chk m k K run steps filter read tr V NN ND St R.
  set (F := fun q c => exists s l f, In s steps /\ wanted filter s /\ read s (Ok l) /\ q = file_path run (st_nr s) f /\ produces chk m k run l f c).
  assert (A : Forall (rightly true F) tr).
  { eapply Forall_impl; [|exact (render_right chk m k K true run steps filter read tr _ R)]. intros e [(s & ->)|(s & l & J & W & Rl & X)]; [exact I|].
    eapply rightly_impl; [|exact X]. intros q c (f & E & P). exists s, l, f. auto. }
  destruct (kind_body chk m k K) as (body & GB). pose proof (right_found true F tr A) as Fo. pose proof (c58_proof chk m k K true run steps filter read tr _ V NN R) as O. rewrite Forall_forall in NN. split.
  - intros s l f c J W Rl P. destruct (success_leaves chk m k K true run steps filter read tr R s J W) as (l' & Rl' & Le). rewrite (St s l' l Rl' Rl) in Le. clear l' Rl'. split.
    + intro NV. specialize (Le f c P NV). destruct f as [ty z x y|b].
      * cbn [file_path]. exists (output_path run (st_nr s) ty ++ dec z ++ "/" ++ dec x)%string, (dec y ++ ".png")%string.
        assert (Q : proper (TileFile ty z x y)) by (eapply produces_proper; eassumption). destruct Q as (_ & _ & _ & Y).
        split; [rewrite !append_assoc; reflexivity|]. split; [rewrite contains_app, dec_no_char by (assumption || reflexivity); reflexivity|]. eexists. split; [exact Le|now left].
      * apply in_split in Le. destruct Le as (a & b' & E). specialize (O a _ b' E). cbn [prepared] in O. destruct O as (dir & file & E1 & E2 & d & Jd & Ed).
        exists dir, file. split; [exact E1|]. split; [exact E2|]. exists d. split; [rewrite E; apply in_or_app; now left|exact Ed].
    + assert (G : forall found, (exists c', F (file_path run (st_nr s) f) c' /\ beginning true c' found) -> beginning true c found).
      { intros found (c' & (s' & l' & f' & J' & W' & Rl' & Eq & P') & B). assert (Q : proper f) by (eapply produces_proper; eassumption). assert (Q' : proper f') by (eapply produces_proper; eassumption).
        apply c47_paths_proof in Eq; auto. destruct Eq as (_ & En & <-). assert (s' = s) by (symmetry; now apply (nr_inj steps)). subst s'. rewrite (St s l' l Rl' Rl) in P'.
        rewrite (produces_one chk m k run l f c c' K P P'). exact B. }
      intros before. destruct (Fo (file_path run (st_nr s) f) before) as [E|(c' & found & HF & B & E)]; [|left; exists found; split; [apply G; eauto|exact E]].
      destruct f as [ty z x y|b]; [right; split; [left; eauto|exact E]|].
      assert (D : vertical_file (BinFile b) \/ ~ vertical_file (BinFile b)) by (unfold vertical_file; destruct b; try (left; (left; reflexivity) || (right; reflexivity)); right; intros [X|X]; discriminate).
      destruct D as [D|D]; [right; split; [now right|exact E]|]. left. specialize (Le _ c P D). cbn [file_path] in *.
      destruct (Fo (output_path run (st_nr s) (bin_layer b) ++ bin_file b)%string None) as [E'|(c' & found & HF & B & E')].
      * exfalso. rewrite file_after_hit in E'. refine (last_hit_some _ _ _ Le _ _); [cbn [hit]; rewrite String.eqb_refl; discriminate|]. destruct (last_hit _ tr); [discriminate E'|reflexivity].
      * exists found. split; [apply G; eauto|]. rewrite file_after_hit in *. destruct (last_hit _ tr) as [h|]; [exact E'|discriminate E'].
  - intros q X before. destruct (Fo q before) as [E|(c & found & (s & l & f & J & W & Rl & Eq & P) & _)]; [exact E|]. destruct (X s l f c J W Rl P Eq).
Qed.

(** ** The whole call of the German service *)
Lemma selected_ok filter cp wi te (heights : result (list bgrid)) vc vw tr : render_selected filter cp wi te heights vc vw tr (Ok tt) ->
  (named filter CloudPrecip -> exists t, incl t tr /\ cp t (Ok tt)) /\ (named filter Wind10m -> exists t, incl t tr /\ wi t (Ok tt)) /\
  (named filter Temp2m -> exists t, incl t tr /\ te t (Ok tt)).
Proof.
  intro R. unfold render_selected in R. apply p_then_ok in R. destruct R as (t1 & t2 & -> & R1 & R). apply p_then_ok in R. destruct R as (t3 & t4 & -> & R2 & R).
  apply p_then_ok in R. destruct R as (t5 & t6 & -> & R3 & _). split; [|split]; intro N; apply selected_spec in N; rewrite N in *; cbn [p_if] in *.
  - exists t1. split; [apply incl_appl, incl_refl|exact R1].
  - exists t3. split; [apply incl_appr, incl_appl, incl_refl|exact R2].
  - exists t5. split; [apply incl_appr, incl_appr, incl_appl, incl_refl|exact R3].
Qed.
Lemma leaves_unnoticed chk m run tr : forall k (l : k_data k) n f c t, produces chk m k run l f c -> leaves chk m k run n l t -> incl t tr ->
  unnoticed_path run (file_path run n f) \/ In (ECreate (file_path run n f)) tr.
Proof.
  intros k l n f c' t P Le I. destruct f as [ty z x y|b]; [left; exists n, (TileFile ty z x y); split; [left; eauto|reflexivity]|].
  assert (D : vertical_file (BinFile b) \/ ~ vertical_file (BinFile b)) by (unfold vertical_file; destruct b; try (left; (left; reflexivity) || (right; reflexivity)); right; intros [X|X]; discriminate).
  destruct D as [D|D]; [left; exists n, (BinFile b); split; [now right|reflexivity]|]. right. apply I. exact (Le _ _ P D).
Qed.
Lemma vertical_unnoticed chk m run : forall k (l : k_data k) n f c, k = vertical_cloud_kind \/ k = vertical_wind_kind -> produces chk m k run l f c -> unnoticed_path run (file_path run n f).
Proof.
  intros k l n f c' Kv P. exists n, f. split; [|reflexivity]. destruct Kv as [->| ->]; (destruct f as [ty z x y|b]; [left; eauto|]); destruct P as (data & [J|[]] & _); injection J as <- _; right; [now left|now right].
Qed.
Lemma dwd_leaves chk powi fetch m head today today' model vars steps tr run : dwd_model model -> steady fetch ->
  dwd_render_latest chk powi fetch m true head today today' model vars steps tr (Ok tt) -> find_latest_run head model today today' = Ok run ->
  forall q c, belongs chk powi fetch m [(vars, steps)] run q c -> unnoticed_path run q \/ In (ECreate q) tr.
Proof.
  intros M St R Fr q c B. destruct (render_run chk powi fetch m true head today today' model vars steps tr _ M R) as (run' & F' & W).
  assert (run' = run) by congruence. subst run'. clear R F'. destruct (selected_ok _ _ _ _ _ _ _ _ W) as (Hc & Hw & Ht). clear W.
  assert (AS : forall t n, asked [(vars, steps)] run t n -> named vars t /\ wanted_nr run steps n) by (intros t n (c' & [<-|[]] & H); exact H).
  assert (Js : forall n, wanted_nr run steps n -> In (numbered n) (forecast_steps (run_model run)) /\ wanted steps (numbered n)).
  { intros n [Bn Wn]. split; [apply step_in; cbn [st_nr numbered]; auto|exact Wn]. }
  assert (W0 : forall n, wanted_nr run steps n -> wanted_nr run [] n) by (intros n [Bn _]; split; [exact Bn|now left]).
  pose proof (float_same chk powi fetch St run) as FS. destruct (kind_in chk m) as (K1 & K2 & K3 & _).
  pose proof (leaves_unnoticed chk m run tr) as L. pose proof (vertical_unnoticed chk m run) as UV.
  destruct B as [n temp f c1 A G P|n u v g f c1 A G1 G2 G3 P|n clct p0 p1 clct' ce ww f c1 A G1 G2 G3 G4 G5 G6 P|n hhl clc f c1 A G1 G2 P|n hhl u v f c1 A G1 G2 G3 P];
    [apply AS in A; destruct A as [N Wn]; destruct (Js n Wn) as [J Ws].. | |].
  - destruct (Ht N) as (t & I & Rt). destruct (success_leaves chk m _ K3 true run _ steps _ t Rt _ J Ws) as (l & Rl & Le). apply read_single_spec in Rl.
    rewrite (FS _ _ _ _ G Rl) in P. exact (L _ _ n f c1 t P Le I).
  - destruct (Hw N) as (t & I & Rt). destruct (success_leaves chk m _ K2 true run _ steps _ t Rt _ J Ws) as (l & Rl & Le). unfold read_wind in Rl.
    apply r_bind_ok in Rl. destruct Rl as (u' & Ru & Rl). apply r_bind_ok in Rl. destruct Rl as (v' & Rv & Rl). apply r_bind_ok in Rl. destruct Rl as (g' & Rg & Rl).
    symmetry in Rl. apply wind_new_ok in Rl. subst l. apply read_single_spec in Ru, Rv, Rg. rewrite (FS _ _ _ _ G1 Ru), (FS _ _ _ _ G2 Rv), (FS _ _ _ _ G3 Rg) in P. exact (L _ _ n f c1 t P Le I).
  - destruct (Hc N) as (t & I & Rt). destruct (success_leaves chk m _ K1 true run _ steps _ t Rt _ J Ws) as (l & Rl & Le).
    destruct (cpw_grids chk powi fetch run n l (W0 n Wn) Rl) as (a1 & a2 & a3 & a4 & a5 & a6 & E1 & E2 & E3 & E4 & E5 & E6 & ->).
    rewrite (FS _ _ _ _ G1 E1), (FS _ _ _ _ G2 E2), (FS _ _ _ _ G3 E3), (FS _ _ _ _ G4 E4), (FS _ _ _ _ G5 E5), (FS _ _ _ _ G6 E6) in P. exact (L _ _ n f c1 t P Le I).
  - left. exact (UV _ _ n f c1 (or_introl eq_refl) P).
  - left. exact (UV _ _ n f c1 (or_intror eq_refl) P).
Qed.
Lemma c87_dwd_proof : forall chk powi fetch m head today today' model vars steps tr,
  dwd_model model -> valid_date today -> valid_date (prev_day today') -> steady fetch ->
  dwd_render_latest chk powi fetch m true head today today' model vars steps tr (Ok tt) ->
  exists run, find_latest_run head model today today' = Ok run /\
    (forall q c, belongs chk powi fetch m [(vars, steps)] run q c -> forall before,
       (exists found, beginning true c found /\ file_after q before tr = Some found) \/ (unnoticed_path run q /\ file_after q before tr = before)) /\
    (forall q, (forall c, ~ belongs chk powi fetch m [(vars, steps)] run q c) -> forall before, file_after q before tr = before).
Proof.
  intros chk powi fetch m head today today' model vars steps tr M V V' St R.
  destruct (c50_latest_proof head model today today' M) as (run & Fr & _). exists run. split; [exact Fr|]. destruct (found_run _ _ _ _ _ M V V' Fr) as [VR _].
  pose proof (right_found true _ _ (dwd_right chk powi fetch m true head today today' model vars steps [(vars, steps)] run tr _ M (or_introl eq_refl) R Fr)) as Fo. split.
  - intros q c B before. destruct (Fo q before) as [E|(c' & found & B' & G & E)].
    + destruct (dwd_leaves chk powi fetch m head today today' model vars steps tr run M St R Fr q c B) as [U|Cr]; [right; auto|]. left.
      destruct (Fo q None) as [E'|(c' & found & B' & G & E')].
      * exfalso. rewrite file_after_hit in E'. refine (last_hit_some _ _ _ Cr _ _); [cbn [hit]; rewrite String.eqb_refl; discriminate|]. destruct (last_hit _ tr); [discriminate E'|reflexivity].
      * exists found. rewrite (belongs_same chk powi fetch m St run VR _ _ q q c c' B B' eq_refl). split; [exact G|]. rewrite file_after_hit in *. destruct (last_hit _ tr); [exact E'|discriminate E'].
    + left. exists found. rewrite (belongs_same chk powi fetch m St run VR _ _ q q c c' B B' eq_refl). auto.
  - intros q N before. destruct (Fo q before) as [E|(c & found & B & _)]; [exact E|]. destruct (N c B).
Qed.

(** ** The whole call of the Swiss service *)
Section Swiss.
  Variables (chk : bool) (powi : f32 -> Z -> f32) (rfc : rfc3339_parser) (sv : service) (m : libm) (S : settled sv) (D : dated rfc sv).
  Ltac same :=
    repeat match goal with
    | A : nth_file sv ?t ?v ?n ?f, B : nth_file sv ?t ?v ?n ?f' |- _ => tryif constr_eq f f' then fail else (pose proof (nth_same sv S t v n f f' A B); subst f'; clear B)
    end;
    repeat match goal with
    | A : value_file chk powi (sv_fetch sv) ?u ?f ?g, B : value_file chk powi (sv_fetch sv) ?u ?f ?g' |- _ =>
        tryif constr_eq g g' then fail else (pose proof (value_same chk powi sv S u _ _ f g g' A B); subst g'; clear B)
    | A : percent_file chk powi (sv_fetch sv) ?u ?f ?g, B : percent_file chk powi (sv_fetch sv) ?u ?f ?g' |- _ =>
        tryif constr_eq g g' then fail else (pose proof (value_same chk powi sv S u _ _ f g g' A B); subst g'; clear B)
    end.
  Lemma swiss_leaves vars steps tr u heights t : started chk powi rfc sv u heights t -> swiss_render_latest chk powi rfc sv m true steps vars tr (Ok tt) ->
    forall q c, swiss_belongs chk powi rfc sv m [(vars, steps)] q c -> unnoticed_path (swiss_run_of t) q \/ In (ECreate q) tr.
  Proof.
    intros St R q c B. destruct (swiss_start _ _ _ _ _ _ _ _ _ _ R) as [[_ X]|(u0 & h0 & t0 & S0 & R')]; [contradiction|]. clear R.
    destruct (started_same chk powi rfc sv S _ _ _ _ _ _ St S0) as (<- & <- & <-). clear S0. pose proof (started_valid _ _ _ _ _ _ _ D St) as V. destruct (kind_in chk m) as (K1 & K2 & K3 & _).
    destruct (selected_ok _ _ _ _ _ _ _ _ R') as (Hc & Hw & Ht). clear R'.
    assert (AS : forall ty n, swiss_asked [(vars, steps)] ty n -> named vars ty /\ wanted_step steps n) by (intros ty n (c' & [<-|[]] & H); exact H).
    pose proof (leaves_unnoticed chk m (swiss_run_of t) tr) as L. pose proof (vertical_unnoticed chk m (swiss_run_of t)) as UV.
    destruct B as [u' h' t' n f temp o c1 St' A NF G P|u' h' t' n fu fv fg a b g o c1 St' A N1 N2 N3 G1 G2 G3 P|u' h' t' n fc f0 f1 fe clct p0 p1 clct' ce o c1 St' A N1 N2 N3 N4 G1 G2 G3 G4 G5 P
      |u' h' t' n f hhl clc o c1 St' A NF G1 G2 P|u' h' t' n fu fv hhl a b o c1 St' A N1 N2 G1 G2 G3 P];
      destruct (started_same chk powi rfc sv S _ _ _ _ _ _ St St') as (<- & <- & <-); clear St'; apply AS in A; destruct A as [N W].
    - destruct (Ht N) as (tt' & I & Rt). destruct (te_layered chk powi sv m u t V true steps _ _ Rt) as [[_ X]|(ss & read & (lt & Ft & -> & ->) & Rk)]; [contradiction|].
      destruct NF as (l' & Fl' & Hn). rewrite (files_same sv S _ _ _ _ Fl' Ft) in Hn.
      destruct (success_leaves chk m _ K3 true _ _ steps _ tt' Rk {| st_nr := Z.of_nat n; st_url := ss_href f |}) as (l & Rl & Le); [apply number_in; exists n, f; split; [exact Hn|split; [discriminate|reflexivity]]|exact W|].
      unfold swiss_read_temp in Rl. apply r_bind_ok in Rl. destruct Rl as (s' & Es & Rl). apply unwrap_ok in Es. cbn [st_nr] in Es. rewrite (lookup_some false lt n f Hn) in Es by discriminate.
      injection Es as <-. cbn [st_url] in Rl. apply unstructured_spec in Rl. rewrite (value_same chk powi sv S u _ _ f temp l G Rl) in P. exact (L _ _ _ o c1 tt' P Le I).
    - destruct (Hw N) as (tt' & I & Rt). destruct (wi_layered chk powi sv m u t V true steps _ _ Rt) as [[_ X]|(ss & read & (lu & lv & lg & Fu & Fv & Fg & -> & ->) & Rk)]; [contradiction|].
      destruct N1 as (l' & Fl' & Hn). rewrite (files_same sv S _ _ _ _ Fl' Fu) in Hn.
      destruct (success_leaves chk m _ K2 true _ _ steps _ tt' Rk {| st_nr := Z.of_nat n; st_url := ss_href fu |}) as (l & Rl & Le); [apply number_in; exists n, fu; split; [exact Hn|split; [discriminate|reflexivity]]|exact W|].
      unfold swiss_read_wind in Rl. apply r_bind_ok in Rl. destruct Rl as (s1 & E1 & Rl). apply r_bind_ok in Rl. destruct Rl as (s2 & E2 & Rl). apply r_bind_ok in Rl. destruct Rl as (s3 & E3 & Rl).
      unfold r_of in E1, E2, E3. cbn [st_nr] in *. symmetry in E2, E3. rewrite (lookup_some false lu n fu Hn) in E1 by discriminate. injection E1 as ->.
      apply lookup_ok in E2, E3. destruct E2 as (fv' & N2' & _ & U2 & _), E3 as (fg' & N3' & _ & U3 & _). cbn [st_url] in Rl. rewrite U2, U3 in Rl.
      apply r_bind_ok in Rl. destruct Rl as (a' & Ra & Rl). apply r_bind_ok in Rl. destruct Rl as (b' & Rb & Rl). apply r_bind_ok in Rl. destruct Rl as (g' & Rg & Rl).
      symmetry in Rl. apply wind_new_ok in Rl. subst l. apply unstructured_spec in Ra, Rb, Rg.
      assert (Nv : nth_file sv t SV10m n fv') by (exists lv; auto). assert (Ng : nth_file sv t SVmax10m n fg') by (exists lg; auto).
      change (value_file chk powi (sv_fetch sv) u fu a') in Ra. change (value_file chk powi (sv_fetch sv) u fv' b') in Rb. change (value_file chk powi (sv_fetch sv) u fg' g') in Rg.
      same. exact (L _ _ _ o c1 tt' P Le I).
    - destruct (Hc N) as (tt' & I & Rt). destruct (cp_layered chk powi sv m u t V true steps _ _ Rt) as [[_ X]|(ss & read & (lc & lp & le & Fc & Fp & Fe & -> & ->) & Rk)]; [contradiction|].
      destruct N1 as (l' & Fl' & Hn). rewrite (files_same sv S _ _ _ _ Fl' Fc) in Hn.
      destruct (success_leaves chk m _ K1 true _ _ steps _ tt' Rk {| st_nr := Z.of_nat (Datatypes.S n); st_url := ss_href fc |}) as (l & Rl & Le); [apply number_in; exists (Datatypes.S n), fc; split; [exact Hn|split; [lia|reflexivity]]|exact W|].
      unfold swiss_read_cloud_precip_weather in Rl. apply r_bind_ok in Rl. destruct Rl as (cp & Rcp & Rl). apply r_bind_ok in Rl. destruct Rl as (we & Rwe & Rl). injection Rl as ->.
      unfold swiss_read_cloud_precip in Rcp. apply r_bind_ok in Rcp. destruct Rcp as (s1 & H1 & Rcp). apply r_bind_ok in Rcp. destruct Rcp as (b & Hb & Rcp).
      apply r_bind_ok in Rcp. destruct Rcp as (s2 & H2 & Rcp). apply r_bind_ok in Rcp. destruct Rcp as (s3 & H3 & Rcp).
      apply r_bind_ok in Rcp. destruct Rcp as (cl & Rc & Rcp). apply r_bind_ok in Rcp. destruct Rcp as (q0 & R0 & Rcp). apply r_bind_ok in Rcp. destruct Rcp as (q1 & R1 & Rcp).
      symmetry in Rcp. apply cloud_precip_new_ok in Rcp. subst cp.
      unfold swiss_read_weather in Rwe. apply r_bind_ok in Rwe. destruct Rwe as (s4 & H4 & Rwe). apply r_bind_ok in Rwe. destruct Rwe as (s5 & H5 & Rwe).
      apply r_bind_ok in Rwe. destruct Rwe as (cl' & Rc' & Rwe). apply r_bind_ok in Rwe. destruct Rwe as (ce' & Rce & Rwe). symmetry in Rwe. apply weather_new_ok in Rwe. subst we.
      cbn [st_nr] in *. apply unwrap_ok in H1, H2, H3, H4, H5.
      assert (Eb : b = Z.of_nat n). { unfold r_of, usub in Hb. destruct (Z.leb_spec 1 (Z.of_nat (Datatypes.S n))); [|lia]. replace (Z.of_nat (Datatypes.S n) - 1) with (Z.of_nat n) in Hb by lia. congruence. }
      subst b. rewrite (lookup_some true lc (Datatypes.S n) fc Hn) in H1, H4 by lia. injection H1 as <-. injection H4 as <-.
      apply lookup_ok in H2, H3, H5. destruct H2 as (f0' & N2' & _ & U2 & _), H3 as (f1' & N3' & _ & U3 & _), H5 as (fe' & N5' & _ & U5 & _). cbn [st_url] in *. rewrite U2 in R0. rewrite U3 in R1. rewrite U5 in Rce.
      apply unstructured_spec in Rc, R0, R1, Rc', Rce.
      assert (X0 : nth_file sv t STotPrec n f0') by (exists lp; auto). assert (X1 : nth_file sv t STotPrec (Datatypes.S n) f1') by (exists lp; auto). assert (Xe : nth_file sv t SCeiling (Datatypes.S n) fe') by (exists le; auto).
      change (percent_file chk powi (sv_fetch sv) u fc cl) in Rc. change (percent_file chk powi (sv_fetch sv) u fc cl') in Rc'. change (value_file chk powi (sv_fetch sv) u f0' q0) in R0.
      change (value_file chk powi (sv_fetch sv) u f1' q1) in R1. change (value_file chk powi (sv_fetch sv) u fe' ce') in Rce.
      same. exact (L _ _ _ o c1 tt' P Le I).
    - left. exact (UV _ _ _ o c1 (or_introl eq_refl) P).
    - left. exact (UV _ _ _ o c1 (or_intror eq_refl) P).
  Qed.
End Swiss.
Lemma c87_swiss_proof : forall chk powi rfc3339 sv m vars steps tr, dated rfc3339 sv -> settled sv ->
  swiss_render_latest chk powi rfc3339 sv m true steps vars tr (Ok tt) ->
  exists u heights t, started chk powi rfc3339 sv u heights t /\
    (forall q c, swiss_belongs chk powi rfc3339 sv m [(vars, steps)] q c -> forall before,
       (exists found, beginning true c found /\ file_after q before tr = Some found) \/ (unnoticed_path (swiss_run_of t) q /\ file_after q before tr = before)) /\
    (forall q, (forall c, ~ swiss_belongs chk powi rfc3339 sv m [(vars, steps)] q c) -> forall before, file_after q before tr = before).
Proof.
  intros chk powi rfc sv m vars steps tr D S R.
  destruct (swiss_start _ _ _ _ _ _ _ _ _ _ R) as [[_ X]|(u & h & t & St & _)]; [contradiction|]. exists u, h, t. split; [exact St|].
  pose proof (right_found true _ _ (swiss_right chk powi rfc sv m [(vars, steps)] true vars steps tr _ D (or_introl eq_refl) R)) as Fo. split.
  - intros q c B before. destruct (Fo q before) as [E|(c' & found & B' & G & E)].
    + destruct (swiss_leaves chk powi rfc sv m S D vars steps tr u h t St R q c B) as [U|Cr]; [right; auto|]. left.
      destruct (Fo q None) as [E'|(c' & found & B' & G & E')].
      * exfalso. rewrite file_after_hit in E'. refine (last_hit_some _ _ _ Cr _ _); [cbn [hit]; rewrite String.eqb_refl; discriminate|]. destruct (last_hit _ tr); [discriminate E'|reflexivity].
      * exists found. rewrite (swiss_same chk powi rfc sv m S D _ _ q q c c' B B' eq_refl). split; [exact G|]. rewrite file_after_hit in *. destruct (last_hit _ tr); [exact E'|discriminate E'].
    + left. exists found. rewrite (swiss_same chk powi rfc sv m S D _ _ q q c c' B B' eq_refl). auto.
  - intros q N before. destruct (Fo q before) as [E|(c & found & B & _)]; [exact E|]. destruct (N c B).
Qed.

(** ** Nothing need be written *)
Section Sim.
  Variable f : effect -> list effect.
  Definition sim (p q : prog effect) : Prop := forall tr r, p tr r -> q (flat_map f tr) r.
  Lemma sim_end o : sim (p_end o) (p_end o).
  Proof. intros tr r [-> ->]. split; reflexivity. Qed.
  Lemma sim_then p q p' q' : sim p p' -> sim q q' -> sim (p_then p q) (p_then p' q').
  Proof.
    intros S1 S2 tr r [[R N]|(t1 & t2 & -> & R1 & R2)]; [left; split; [exact (S1 _ _ R)|exact N]|]. right. exists (flat_map f t1), (flat_map f t2). split; [apply flat_map_app|].
    split; [exact (S1 _ _ R1)|exact (S2 _ _ R2)].
  Qed.
  Lemma sim_ignore p p' : sim p p' -> sim (p_ignore p) (p_ignore p').
  Proof. intros S tr r (r' & R & E). exists r'. split; [exact (S _ _ R)|exact E]. Qed.
  Lemma sim_if b p p' : sim p p' -> sim (p_if b p) (p_if b p').
  Proof. destruct b; cbn [p_if]; [auto|intros _; apply sim_end]. Qed.
  Lemma sim_let {A} (o : outcome A) (q q' : A -> prog effect) : (forall a, sim (q a) (q' a)) -> sim (p_let o q) (p_let o q').
  Proof. intro H. destruct o; cbn [p_let]; [apply H|apply sim_end..]. Qed.
  Lemma sim_call {A} (g : outcome A -> Prop) (q q' : A -> prog effect) : (forall a, sim (q a) (q' a)) -> sim (p_call g q) (p_call g q').
  Proof. intros H tr r (o & G & R). exists o. split; [exact G|]. exact (sim_let o q q' H _ _ R). Qed.
  Lemma sim_seq {A} (l : list A) (body body' : A -> prog effect) : (forall a, sim (body a) (body' a)) -> sim (for_seq l body) (for_seq l body').
  Proof. intro H. induction l as [|a l IH]; cbn [for_seq]; [apply sim_end|]. now apply sim_then. Qed.
  Lemma interleaving_front (t : list effect) l1 l2 tr : interleaving (l1 ++ t :: l2) tr -> forall u, interleaving (l1 ++ (u ++ t) :: l2) (u ++ tr).
  Proof. intros I u. induction u as [|e u IH]; [exact I|]. cbn [app]. apply (il_next l1 e (u ++ t) l2). exact IH. Qed.
  Lemma interleaving_map ts tr : interleaving ts tr -> interleaving (map (flat_map f) ts) (flat_map f tr).
  Proof.
    intro I. induction I as [ts F|l1 e t l2 tr I IH].
    - apply il_done. apply Forall_forall. intros t J. apply in_map_iff in J. destruct J as (t' & <- & J). rewrite Forall_forall in F. rewrite (F t' J). reflexivity.
    - rewrite map_app in *. cbn [map flat_map] in *. apply interleaving_front. exact IH.
  Qed.
  Lemma sim_par {A} (l : list A) (body body' : A -> prog effect) : (forall a, sim (body a) (body' a)) -> sim (for_par l body) (for_par l body').
  Proof.
    intros H tr r (xs & F & I & C). set (g := fun x : option (list effect * outcome unit) => match x with Some (t, o) => Some (flat_map f t, o) | None => None end).
    assert (J : forall t o, In (Some (t, o)) xs -> In (Some (flat_map f t, o)) (map g xs)) by (intros t o J; apply (in_map g _ _ J)).
    assert (K : forall t o, In (Some (t, o)) (map g xs) -> exists t', In (Some (t', o)) xs).
    { intros t o X. apply in_map_iff in X. destruct X as ([[t' o']|] & E & X); [|discriminate E]. injection E as <- <-. eauto. }
    exists (map g xs). split; [|split].
    - clear -F H. induction F as [|a x l xs S F IH]; cbn [map]; constructor; [|exact IH]. destruct x as [[t o]|]; cbn; [exact (H a _ _ S)|exact I].
    - replace (traces_of (map g xs)) with (map (flat_map f) (traces_of xs)); [now apply interleaving_map|]. unfold traces_of. rewrite !map_map. apply map_ext. intros [[t o]|]; reflexivity.
    - destruct r as [[]|e|].
      + rewrite Forall_forall in *. intros x X. apply in_map_iff in X. destruct X as (y & <- & X). destruct (C y X) as (t & ->). cbn. eauto.
      + destruct C as [(t & X) N]. split; [eauto|]. intros t' X'. destruct (K _ _ X') as (t'' & X2). exact (N _ X2).
      + destruct C as (t & X). eauto.
  Qed.
  (** What remains of the effects on the disk, if these are as wished for a failing disk. *)
  Hypotheses (Fread : forall s, f (ERead s) = [ERead s]) (Fheights : f EHeights = [EHeights]).
  Hypothesis Fsave : forall ty run n d z x y, sim (save_tile_step false ty run n d z x y) (save_tile_step true ty run n d z x y).
  Hypothesis Fbin : forall bin ty b run n, sim (write_bin false bin ty b run n) (write_bin true bin ty b run n).
  Hypothesis Fvertical : forall bin ty b run n, sim (p_ignore (write_vertical_bin false bin ty b run n)) (p_ignore (write_vertical_bin true bin ty b run n)).
  Lemma sim_tiles {T} chk m e zooms (value : lat_lon -> outcome (option T)) color_fn ty run n :
    sim (create_all_tiles chk m e zooms value color_fn (save_tile_step false ty run n)) (create_all_tiles chk m e zooms value color_fn (save_tile_step true ty run n)).
  Proof.
    unfold create_all_tiles. apply sim_seq. intro z. unfold render_zoom. apply sim_let. intro a. apply sim_let. intro b. apply sim_seq. intro x. apply sim_par. intro y.
    unfold render_tile. destruct (create_single_tile _ _ _ _ _) as [d|?|]; [apply Fsave|apply sim_end|apply sim_end].
  Qed.
  Lemma sim_steps {L} filter steps (read : fc_step -> outcome L -> Prop) (body body' : L -> fc_step -> prog effect) : (forall l s, sim (body l s) (body' l s)) ->
    sim (render_steps filter steps read body) (render_steps filter steps read body').
  Proof.
    intro H. unfold render_steps. apply sim_par. intro s. destruct (skipped filter s); [apply sim_end|]. apply sim_then; [|apply sim_call; intro l; apply H].
    intros tr r [-> ->]. cbn. rewrite Fread. split; reflexivity.
  Qed.
  Lemma sim_cloud_precip chk m run steps filter read : sim (cloud_precip_render chk m false run steps filter read) (cloud_precip_render chk m true run steps filter read).
  Proof. apply sim_steps. intros l s. apply sim_then; [apply sim_ignore; unfold cloud_precip_tiles; apply sim_tiles|]. apply sim_then; apply Fbin. Qed.
  Lemma sim_wind chk m run steps filter read : sim (wind_render chk m false run steps filter read) (wind_render chk m true run steps filter read).
  Proof. apply sim_steps. intros l s. apply sim_then; [apply sim_ignore; unfold wind_tiles; apply sim_tiles|apply Fbin]. Qed.
  Lemma sim_temp chk m run steps filter read : sim (temp_render chk m false run steps filter read) (temp_render chk m true run steps filter read).
  Proof. apply sim_steps. intros l s. apply sim_then; [apply sim_ignore; unfold temp_tiles; apply sim_tiles|apply Fbin]. Qed.
  Lemma sim_vertical_cloud run steps filter read : sim (vertical_cloud_render false run steps filter read) (vertical_cloud_render true run steps filter read).
  Proof. apply sim_steps. intros l s. apply Fvertical. Qed.
  Lemma sim_vertical_wind run steps filter read : sim (vertical_wind_render false run steps filter read) (vertical_wind_render true run steps filter read).
  Proof. apply sim_steps. intros l s. apply Fvertical. Qed.
  Lemma sim_selected vars cp wi te cp' wi' te' (heights : result (list bgrid)) (vc vw vc' vw' : list bgrid -> prog effect) : sim cp cp' -> sim wi wi' -> sim te te' ->
    (forall h, sim (vc h) (vc' h)) -> (forall h, sim (vw h) (vw' h)) -> sim (render_selected vars cp wi te heights vc vw) (render_selected vars cp' wi' te' heights vc' vw').
  Proof.
    intros H1 H2 H3 H4 H5. unfold render_selected. apply sim_then; [now apply sim_if|]. apply sim_then; [now apply sim_if|]. apply sim_then; [now apply sim_if|]. apply sim_if.
    apply sim_then; [intros tr r [-> ->]; cbn; rewrite Fheights; split; reflexivity|]. apply sim_call. intro h. apply sim_then; now apply sim_if.
  Qed.
  Lemma sim_kind chk m k : In k (kinds chk m) -> forall run steps filter read, sim (k_render k false run steps filter read) (k_render k true run steps filter read).
  Proof.
    intros [<-|[<-|[<-|[<-|[<-|[]]]]]] run steps filter read; [apply sim_cloud_precip|apply sim_wind|apply sim_temp|apply sim_vertical_cloud|apply sim_vertical_wind].
  Qed.
  Lemma sim_dwd chk powi fetch m head today today' model vars steps :
    sim (dwd_render_latest chk powi fetch m false head today today' model vars steps) (dwd_render_latest chk powi fetch m true head today today' model vars steps).
  Proof.
    unfold dwd_render_latest. apply sim_let. intro run. apply sim_selected; [apply sim_cloud_precip|apply sim_wind|apply sim_temp|intro h; apply sim_vertical_cloud|intro h; apply sim_vertical_wind].
  Qed.
  Lemma sim_swiss chk powi rfc sv m steps vars : sim (swiss_render_latest chk powi rfc sv m false steps vars) (swiss_render_latest chk powi rfc sv m true steps vars).
  Proof.
    unfold swiss_render_latest. apply sim_call. intro assets. apply sim_let. intro hor. apply sim_call. intro u. apply sim_let. intro vert. apply sim_call. intro t.
    apply sim_selected; [| | |intro h|intro h]; apply sim_let; intro run; repeat (apply sim_call; intro);
      [apply sim_cloud_precip|apply sim_wind|apply sim_temp|apply sim_vertical_cloud|apply sim_vertical_wind].
  Qed.
End Sim.
(** All effects. *)
Definition keep (e : effect) : list effect := [e].
Lemma keep_id tr : flat_map keep tr = tr.
Proof. induction tr as [|e tr IH]; [reflexivity|]. cbn. now rewrite IH. Qed.
Lemma sub_disk e : sim keep (p_disk false e) (p_disk true e).
Proof. intros tr r [[-> ->]|[X _]]; [left; auto|discriminate X]. Qed.
Lemma sub_write path data : sim keep (p_write false path data) (p_write true path data).
Proof. intros tr r R. rewrite keep_id. destruct R as [R|[X _]]; [left; exact R|discriminate X]. Qed.
Lemma sub_unwrap p p' : sim keep p p' -> sim keep (p_unwrap p) (p_unwrap p').
Proof. intros S tr r (r' & R & E). exists r'. split; [exact (S _ _ R)|exact E]. Qed.
Lemma keep_save ty run n d z x y : sim keep (save_tile_step false ty run n d z x y) (save_tile_step true ty run n d z x y).
Proof. apply sim_then; [apply sub_unwrap, sub_disk|apply sim_ignore, sim_then; apply sub_disk]. Qed.
Lemma keep_bin bin ty b run n : sim keep (write_bin false bin ty b run n) (write_bin true bin ty b run n).
Proof. apply sim_let. intro data. apply sim_then; [apply sub_unwrap, sub_disk|apply sim_ignore, sub_write]. Qed.
Lemma keep_vertical bin ty b run n : sim keep (p_ignore (write_vertical_bin false bin ty b run n)) (p_ignore (write_vertical_bin true bin ty b run n)).
Proof. apply sim_ignore, sim_let. intro data. apply sim_then; [apply sub_disk|]. apply sim_then; [apply sub_unwrap, sub_disk|apply sub_write]. Qed.
(** All but the images and the data. *)
Definition lose (e : effect) : list effect := match e with EPart _ _ => [] | EImage _ _ => [] | EWrite p _ => [EWrite p []] | e => [e] end.
Lemma lose_nothing tr : no_content (flat_map lose tr).
Proof. intros e J. apply in_flat_map in J. destruct J as (e' & _ & J). destruct e'; cbn in J; repeat (destruct J as [<-|J]; [exact I || reflexivity|]); destruct J. Qed.
Lemma lose_save ty run n d z x y : sim lose (save_tile_step false ty run n d z x y) (save_tile_step true ty run n d z x y).
Proof.
  apply sim_then.
  - intros tr r (r' & [[-> ->]|[X _]] & ->); [|discriminate X]. exists (Ok tt). split; [left; auto|reflexivity].
  - intros tr r (r' & [[[[_ ->]|[X _]] N]|(t1 & t2 & -> & [[-> _]|[X _]] & [[-> ->]|[X' _]])] & ->); try discriminate; [destruct (N eq_refl)|].
    exists (Err EIo). split; [|reflexivity]. left. split; [right; auto|discriminate].
Qed.
Lemma lose_write path data : sim lose (p_write false path data) (p_write true path data).
Proof. intros tr r [[-> ->]|[X _]]; [|discriminate X]. right. split; [reflexivity|]. exists 0%nat. split; [reflexivity|now left]. Qed.
Lemma lose_bin bin ty b run n : sim lose (write_bin false bin ty b run n) (write_bin true bin ty b run n).
Proof.
  apply sim_let. intro data. apply sim_then; [|apply sim_ignore, lose_write].
  intros tr r (r' & [[-> ->]|[X _]] & ->); [|discriminate X]. exists (Ok tt). split; [left; auto|reflexivity].
Qed.
Lemma lose_vertical bin ty b run n : sim lose (p_ignore (write_vertical_bin false bin ty b run n)) (p_ignore (write_vertical_bin true bin ty b run n)).
Proof.
  apply sim_ignore, sim_let. intro data. apply sim_then; [|apply sim_then; [|apply lose_write]].
  - intros tr r [[-> ->]|[X _]]; [left; auto|discriminate X].
  - intros tr r (r' & [[-> ->]|[X _]] & ->); [|discriminate X]. exists (Ok tt). split; [left; auto|reflexivity].
Qed.
Lemma c87_sound_proof : forall chk powi fetch rfc3339 sv m head today today' model vars steps tr r,
  (dwd_render_latest chk powi fetch m false head today today' model vars steps tr r -> dwd_render_latest chk powi fetch m true head today today' model vars steps tr r) /\
  (swiss_render_latest chk powi rfc3339 sv m false steps vars tr r -> swiss_render_latest chk powi rfc3339 sv m true steps vars tr r).
Proof.
  intros. split; intro R.
  - apply (sim_dwd keep (fun _ => eq_refl) eq_refl keep_save keep_bin keep_vertical) in R. rewrite keep_id in R. exact R.
  - apply (sim_swiss keep (fun _ => eq_refl) eq_refl keep_save keep_bin keep_vertical) in R. rewrite keep_id in R. exact R.
Qed.
Lemma c87_lost_proof : forall chk m k, In k (kinds chk m) -> forall run steps filter read tr r, k_render k false run steps filter read tr r ->
  exists tr', k_render k true run steps filter read tr' r /\ no_content tr'.
Proof.
  intros chk m k K run steps filter read tr r R. exists (flat_map lose tr). split; [|apply lose_nothing].
  exact (sim_kind lose (fun _ => eq_refl) lose_save lose_bin lose_vertical chk m k K run steps filter read tr r R).
Qed.
Lemma c87_dwd_lost_proof : forall chk powi fetch m head today today' model vars steps tr r,
  dwd_render_latest chk powi fetch m false head today today' model vars steps tr r ->
  exists tr', dwd_render_latest chk powi fetch m true head today today' model vars steps tr' r /\ no_content tr'.
Proof.
  intros chk powi fetch m head today today' model vars steps tr r R. exists (flat_map lose tr). split; [|apply lose_nothing].
  exact (sim_dwd lose (fun _ => eq_refl) eq_refl lose_save lose_bin lose_vertical chk powi fetch m head today today' model vars steps tr r R).
Qed.
Lemma c87_swiss_lost_proof : forall chk powi rfc3339 sv m steps vars tr r, swiss_render_latest chk powi rfc3339 sv m false steps vars tr r ->
  exists tr', swiss_render_latest chk powi rfc3339 sv m true steps vars tr' r /\ no_content tr'.
Proof.
  intros chk powi rfc sv m steps vars tr r R. exists (flat_map lose tr). split; [|apply lose_nothing].
  exact (sim_swiss lose (fun _ => eq_refl) eq_refl lose_save lose_bin lose_vertical chk powi rfc sv m steps vars tr r R).
Qed.

(** ** Images in pieces *)
Definition spoil (e : effect) : list effect := match e with EImage _ _ => [] | e => [e] end.
Lemma spoil_disk (e : effect) : spoil e = [e] -> sim spoil (p_disk false e) (p_disk true e).
Proof. intros E tr r [[-> ->]|[X _]]; [|discriminate X]. cbn [flat_map]. rewrite E. left. auto. Qed.
Lemma spoil_unwrap p q : sim spoil p q -> sim spoil (p_unwrap p) (p_unwrap q).
Proof. intros H tr r (r' & R & ->). exists r'. split; [exact (H _ _ R)|reflexivity]. Qed.
Lemma spoil_save ty run n d z x y : sim spoil (save_tile_step false ty run n d z x y) (save_tile_step true ty run n d z x y).
Proof.
  apply sim_then; [apply spoil_unwrap, spoil_disk; reflexivity|].
  intros tr r (r' & [[[[_ ->]|[X _]] N]|(t1 & t2 & -> & [[-> _]|[X _]] & [[-> ->]|[X' _]])] & ->); try discriminate; [destruct (N eq_refl)|].
  exists (Err EIo). split; [|reflexivity]. right. eexists. exists []. split; [reflexivity|]. split; [left; auto|right; auto].
Qed.
Lemma spoil_write path data : sim spoil (p_write false path data) (p_write true path data).
Proof. intros tr r [[-> ->]|[X _]]; [|discriminate X]. left. auto. Qed.
Lemma spoil_bin bin ty b run n : sim spoil (write_bin false bin ty b run n) (write_bin true bin ty b run n).
Proof. apply sim_let. intro data. apply sim_then; [apply spoil_unwrap, spoil_disk; reflexivity|apply sim_ignore, spoil_write]. Qed.
Lemma spoil_vertical bin ty b run n : sim spoil (p_ignore (write_vertical_bin false bin ty b run n)) (p_ignore (write_vertical_bin true bin ty b run n)).
Proof. apply sim_ignore, sim_let. intro data. apply sim_then; [apply spoil_disk; reflexivity|]. apply sim_then; [apply spoil_unwrap, spoil_disk; reflexivity|apply spoil_write]. Qed.
Lemma spoil_all tr : ordered [] tr -> in_pieces tr (flat_map spoil tr).
Proof.
  intro O. split; [|split].
  - intros q d J. apply in_flat_map in J. destruct J as (e & _ & J). destruct e; cbn in J; repeat (destruct J as [J|J]; [discriminate J|]); destruct J.
  - intros q d J. apply in_split in J. destruct J as (a & b & ->). destruct (O a _ b eq_refl) as [_ J]. cbn [app] in J. apply in_flat_map. exists (EPart q d). split; [apply in_or_app; now left|now left].
  - intros e NI. split; intro J.
    + apply in_flat_map. exists e. split; [exact J|]. destruct e; try (now left). destruct (NI path d eq_refl).
    + apply in_flat_map in J. destruct J as (e' & J' & J). destruct e'; cbn in J; try (destruct J as [<-|[]]; exact J'); destruct J.
Qed.
Lemma c87_kind_pieces_proof : forall chk m k, In k (kinds chk m) -> forall run steps filter read tr r, valid_run run -> Forall (fun s => 0 <= st_nr s) steps ->
  k_render k false run steps filter read tr r -> exists tr', k_render k true run steps filter read tr' r /\ in_pieces tr tr'.
Proof.
  intros chk m k K run steps filter read tr r V N R. exists (flat_map spoil tr). split; [|apply spoil_all; exact (render_ordered chk m k K false run steps filter read V N tr r R)].
  exact (sim_kind spoil (fun _ => eq_refl) spoil_save spoil_bin spoil_vertical chk m k K run steps filter read tr r R).
Qed.
Lemma c87_pieces_proof : forall chk powi fetch rfc3339 sv m head today today' model vars steps tr r,
  (dwd_model model -> valid_date today -> valid_date (prev_day today') -> dwd_render_latest chk powi fetch m false head today today' model vars steps tr r ->
   exists tr', dwd_render_latest chk powi fetch m true head today today' model vars steps tr' r /\ in_pieces tr tr') /\
  (dated rfc3339 sv -> swiss_render_latest chk powi rfc3339 sv m false steps vars tr r ->
   exists tr', swiss_render_latest chk powi rfc3339 sv m true steps vars tr' r /\ in_pieces tr tr').
Proof.
  intros. split.
  - intros M V V' R. exists (flat_map spoil tr). split; [|apply spoil_all; exact (dwd_ordered _ _ _ _ _ _ _ _ _ _ _ M V V' tr r R)].
    exact (sim_dwd spoil (fun _ => eq_refl) eq_refl spoil_save spoil_bin spoil_vertical chk powi fetch m head today today' model vars steps tr r R).
  - intros D R. exists (flat_map spoil tr). split; [|apply spoil_all; exact (swiss_ordered _ _ _ _ _ _ _ _ D tr r R)].
    exact (sim_swiss spoil (fun _ => eq_refl) eq_refl spoil_save spoil_bin spoil_vertical chk powi rfc3339 sv m steps vars tr r R).
Qed.

(** ** The paths of the other files *)
Definition backwards (s : string) : list ascii := rev (list_ascii_of_string s).
Lemma backwards_app (a b : string) : backwards (a ++ b) = backwards b ++ backwards a.
Proof. unfold backwards. rewrite <- rev_app_distr. f_equal. induction a as [|c a IH]; [reflexivity|]. cbn. now rewrite IH. Qed.
Lemma output_path_end run n t : exists p, output_path run n t = (p ++ "/")%string.
Proof. unfold output_path. eexists. rewrite <- !append_assoc. reflexivity. Qed.
Lemma c87_noticed_proof : forall run n b, ~ vertical_file (BinFile b) -> ~ unnoticed_path run (file_path run n (BinFile b)).
Proof.
  intros run n b NV (n' & f & U & E). apply (f_equal backwards) in E. destruct (output_path_end run n (bin_layer b)) as (p & Ep). cbn [file_path] in E. rewrite Ep, !backwards_app in E.
  destruct U as [(t & z & x & y & ->)|V].
  - cbn [file_path] in E. rewrite !backwards_app in E. destruct b; cbn in E; discriminate E.
  - unfold vertical_file in *. destruct V as [-> | ->]; cbn [file_path] in E; rewrite !backwards_app in E; destruct b; try (apply NV; auto; fail); cbn in E; discriminate E.
Qed.
Lemma lost_empty q : forall tr, no_content tr -> forall before, file_after q before tr = before \/ file_after q before tr = Some (Data []).
Proof.
  induction tr as [|e tr IH]; intros N before; [now left|]. assert (N' : no_content tr) by (intros e' J; apply N; now right). specialize (N e (or_introl eq_refl)). cbn [file_after].
  destruct e as [s| |p|p d|p d|p|p b]; try (apply IH; exact N'); [destruct N|destruct N| |]; [|subst b]; destruct (String.eqb p q); try (apply IH; exact N'); right; destruct (IH N' (Some (Data []))) as [H|H]; exact H.
Qed.
