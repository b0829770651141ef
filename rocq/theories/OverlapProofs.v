(** Proofs about calls that overlap and calls that are killed (C75, C76). *)
From Coq Require Import Ascii String ZArith List Bool Lia Permutation Sorted.
From Verif Require Import Base F32 Grib2Model GeoModel Par ParFacts TileModel TileSpec TileProofs ChartModel MetobinModel Text TextFacts
  ForecastModel ForecastSpec ForecastProofs FetchModel FetchSpec FetchProofs RenderProofs DwdModel DwdSpec DwdProofs SwissModel SwissSpec SwissProofs CliModel CliSpec CliProofs OverlapSpec.
Import ListNotations.
Open Scope Z_scope.

(** ** The last effect on a file *)
Definition hit (q : string) (e : effect) : option content :=
  match e with
  | EPart p d => if String.eqb p q then Some (Pieces [d]) else None
  | EImage p d => if String.eqb p q then Some (Png d) else None
  | ECreate p => if String.eqb p q then Some (Data []) else None
  | EWrite p b => if String.eqb p q then Some (Data b) else None
  | _ => None
  end.
Fixpoint last_hit (q : string) (tr : list effect) : option content :=
  match tr with [] => None | e :: rest => match last_hit q rest with Some c => Some c | None => hit q e end end.
Lemma file_after_hit q tr : forall b, file_after q b tr = match last_hit q tr with Some c => Some c | None => b end.
Proof.
  induction tr as [|e tr IH]; intro b; [reflexivity|]. cbn [file_after last_hit]. rewrite IH. destruct (last_hit q tr); [reflexivity|].
  destruct e; cbn [hit]; try reflexivity; destruct (String.eqb _ q); reflexivity.
Qed.
Lemma hit_always q tr c : (forall b, file_after q b tr = Some c) -> last_hit q tr = Some c.
Proof. intro H. specialize (H None). rewrite file_after_hit in H. destruct (last_hit q tr); [exact H|discriminate]. Qed.
Lemma hit_never q tr : (forall b, file_after q b tr = b) -> last_hit q tr = None.
Proof. intro H. specialize (H None). rewrite file_after_hit in H. destruct (last_hit q tr); [discriminate|reflexivity]. Qed.
Lemma last_hit_in q tr c : last_hit q tr = Some c -> exists e, In e tr /\ hit q e = Some c.
Proof.
  induction tr as [|e tr IH]; cbn [last_hit]; [discriminate|]. destruct (last_hit q tr) as [c'|].
  - intro H. injection H as ->. destruct (IH eq_refl) as (e' & J & H). exists e'. split; [now right|exact H].
  - intro H. exists e. split; [now left|exact H].
Qed.
Lemma last_hit_some q tr e : In e tr -> hit q e <> None -> last_hit q tr <> None.
Proof.
  induction tr as [|x tr IH]; intros J H; [destruct J|]. cbn [last_hit]. destruct (last_hit q tr) as [c|] eqn:E; [discriminate|].
  destruct J as [->|J]; [exact H|destruct (IH J H eq_refl)].
Qed.
(** The last effect on a file among several traces is the last one on it in one of them. *)
Lemma interleaving_hit q ts tr : interleaving ts tr ->
  match last_hit q tr with Some c => exists t, In t ts /\ last_hit q t = Some c | None => Forall (fun t => last_hit q t = None) ts end.
Proof.
  induction 1 as [ts F|l1 e t l2 tr I IH]; [cbn [last_hit]; eapply Forall_impl; [|exact F]; intros t ->; reflexivity|].
  cbn [last_hit]. destruct (last_hit q tr) as [c|].
  - destruct IH as (t' & J & H). apply in_app_or in J. destruct J as [J|[->|J]].
    + exists t'. split; [apply in_or_app; now left|exact H].
    + exists (e :: t'). split; [apply in_elt|]. cbn [last_hit]. now rewrite H.
    + exists t'. split; [apply in_or_app; right; now right|exact H].
  - apply Forall_app in IH. destruct IH as [F1 F2]. inversion F2 as [|? ? H F3]; subst. destruct (hit q e) as [c|] eqn:E.
    + exists (e :: t). split; [apply in_elt|]. cbn [last_hit]. now rewrite H.
    + apply Forall_app. split; [exact F1|]. constructor; [|exact F3]. cbn [last_hit]. now rewrite H.
Qed.

(** ** Calls with other models *)
(** ** What is found in a file *)
Lemma found_untouched q tr : last_hit q tr = None -> forall before, found_after q before tr = before.
Proof.
  induction tr as [|e tr IH]; intros H before; [reflexivity|]. cbn [last_hit] in H. destruct (last_hit q tr) as [c|] eqn:E; [discriminate|]. specialize (IH eq_refl).
  destruct e as [s| |p|p d|p d|p|p b]; cbn [found_after hit] in *; try apply IH; destruct (String.eqb p q); try discriminate; apply IH.
Qed.
Definition strikes (q : string) (e : effect) : bool := match hit q e with Some _ => true | None => false end.
Lemma found_filter q tr : forall before, found_after q before tr = found_after q before (filter (strikes q) tr).
Proof.
  induction tr as [|e tr IH]; intros before; [reflexivity|]. cbn [filter found_after]. unfold strikes at 1.
  destruct e as [s| |p|p d|p d|p|p b]; cbn [hit]; try apply IH; destruct (String.eqb p q) eqn:E; cbn [found_after]; rewrite ?E; apply IH.
Qed.
Lemma unhit_filter q tr : last_hit q tr = None -> filter (strikes q) tr = [].
Proof.
  induction tr as [|e tr IH]; intro H; [reflexivity|]. cbn [last_hit] in H. destruct (last_hit q tr) as [c|]; [discriminate|]. cbn [filter]. unfold strikes. rewrite H. exact (IH eq_refl).
Qed.
Lemma others_unhit calls dir q ts : Forall (fun c => sane (fst c)) calls -> contains "/" dir = false ->
  Forall (fun c => ~ may_write (ar_model (snd c)) dir) calls -> inside dir q -> Forall2 done_by calls ts -> Forall (fun t => last_hit q t = None) ts.
Proof.
  intros S C N I F. induction F as [|[w a] t calls ts (missed & printed & code & M) F IH]; [constructor|]. inversion S as [|? ? S1 S2]; subst. inversion N as [|? ? N1 N2]; subst.
  constructor; [|exact (IH S2 N2)]. cbn [fst snd] in *. apply hit_never, file_after_untouched. intros e p J P ->.
  destruct (c55_files_proof w a _ _ _ e q S1 M (in_or_app _ _ _ (or_introl J)) P) as (dir' & W & J' & I').
  assert (Ed : dir' = dir) by (apply (inside_inj dir' dir q); try assumption; cbn in J'; destruct J' as [<-|[<-|[<-|[]]]]; reflexivity).
  subst dir'. exact (N1 W).
Qed.
Lemma c75_beside_proof : forall calls dir q own ts tr, Forall (fun c => sane (fst c)) calls -> contains "/" dir = false ->
  Forall (fun c => ~ may_write (ar_model (snd c)) dir) calls -> inside dir q -> Forall2 done_by calls ts -> interleaving (own :: ts) tr ->
  forall before, found_after q before tr = found_after q before own.
Proof.
  intros calls dir q own ts tr S C N I F L before. pose proof (others_unhit calls dir q ts S C N I F) as U.
  rewrite (found_filter q tr), (found_filter q own). apply (interleaving_filter (strikes q)) in L. cbn [map] in L.
  assert (E : filter (strikes q) tr = filter (strikes q) own); [|now rewrite E]. apply (interleaving_single [] (map (filter (strikes q)) ts)); [constructor| |exact L].
  clear -U. induction U as [|t ts H U IH]; constructor; [exact (unhit_filter q t H)|exact IH].
Qed.
Lemma c75_kept_proof : forall chk m k run n l own calls ts tr, rendered chk m k run n l own -> Forall (fun c => sane (fst c)) calls ->
  Forall (fun c => ~ may_write (ar_model (snd c)) (model_dir (run_model run))) calls -> Forall2 done_by calls ts -> interleaving (own :: ts) tr ->
  rendered chk m k run n l tr.
Proof.
  intros chk m k run n l own calls ts tr [C R] S N F L. replace (model_dir (run_model run)) with (model_name (run_model run)) in N by (destruct (run_model run); reflexivity).
  split; [exact C|]. intros f c P before.
  assert (U : Forall (fun t => last_hit (file_path run n f) t = None) ts).
  { apply (others_unhit calls (model_name (run_model run))); try assumption; [destruct (run_model run); reflexivity|]. destruct f as [t zoom x y|b]; cbn [file_path]; apply output_inside. }
  specialize (R f c P before). rewrite file_after_hit in *. apply (interleaving_hit (file_path run n f)) in L. destruct (last_hit (file_path run n f) tr) as [c'|].
  - destruct L as (t & [->|J] & H); [now rewrite H in R|]. rewrite Forall_forall in U. rewrite (U t J) in H. discriminate.
  - inversion L as [|? ? H _]; subst. rewrite H in R. exact R.
Qed.

(** ** Only the right contents are written *)
Definition rightly (faulty : bool) (F : string -> content -> Prop) (e : effect) : Prop :=
  match e with
  | EPart p d => F p (Png d)
  | EImage p d => F p (Png d)
  | ECreate p => exists b, F p (Data b)
  | EWrite p b => exists lost, F p (Data (b ++ lost)) /\ (faulty = false -> lost = [])
  | EDir p => exists q c file, F q c /\ contains "/" file = false /\ (q = (p ++ "/" ++ file)%string \/ exists dir, p = (dir ++ "/")%string /\ q = (p ++ file)%string)
  | _ => True
  end.
Lemma rightly_impl faulty (F G : string -> content -> Prop) e : (forall q c, F q c -> G q c) -> rightly faulty F e -> rightly faulty G e.
Proof.
  intro H. destruct e; cbn [rightly]; auto.
  - intros (q & c & file & X & Y). eauto 6.
  - intros (b & X). eauto.
  - intros (lost & X & Y). eauto.
Qed.
Lemma effects_impl {E} (P Q : E -> Prop) p : (forall e, P e -> Q e) -> effects P p -> effects Q p.
Proof. intros H X tr r R. eapply Forall_impl; [exact H|exact (X tr r R)]. Qed.
Lemma effects_then {E} (P : E -> Prop) (p q : prog E) : effects P p -> effects P q -> effects P (p_then p q).
Proof. intros X Y tr r [[R _]|(t1 & t2 & -> & R1 & R2)]; [exact (X _ _ R)|]. apply Forall_app. split; [exact (X _ _ R1)|exact (Y _ _ R2)]. Qed.
Lemma effects_ignore {E} (P : E -> Prop) (p : prog E) : effects P p -> effects P (p_ignore p).
Proof. intros X tr r (r' & R & _). exact (X _ _ R). Qed.
Lemma effects_unwrap (P : effect -> Prop) p : effects P p -> effects P (p_unwrap p).
Proof. intros X tr r (r' & R & _). exact (X _ _ R). Qed.
Lemma effects_disk (P : effect -> Prop) faulty e : P e -> effects P (p_disk faulty e).
Proof. intros X tr r [[-> _]|(_ & -> & _)]; repeat constructor; exact X. Qed.
Lemma effects_let {A E} (P : E -> Prop) (o : outcome A) q : (forall a, o = Ok a -> effects P (q a)) -> effects P (p_let o q).
Proof. intro X. destruct o as [a|?|]; cbn [p_let]; [exact (X a eq_refl)| |]; intros tr r [-> _]; constructor. Qed.
Lemma effects_call {A E} (P : E -> Prop) (f : outcome A -> Prop) (q : A -> prog E) : (forall a, f (Ok a) -> effects P (q a)) -> effects P (p_call f q).
Proof. intros X tr r (o & H & R). revert tr r R. apply effects_let. intros a ->. exact (X a H). Qed.
Lemma effects_if {E} (P : E -> Prop) b (p : prog E) : (b = true -> effects P p) -> effects P (p_if b p).
Proof. destruct b; cbn [p_if]; [auto|]. intros _ tr r [-> _]. constructor. Qed.
Lemma effects_emit {E} (P : E -> Prop) e : P e -> effects P (p_emit e).
Proof. intros X tr r [-> _]. repeat constructor. exact X. Qed.

Section Right.
  Variables (faulty : bool) (run : fc_run) (n : Z) (ty : layer_type).
  Lemma effects_write (F : string -> content -> Prop) path data : F path (Data data) -> effects (rightly faulty F) (p_write faulty path data).
  Proof.
    intros H tr r [[-> _]|(Hf & k & -> & _)]; (constructor; [|constructor]); cbn [rightly].
    - exists []. rewrite app_nil_r. auto.
    - exists (skipn k data). rewrite firstn_skipn. split; [exact H|congruence].
  Qed.
  Lemma right_bin b bin : effects (rightly faulty (bin_out run n ty b bin)) (write_bin faulty bin ty b run n).
  Proof.
    unfold write_bin. apply effects_let. intros data ->. assert (B : bin_out run n ty b (Ok data) (output_path run n ty ++ bin_file b)%string (Data data)) by (split; [reflexivity|eauto]).
    apply effects_then; [apply effects_unwrap, effects_disk; cbn [rightly]; eauto|apply effects_ignore, effects_write, B].
  Qed.
  Lemma right_vertical b bin : effects (rightly faulty (bin_out run n ty b bin)) (p_ignore (write_vertical_bin faulty bin ty b run n)).
  Proof.
    apply effects_ignore. unfold write_vertical_bin. apply effects_let. intros data ->.
    assert (B : bin_out run n ty b (Ok data) (output_path run n ty ++ bin_file b)%string (Data data)) by (split; [reflexivity|eauto]).
    apply effects_then.
    { apply effects_disk. exists (output_path run n ty ++ bin_file b)%string, (Data data), (bin_file b). split; [exact B|]. split; [destruct b; reflexivity|]. right.
      unfold output_path. eexists ("./output/" ++ model_name (run_model run) ++ "/" ++ date_text (run_date run) ++ run_name run ++ "/" ++ dec_pad 3 n ++ "/" ++ output_subdir ty)%string. rewrite !append_assoc. auto. }
    apply effects_then; [apply effects_unwrap, effects_disk; cbn [rightly]; eauto|apply effects_write, B].
  Qed.
  Lemma right_tiles {T} chk m e (value : lat_lon -> outcome (option T)) color_fn :
    effects (rightly faulty (tile_out run n ty chk m e (create_single_tile chk m value color_fn)))
      (p_ignore (create_all_tiles chk m e (zoom_range (run_model run)) value color_fn (save_tile_step faulty ty run n))).
  Proof.
    assert (ZZ : zoom_range (run_model run) = (zl, zh run)) by (unfold zl, zh; destruct (run_model run); reflexivity). rewrite ZZ.
    apply effects_ignore. apply for_seq_effects. intros zoom Iz. cbn [fst snd] in Iz. apply TileProofs.in_range in Iz. unfold render_zoom. fold (corner1 e) (corner2 e).
    apply effects_let. intros a Ea. apply effects_let. intros b Eb.
    apply for_seq_effects. intros x Ix. apply for_par_effects. intros y Iy. apply TileProofs.in_range in Ix, Iy. unfold render_tile.
    destruct (create_single_tile _ _ _ _ _) as [d|?|] eqn:Ed; try (intros tr r [-> _]; constructor).
    unfold save_tile_step. rewrite save_path. assert (O : tile_out run n ty chk m e (create_single_tile chk m value color_fn) (file_path run n (TileFile ty zoom x y)) (Png d)).
    { exists zoom, x, y, d. split; [exact Iz|]. split; [|auto]. exists a, b. unfold ImagingSpec.between. auto. }
    apply effects_then; [apply effects_unwrap, effects_disk|apply effects_ignore, effects_then; apply effects_disk; exact O].
    eexists _, _, (dec y ++ ".png")%string. split; [exact O|]. split; [|left; now rewrite save_path].
    pose proof (zooms_small run) as ZS. assert (C : covers chk m e zoom x y) by (exists a, b; unfold ImagingSpec.between; auto). destruct (covers_nonneg chk m e zoom x y ltac:(lia) C) as [_ Y].
    rewrite contains_app, dec_no_char by (assumption || apply slash_no_digit). reflexivity.
  Qed.
End Right.
(** The files of a step. *)
Definition step_file (chk : bool) (m : libm) (k : kind) (run : fc_run) (n : Z) (l : k_data k) (q : string) (c : content) : Prop :=
  exists f, q = file_path run n f /\ produces chk m k run l f c.
Definition step_effect (chk : bool) (m : libm) (k : kind) (faulty : bool) (run : fc_run) (ss : list fc_step) (steps : list Z) (read : fc_step -> outcome (k_data k) -> Prop) (e : effect) : Prop :=
  (exists s, e = ERead s) \/ exists s l, In s ss /\ wanted steps s /\ read s (Ok l) /\ rightly faulty (step_file chk m k run (st_nr s) l) e.
Lemma steps_right chk m k body faulty run ss steps read :
  (forall l s, effects (rightly faulty (step_file chk m k run (st_nr s) l)) (body l s)) ->
  effects (step_effect chk m k faulty run ss steps read) (render_steps steps ss read body).
Proof.
  intro H. apply for_par_effects. intros s J. destruct (skipped steps s) eqn:W; [intros tr r [-> _]; constructor|]. apply skipped_wanted in W.
  apply effects_then; [apply effects_emit; left; eauto|]. apply effects_call. intros l Rl. eapply effects_impl; [|exact (H l s)]. intros e X. right. exists s, l. auto.
Qed.
Lemma render_right chk m k : In k (kinds chk m) -> forall faulty run ss steps read, effects (step_effect chk m k faulty run ss steps read) (k_render k faulty run ss steps read).
Proof.
  assert (TI : forall (k : kind) run s (l : k_data k) e make q c, k_tiles k l = Some (e, make) -> tile_out run (st_nr s) (k_type k) chk m e make q c -> step_file chk m k run (st_nr s) l q c).
  { intros k' run s l e make q c Et (z & x & y & d & Hz & C & M & Eq & Ec). exists (TileFile (k_type k') z x y). split; [exact Eq|]. split; [reflexivity|]. exists d. split; [|exact Ec]. exists e, make. auto. }
  assert (BI : forall (k : kind) run s (l : k_data k) b bin ty q c, In (b, bin) (k_bins k l) -> output_subdir ty = output_subdir (bin_layer b) -> bin_out run (st_nr s) ty b bin q c -> step_file chk m k run (st_nr s) l q c).
  { intros k' run s l b bin ty q c Eb El (Eq & data & Ed & Ec). exists (BinFile b). cbn [file_path]. unfold output_path in *. rewrite <- El. split; [exact Eq|]. exists data. rewrite <- Ed. auto. }
  intros K faulty run ss steps read. destruct K as [<-|[<-|[<-|[<-|[<-|[]]]]]]; cbn [k_render cloud_precip_kind wind_kind temp_kind vertical_cloud_kind vertical_wind_kind];
    (apply steps_right; intros l s).
  - apply effects_then; [|apply effects_then].
    + eapply effects_impl; [|apply right_tiles]. intros e. apply rightly_impl. intros q c. exact (TI (cloud_precip_kind chk m) run s l _ _ q c eq_refl).
    + eapply effects_impl; [|apply right_bin]. intros e. apply rightly_impl. intros q c. apply (BI (cloud_precip_kind chk m) run s l); [now left|reflexivity].
    + eapply effects_impl; [|apply right_bin]. intros e. apply rightly_impl. intros q c. apply (BI (cloud_precip_kind chk m) run s l); [right; now left|reflexivity].
  - apply effects_then.
    + eapply effects_impl; [|apply right_tiles]. intros e. apply rightly_impl. intros q c. exact (TI (wind_kind chk m) run s l _ _ q c eq_refl).
    + eapply effects_impl; [|apply right_bin]. intros e. apply rightly_impl. intros q c. apply (BI (wind_kind chk m) run s l); [now left|reflexivity].
  - apply effects_then.
    + eapply effects_impl; [|apply right_tiles]. intros e. apply rightly_impl. intros q c. exact (TI (temp_kind chk m) run s l _ _ q c eq_refl).
    + eapply effects_impl; [|apply right_bin]. intros e. apply rightly_impl. intros q c. apply (BI (temp_kind chk m) run s l); [now left|reflexivity].
  - eapply effects_impl; [|apply right_vertical]. intros e. apply rightly_impl. intros q c. apply (BI vertical_cloud_kind run s l); [now left|reflexivity].
  - eapply effects_impl; [|apply right_vertical]. intros e. apply rightly_impl. intros q c. apply (BI vertical_wind_kind run s l); [now left|reflexivity].
Qed.
Lemma selected_effects (P : effect -> Prop) filter cp wi te (heights : result (list bgrid)) vc vw : P EHeights ->
  (named filter CloudPrecip -> effects P cp) -> (named filter Wind10m -> effects P wi) -> (named filter Temp2m -> effects P te) ->
  (forall h, heights (Ok h) -> (named filter VerticalCloud -> effects P (vc h)) /\ (named filter VerticalWind -> effects P (vw h))) ->
  effects P (render_selected filter cp wi te heights vc vw).
Proof.
  intros PH H1 H2 H3 H4. unfold render_selected. apply effects_then; [apply effects_if; intro S; apply H1; now apply selected_spec|].
  apply effects_then; [apply effects_if; intro S; apply H2; now apply selected_spec|]. apply effects_then; [apply effects_if; intro S; apply H3; now apply selected_spec|].
  apply effects_if. intros _. apply effects_then; [apply effects_emit, PH|]. apply effects_call. intros h Hh. destruct (H4 h Hh) as [L1 L2].
  apply effects_then; apply effects_if; intro S; [apply L1|apply L2]; now apply selected_spec.
Qed.

(** ** German service *)
Section Dwd.
  Variables (chk : bool) (powi : f32 -> Z -> f32) (fetch : fetcher) (m : libm).
  Lemma cpw_grids run n l : wanted_nr run [] n -> read_cloud_precip_weather chk powi fetch run (numbered n) (Ok l) ->
    exists clct prec0 prec1 clct' ceiling ww,
      float_grid chk powi fetch run ClctMod n clct /\ float_grid chk powi fetch run TotPrec (n - 1) prec0 /\ float_grid chk powi fetch run TotPrec n prec1 /\
      float_grid chk powi fetch run ClctMod n clct' /\ float_grid chk powi fetch run Ceiling n ceiling /\ float_grid chk powi fetch run Ww n ww /\
      l = ({| cp_cloud := clct; cp_precip0 := prec0; cp_precip1 := prec1 |}, {| we_clct := clct'; we_ceiling := ceiling; we_ww := Some ww |}).
  Proof.
    intros Wn Rl. unfold read_cloud_precip_weather in Rl.
    apply r_bind_ok in Rl. destruct Rl as (cp & Rcp & Rl). apply r_bind_ok in Rl. destruct Rl as (we & Rwe & Rl). injection Rl as ->.
    unfold read_cloud_precip in Rcp. apply r_bind_ok in Rcp. destruct Rcp as (s1 & H1 & Rcp). apply r_bind_ok in Rcp. destruct Rcp as (b & Hb & Rcp).
    apply r_bind_ok in Rcp. destruct Rcp as (s2 & H2 & Rcp). apply r_bind_ok in Rcp. destruct Rcp as (s3 & H3 & Rcp).
    apply r_bind_ok in Rcp. destruct Rcp as (clct & Rc & Rcp). apply r_bind_ok in Rcp. destruct Rcp as (p0 & R0 & Rcp). apply r_bind_ok in Rcp. destruct Rcp as (p1 & R1 & Rcp).
    symmetry in Rcp. apply cloud_precip_new_ok in Rcp. subst cp.
    unfold read_weather in Rwe. apply r_bind_ok in Rwe. destruct Rwe as (clct' & Rc' & Rwe). apply r_bind_ok in Rwe. destruct Rwe as (ce & Rce & Rwe). apply r_bind_ok in Rwe. destruct Rwe as (ww & Rww & Rwe).
    symmetry in Rwe. apply weather_new_ok in Rwe. subst we.
    cbn [st_nr numbered] in *. assert (Hn : 2 <= n) by (destruct Wn; lia). assert (Hl : n < 2 ^ 64) by (destruct Wn as [Wn _]; destruct (run_model run); cbn in Wn; lia).
    apply unwrap_ok in H1, H2, H3. assert (Eb : b = n - 1).
    { unfold r_of, usub in Hb. destruct (Z.leb_spec 1 n); [injection Hb as ->; reflexivity|lia]. }
    subst b. assert (E1 : st_nr s1 = n). { pose proof (c48_lookup_proof (forecast_steps (run_model run)) n) as L. rewrite H1 in L. tauto. }
    assert (E2 : st_nr s2 = n - 1). { pose proof (c48_lookup_proof (forecast_diff_steps (run_model run)) (n - 1)) as L. rewrite H2 in L. tauto. }
    assert (E3 : st_nr s3 = n). { pose proof (c48_lookup_proof (forecast_diff_steps (run_model run)) n) as L. rewrite H3 in L. tauto. }
    apply read_single_spec in Rc, R0, R1, Rc', Rce, Rww. rewrite E1 in Rc. rewrite E2 in R0. rewrite E3 in R1. cbn [st_nr numbered] in Rc', Rce, Rww.
    exists clct, p0, p1, clct', ce, ww. repeat (split; [assumption|]). reflexivity.
  Qed.
  Lemma dwd_right faulty head today today' model vars steps calls run tr r : dwd_model model -> In (vars, steps) calls ->
    dwd_render_latest chk powi fetch m faulty head today today' model vars steps tr r -> find_latest_run head model today today' = Ok run ->
    Forall (rightly faulty (belongs chk powi fetch m calls run)) tr.
  Proof.
    intros M Jc R F. destruct (render_run chk powi fetch m faulty head today today' model vars steps tr r M R) as (run' & F' & W).
    assert (run' = run) by congruence. subst run'. clear R F F'.
    assert (Js : forall s, In s (forecast_steps (run_model run)) -> wanted steps s -> s = numbered (st_nr s) /\ wanted_nr run steps (st_nr s) /\ wanted_nr run [] (st_nr s)).
    { intros s J Ws. apply step_in in J. split; [tauto|]. split; (split; [tauto|]); [exact Ws|now left]. }
    assert (G : forall k (read : fc_step -> outcome (k_data k) -> Prop), In k (kinds chk m) ->
      (forall n l f c, wanted_nr run steps n -> wanted_nr run [] n -> read (numbered n) (Ok l) -> produces chk m k run l f c -> belongs chk powi fetch m calls run (file_path run n f) c) ->
      effects (rightly faulty (belongs chk powi fetch m calls run)) (k_render k faulty run (forecast_steps (run_model run)) steps read)).
    { intros k read K H. eapply effects_impl; [|exact (render_right chk m k K faulty run _ steps read)]. intros e [(s & ->)|(s & l & J & Ws & Rl & X)]; [exact I|].
      destruct (Js s J Ws) as (Es & W1 & W2). rewrite Es in Rl. eapply rightly_impl; [|exact X]. intros q c (f & -> & P). exact (H _ l f c W1 W2 Rl P). }
    destruct (kind_in chk m) as (K1 & K2 & K3 & K4 & K5).
    assert (A : forall t n, named vars t -> wanted_nr run steps n -> asked calls run t n) by (intros t n N Wn; exists (vars, steps); auto).
    revert tr r W. apply selected_effects; [exact I| | | |].
    - intro N. apply (G _ _ K1). intros n l f c W1 W2 Rl P. destruct (cpw_grids run n l W2 Rl) as (clct & p0 & p1 & clct' & ce & ww & ? & ? & ? & ? & ? & ? & ->).
      apply (in_cloud_precip chk powi fetch m calls run n clct p0 p1 clct' ce ww); [exact (A _ _ N W1)|assumption..].
    - intro N. apply (G _ _ K2). intros n l f c W1 W2 Rl P. unfold read_wind in Rl.
      apply r_bind_ok in Rl. destruct Rl as (u & Ru & Rl). apply r_bind_ok in Rl. destruct Rl as (v & Rv & Rl). apply r_bind_ok in Rl. destruct Rl as (g & Rg & Rl).
      symmetry in Rl. apply wind_new_ok in Rl. subst l. apply read_single_spec in Ru, Rv, Rg. apply (in_wind chk powi fetch m calls run n u v g); [exact (A _ _ N W1)|assumption..].
    - intro N. apply (G _ _ K3). intros n l f c W1 W2 Rl P. apply read_single_spec in Rl. apply (in_temp chk powi fetch m calls run n l); [exact (A _ _ N W1)|assumption..].
    - intros hhl Hh. apply read_hhl_spec in Hh. split; intro N.
      + apply (G _ _ K4). intros n l f c W1 W2 Rl P. unfold read_vertical_cloud in Rl. apply r_bind_ok in Rl. destruct Rl as (clc & Rc & Rl).
        symmetry in Rl. apply vertical_cloud_new_ok in Rl. subst l. apply read_levels_spec in Rc. apply (in_vertical_cloud chk powi fetch m calls run n hhl clc); [exact (A _ _ N W1)|assumption..].
      + apply (G _ _ K5). intros n l f c W1 W2 Rl P. unfold read_vertical_wind in Rl. apply r_bind_ok in Rl. destruct Rl as (u & Ru & Rl).
        apply r_bind_ok in Rl. destruct Rl as (v & Rv & Rl). symmetry in Rl. apply vertical_wind_new_ok in Rl. subst l. apply read_levels_spec in Ru, Rv. apply (in_vertical_wind chk powi fetch m calls run n hhl u v); [exact (A _ _ N W1)|assumption..].
  Qed.
End Dwd.
(** What is in a file after the right effects. *)
Lemma right_found faulty (F : string -> content -> Prop) tr : Forall (rightly faulty F) tr -> forall q before, file_after q before tr = before \/
  exists c found, F q c /\ beginning faulty c found /\ file_after q before tr = Some found.
Proof.
  intros A q before. rewrite file_after_hit. destruct (last_hit q tr) as [c|] eqn:E; [right|now left].
  destruct (last_hit_in q tr c E) as (e & J & H). rewrite Forall_forall in A. specialize (A e J).
  destruct e as [s| |p|p d|p d|p|p b]; cbn [hit] in H; try discriminate; destruct (String.eqb_spec p q) as [->|]; try discriminate; injection H as <-; cbn [rightly] in A.
  - exists (Png d), (Pieces [d]). split; [exact A|]. split; [right; left; eauto|reflexivity].
  - exists (Png d), (Png d). split; [exact A|]. split; [now left|reflexivity].
  - destruct A as (b & A). exists (Data b), (Data []). split; [exact A|]. split; [right; right; exists [], b; auto|reflexivity].
  - destruct A as (lost & A & N). exists (Data (b ++ lost)), (Data b). split; [exact A|]. split; [|reflexivity].
    destruct faulty; [right; right; exists b, lost; repeat split; discriminate|]. left. rewrite (N eq_refl), app_nil_r. reflexivity.
Qed.
Lemma same_image_refl d : same_image d d = true.
Proof. unfold same_image. rewrite !Z.eqb_refl. now destruct (list_eq_dec _ _ _). Qed.
Lemma completed_same faulty d old : beginning faulty (Png d) old -> completed d (Some old) = Png d.
Proof.
  intros [->|[(d' & E & ->)|(data & lost & E & _)]]; [| |discriminate E]; cbn [completed].
  - now rewrite same_image_refl.
  - injection E as <-. cbn [forallb]. now rewrite same_image_refl.
Qed.
(** A file may get any content for which the effects provide, if data is written only after the file was created. *)
Lemma found_invariant faulty (F : string -> content -> Prop) q (P : content -> Prop) :
  (forall d, F q (Png d) -> P (Pieces [d])) -> (forall d old, F q (Png d) -> P old -> P (completed d (Some old))) -> (forall b, F q (Data b) -> P (Data [])) ->
  (forall b lost old, F q (Data (b ++ lost)) -> (faulty = false -> lost = []) -> P old -> P (overlay b (Some old))) ->
  forall tr done now, Forall (rightly faulty F) tr -> ordered done tr -> (In (ECreate q) done \/ (exists d, In (EPart q d) done) -> exists c, now = Some c /\ P c) ->
    found_after q now tr = now \/ exists c, found_after q now tr = Some c /\ P c.
Proof.
  intros H0 H1 H2 H3 tr. induction tr as [|e tr IH]; intros done now A O C; [now left|]. inversion A as [|? ? Ae A']; subst.
  assert (Pe : prepared done e) by (specialize (O [] e tr eq_refl); now rewrite app_nil_r in O).
  assert (O' : ordered (done ++ [e]) tr) by (intros a x b E; subst tr; rewrite <- app_assoc; exact (O (e :: a) x b eq_refl)).
  assert (K : forall now', (exists c, now' = Some c /\ P c) -> found_after q now' tr = now \/ exists c, found_after q now' tr = Some c /\ P c).
  { intros now' N. destruct (IH (done ++ [e]) now' A' O' (fun _ => N)) as [E|E]; [|now right]. destruct N as (c & -> & Pc). right. exists c. auto. }
  assert (Sk : (e = ECreate q -> False) -> (forall d, e = EPart q d -> False) -> found_after q now tr = now \/ exists c, found_after q now tr = Some c /\ P c).
  { intros Ne Np. apply (IH (done ++ [e]) now A' O'). intros [J|(d & J)]; apply in_app_or in J; destruct J as [J|[J|[]]]; [apply C; now left|destruct (Ne J)|apply C; right; eauto|destruct (Np d J)]. }
  destruct e as [s| |p|p d|p d|p|p b]; cbn [found_after]; try (apply Sk; [discriminate|intro; discriminate]); destruct (String.eqb_spec p q) as [->|Np]; try (apply Sk; [congruence|intro; congruence]).
  - apply K. exists (Pieces [d]). split; [reflexivity|exact (H0 d Ae)].
  - apply K. destruct (C (or_intror (ex_intro _ d (proj2 Pe)))) as (old & -> & Po). eexists. split; [reflexivity|exact (H1 d old Ae Po)].
  - apply K. destruct Ae as (b & Ae). exists (Data []). split; [reflexivity|exact (H2 b Ae)].
  - apply K. destruct (C (or_introl Pe)) as (old & -> & Po). destruct Ae as (lost & Ae & Le). eexists. split; [reflexivity|]. exact (H3 b lost old Ae Le Po).
Qed.
Definition started_right (faulty : bool) (F : string -> content -> Prop) (t : list effect) : Prop := Forall (rightly faulty F) t /\ ordered [] t.
Lemma right_together faulty (F : string -> content -> Prop) ts tr : Forall (started_right faulty F) ts -> interleaving ts tr -> started_right faulty F tr.
Proof.
  intros A L. split; [apply (interleaving_forall _ ts tr L)|apply (ordered_interleaving ts tr L)]; eapply Forall_impl; [|exact A| |exact A]; intros t H; apply H.
Qed.
Lemma ordered_part t missed : ordered [] (t ++ missed) -> ordered [] t.
Proof. intros O a e b ->. apply (O a e (b ++ missed)). rewrite <- app_assoc. reflexivity. Qed.
Lemma nth_overlay (b old : bytes) i x : nth_error (b ++ skipn (length b) old) i = Some x -> nth_error b i = Some x \/ nth_error old i = Some x.
Proof.
  intro H. destruct (Nat.lt_ge_cases i (length b)) as [L|L]; [rewrite nth_error_app1 in H by exact L; now left|]. right. rewrite nth_error_app2 in H by exact L.
  rewrite <- (firstn_skipn (length b) old). assert (Lo : (length b <= length old)%nat \/ skipn (length b) old = []) by (destruct (Nat.le_gt_cases (length b) (length old)); [now left|right; apply skipn_all2; lia]).
  destruct Lo as [Lo|Lo]; [|rewrite Lo in H; destruct (i - length b)%nat; discriminate]. rewrite nth_error_app2; rewrite firstn_length_le by exact Lo; [exact H|exact L].
Qed.
Lemma pieced_found faulty (F : string -> content -> Prop) tr : started_right faulty F tr -> forall q before, found_after q before tr = before \/
  exists found, pieced (F q) found /\ found_after q before tr = Some found.
Proof.
  intros [A O] q before. destruct (found_invariant faulty F q (pieced (F q))) with (tr := tr) (done := @nil effect) (now := before) as [E|(c & E & P)]; [| | | |exact A|exact O|intros [[]|(? & [])]|now left|right; eauto].
  - intros d H. split; [discriminate|]. constructor; [exact H|constructor].
  - intros d old H P. destruct old as [d'|ds|old]; cbn [completed].
    + destruct (same_image d d'); [exact H|]. split; [discriminate|]. constructor; [exact H|]. constructor; [exact P|constructor].
    + destruct (forallb (same_image d) ds); [exact H|]. split; [discriminate|]. constructor; [exact H|exact (proj2 P)].
    + exact H.
  - intros b H. split; [eauto|]. intros [|i] x N; discriminate N.
  - intros b lost old H _ P. assert (Pb : forall i x, nth_error b i = Some x -> exists data, F q (Data data) /\ nth_error data i = Some x).
    { intros i x N. exists (b ++ lost). split; [exact H|]. rewrite nth_error_app1; [exact N|]. apply nth_error_Some. congruence. }
    destruct old as [d|ds|old]; cbn [overlay]; (split; [eauto|]); [exact Pb..|]. intros i x N. apply nth_overlay in N. destruct N as [N|N]; [exact (Pb i x N)|exact (proj2 P i x N)].
Qed.
Lemma beginning_found faulty (F : string -> content -> Prop) tr q : started_right faulty F tr -> (forall c c', F q c -> F q c' -> c = c') -> forall before, found_after q before tr = before \/
  exists c found, F q c /\ beginning faulty c found /\ found_after q before tr = Some found.
Proof.
  intros [A O] U before.
  destruct (found_invariant faulty F q (fun found => exists c, F q c /\ beginning faulty c found)) with (tr := tr) (done := @nil effect) (now := before) as [E|(c & E & c' & H & B)];
    [| | | |exact A|exact O|intros [[]|(? & [])]|now left|right; exists c', c; auto].
  - intros d H. exists (Png d). split; [exact H|]. right. left. eauto.
  - intros d old H (c & Hc & B). exists (Png d). split; [exact H|]. rewrite (U c (Png d) Hc H) in B. left. exact (completed_same faulty d old B).
  - intros b H. exists (Data b). split; [exact H|]. right. right. exists [], b. auto.
  - intros b lost old H L (c & Hc & B). rewrite (U c (Data (b ++ lost)) Hc H) in B. exists (Data (b ++ lost)). split; [exact H|].
    assert (X : exists rest, overlay b (Some old) = Data (b ++ rest) /\ (rest = lost \/ rest = [] \/ (faulty = true /\ exists more, lost = rest ++ more))).
    { destruct B as [->|[(d & E & _)|(data & l & E & -> & Ne)]]; [| discriminate E|]; cbn [overlay].
      - exists lost. split; [|now left]. rewrite skipn_app, skipn_all, Nat.sub_diag. reflexivity.
      - injection E as E. exists (skipn (length b) data). split; [reflexivity|]. destruct faulty; [|rewrite (Ne eq_refl); right; left; now rewrite skipn_nil]. right. right. split; [reflexivity|].
        destruct (Nat.le_gt_cases (length b) (length data)) as [Ln|Ln].
        + exists l. apply (f_equal (skipn (length b))) in E. rewrite skipn_app, skipn_all, Nat.sub_diag, skipn_app in E. replace (length b - length data)%nat with 0%nat in E by lia. exact E.
        + rewrite skipn_all2 by lia. exists lost. reflexivity. }
    destruct X as (rest & -> & X). destruct X as [->|[->|(Fa & more & ->)]]; [now left| |].
    + rewrite app_nil_r. destruct faulty; [right; right; exists b, lost; repeat split; discriminate|]. rewrite (L eq_refl), app_nil_r. now left.
    + right. right. exists (b ++ rest), more. rewrite app_assoc. split; [reflexivity|]. split; [reflexivity|]. rewrite Fa. discriminate.
Qed.
(** With no fault of the disk, and one content for the file, it is the same whether data lies over the old or replaces it. *)
Lemma found_same (F : string -> content -> Prop) q : (forall c c', F q c -> F q c' -> c = c') ->
  forall tr done now, Forall (rightly false F) tr -> ordered done tr -> (In (ECreate q) done \/ (exists d, In (EPart q d) done) -> exists c found, F q c /\ beginning false c found /\ now = Some found) ->
    found_after q now tr = file_after q now tr.
Proof.
  intros U tr. induction tr as [|e tr IH]; intros done now A O C; [reflexivity|]. inversion A as [|? ? Ae A']; subst.
  assert (Pe : prepared done e) by (specialize (O [] e tr eq_refl); now rewrite app_nil_r in O).
  assert (O' : ordered (done ++ [e]) tr) by (intros a x b E; subst tr; rewrite <- app_assoc; exact (O (e :: a) x b eq_refl)).
  assert (Sk : (e = ECreate q -> False) -> (forall d, e = EPart q d -> False) -> found_after q now tr = file_after q now tr).
  { intros Ne Np. apply (IH (done ++ [e]) now A' O'). intros [J|(d & J)]; apply in_app_or in J; destruct J as [J|[J|[]]]; [apply C; now left|destruct (Ne J)|apply C; right; eauto|destruct (Np d J)]. }
  destruct e as [s| |p|p d|p d|p|p b]; cbn [found_after file_after]; try (apply Sk; [discriminate|intro; discriminate]); destruct (String.eqb_spec p q) as [->|Np]; try (apply Sk; [congruence|intro; congruence]).
  - apply (IH _ _ A' O'). intros _. exists (Png d), (Pieces [d]). split; [exact Ae|]. split; [right; left; eauto|reflexivity].
  - destruct (C (or_intror (ex_intro _ d (proj2 Pe)))) as (c & found & Hc & B & ->). rewrite (U c (Png d) Hc Ae) in B. rewrite (completed_same false d found B).
    apply (IH _ _ A' O'). intros _. exists (Png d), (Png d). split; [exact Ae|]. split; [now left|reflexivity].
  - apply (IH _ _ A' O'). intros _. destruct Ae as (b & Ae). exists (Data b), (Data []). split; [exact Ae|]. split; [right; right; exists [], b; auto|reflexivity].
  - destruct Ae as (lost & Ae & Le). rewrite (Le eq_refl), app_nil_r in Ae.
    assert (E : overlay b now = Data b).
    { destruct (C (or_introl Pe)) as (c & found & Hc & B & ->). rewrite (U c (Data b) Hc Ae) in B. destruct B as [->|[(d & E & _)|(data & l & E & -> & Ne)]]; [|discriminate E|]; cbn [overlay].
      - now rewrite skipn_all, app_nil_r.
      - rewrite (Ne eq_refl). now rewrite skipn_nil, app_nil_r. }
    rewrite E. apply (IH _ _ A' O'). intros _. exists (Data b), (Data b). split; [exact Ae|]. split; [now left|reflexivity].
Qed.

(** ** Order of the effects of a rendering *)
Lemma ord_then p q : ord [] p -> ord [] q -> ord [] (p_then p q).
Proof.
  intros H1 H2 tr r [[R _]|(t1 & t2 & -> & R1 & R2)]; [exact (H1 _ _ R)|]. apply ordered_app; [exact (H1 _ _ R1)|]. apply (ordered_more []); [intros ? []|exact (H2 _ _ R2)].
Qed.
Lemma ord_if (b : bool) p : ord [] p -> ord [] (if b then p else p_end (Ok tt)).
Proof. intro H. destruct b; [exact H|apply ord_end]. Qed.
Lemma selected_ordered filter cp wi te (heights : result (list bgrid)) vc vw : ord [] cp -> ord [] wi -> ord [] te -> (forall h, ord [] (vc h)) -> (forall h, ord [] (vw h)) ->
  ord [] (render_selected filter cp wi te heights vc vw).
Proof.
  intros H1 H2 H3 H4 H5. unfold render_selected. apply ord_then; [now apply ord_if|]. apply ord_then; [now apply ord_if|]. apply ord_then; [now apply ord_if|]. apply ord_if. apply ord_then.
  - intros tr r [-> _]. apply ordered_cons; [exact I|apply ordered_nil].
  - intros tr r (o & _ & R). destruct o as [h|?|]; cbn [p_let] in R; [|destruct R as [-> _]; apply ordered_nil..]. revert tr r R. apply ord_then; now apply ord_if.
Qed.
Lemma render_ordered chk m k : In k (kinds chk m) -> forall faulty run ss steps read, valid_run run -> Forall (fun s => 0 <= st_nr s) ss -> ord [] (k_render k faulty run ss steps read).
Proof. intros K faulty run ss steps read V N tr r R a e b E. exact (c58_proof chk m k K faulty run ss steps read tr r V N R a e b E). Qed.
Lemma dwd_ordered chk powi fetch m faulty head today today' model vars steps : dwd_model model -> valid_date today -> valid_date (prev_day today') ->
  ord [] (dwd_render_latest chk powi fetch m faulty head today today' model vars steps).
Proof.
  intros M V V' tr r R. destruct (render_run chk powi fetch m faulty head today today' model vars steps tr r M R) as (run & Fr & W). destruct (found_run _ _ _ _ _ M V V' Fr) as [VR _].
  destruct (kind_in chk m) as (K1 & K2 & K3 & K4 & K5). revert tr r R W. intros tr r _. revert tr r.
  pose proof (steps_nonneg (run_model run)) as SN. apply selected_ordered; [|..|intro h|intro h].
  - exact (render_ordered chk m _ K1 faulty run _ steps _ VR SN).
  - exact (render_ordered chk m _ K2 faulty run _ steps _ VR SN).
  - exact (render_ordered chk m _ K3 faulty run _ steps _ VR SN).
  - exact (render_ordered chk m _ K4 faulty run _ steps _ VR SN).
  - exact (render_ordered chk m _ K5 faulty run _ steps _ VR SN).
Qed.
Section Same.
  Variables (chk : bool) (powi : f32 -> Z -> f32) (fetch : fetcher) (m : libm) (St : steady fetch) (run : fc_run) (V : valid_run run).
  Lemma grid_same {T} f (missing : T) transform g g' : grid_from chk powi fetch run f missing transform g -> grid_from chk powi fetch run f missing transform g' -> g = g'.
  Proof.
    intros (url & bs & d & rest & U & H & D & G) (url' & bs' & d' & rest' & U' & H' & D' & G'). assert (url' = url) by congruence. subst url'.
    pose proof (St url bs bs' H H'). subst bs'. congruence.
  Qed.
  Lemma float_same v n g g' : float_grid chk powi fetch run v n g -> float_grid chk powi fetch run v n g' -> g = g'.
  Proof. apply grid_same. Qed.
  Lemma levels_same file missing transform gs gs' : level_grids chk powi fetch run file missing transform gs -> level_grids chk powi fetch run file missing transform gs' -> gs = gs'.
  Proof.
    unfold level_grids. generalize (range (first_level (run_model run)) (last_level (run_model run))). intros l H. revert gs'.
    induction H as [|a g l gs G F IH]; intros gs' H'; inversion H' as [|? g' ? gs2 G' F']; subst; [reflexivity|]. f_equal; [exact (grid_same _ _ _ _ _ G G')|exact (IH _ F')].
  Qed.
  Lemma produces_same k l f c c' : In k (kinds chk m) -> produces chk m k run l f c -> produces chk m k run l f c' -> c = c'.
  Proof.
    intros K P P'. destruct f as [t z x y|b]; cbn [produces] in *.
    - destruct P as (_ & d & (e & make & E & _ & _ & O) & ->), P' as (_ & d' & (e' & make' & E' & _ & _ & O') & ->). rewrite E in E'. injection E' as <- <-. congruence.
    - destruct P as (data & J & ->), P' as (data' & J' & ->).
      destruct K as [<-|[<-|[<-|[<-|[<-|[]]]]]]; cbn in J, J'; destruct J as [J|J], J' as [J'|J']; try contradiction; try (repeat (destruct J as [J|J]; try contradiction));
        try (repeat (destruct J' as [J'|J']; try contradiction)); congruence.
  Qed.
  Lemma of_layer_same t t' f : of_layer t f -> of_layer t' f -> t = t'.
  Proof. destruct f as [? ? ? ?|[]]; cbn; congruence. Qed.
  Lemma asked_nonneg calls t n : asked calls run t n -> 0 <= n.
  Proof. intros (c & _ & _ & B & _). lia. Qed.
  (** Two files at the same path. *)
  Lemma same_place k k' (l : k_data k) (l' : k_data k') n n' f f' c c' : In k (kinds chk m) -> In k' (kinds chk m) -> 0 <= n -> 0 <= n' ->
    produces chk m k run l f c -> produces chk m k' run l' f' c' -> file_path run n f = file_path run n' f' -> n = n' /\ f = f' /\ k_type k = k_type k'.
  Proof.
    intros K K' N N' P P' E. destruct (produces_layer _ _ _ _ _ _ _ K P) as [Pf Lf]. destruct (produces_layer _ _ _ _ _ _ _ K' P') as [Pf' Lf'].
    apply c47_paths_proof in E; try assumption. destruct E as (_ & -> & ->). split; [reflexivity|]. split; [reflexivity|]. exact (of_layer_same _ _ _ Lf Lf').
  Qed.
  Lemma belongs_same calls calls' q q' c c' : belongs chk powi fetch m calls run q c -> belongs chk powi fetch m calls' run q' c' -> q = q' -> c = c'.
  Proof.
    destruct (kind_in chk m) as (K1 & K2 & K3 & K4 & K5). pose proof asked_nonneg as AN.
    intros [n temp f c1 A G P|n u v g f c1 A G1 G2 G3 P|n clct p0 p1 clct' ce ww f c1 A G1 G2 G3 G4 G5 G6 P|n hhl clc f c1 A G1 G2 P|n hhl u v f c1 A G1 G2 G3 P]
      [n' temp' f' c1' A' G' P'|n' u' v' g' f' c1' A' G1' G2' G3' P'|n' clct_ p0' p1' clct_' ce' ww' f' c1' A' G1' G2' G3' G4' G5' G6' P'|n' hhl' clc' f' c1' A' G1' G2' P'|n' hhl' u' v' f' c1' A' G1' G2' G3' P'] E;
      match type of P with produces _ _ ?k _ ?l _ _ => match type of P' with produces _ _ ?k' _ ?l' _ _ =>
        assert (S : n = n' /\ f = f' /\ k_type k = k_type k') by
          (apply (same_place k k' l l' n n' f f' c1 c1'); [cbn; auto 10|cbn; auto 10|exact (AN _ _ _ A)|exact (AN _ _ _ A')|exact P|exact P'|exact E]) end end;
      destruct S as (<- & <- & S); try discriminate S; clear S.
    - rewrite (float_same _ _ _ _ G' G) in P'. exact (produces_same _ _ _ _ _ K3 P P').
    - rewrite (float_same _ _ _ _ G1' G1), (float_same _ _ _ _ G2' G2), (float_same _ _ _ _ G3' G3) in P'. exact (produces_same _ _ _ _ _ K2 P P').
    - rewrite (float_same _ _ _ _ G1' G1), (float_same _ _ _ _ G2' G2), (float_same _ _ _ _ G3' G3), (float_same _ _ _ _ G4' G4), (float_same _ _ _ _ G5' G5), (float_same _ _ _ _ G6' G6) in P'.
      exact (produces_same _ _ _ _ _ K1 P P').
    - rewrite (levels_same _ _ _ _ _ G1' G1), (levels_same _ _ _ _ _ G2' G2) in P'. exact (produces_same _ _ _ _ _ K4 P P').
    - rewrite (levels_same _ _ _ _ _ G1' G1), (levels_same _ _ _ _ _ G2' G2), (levels_same _ _ _ _ _ G3' G3) in P'. exact (produces_same _ _ _ _ _ K5 P P').
  Qed.
End Same.
(** What belongs to calls belongs to others of which the same was asked. *)
Lemma belongs_asked chk powi fetch m calls run q c (Q : list selection -> Prop) : belongs chk powi fetch m calls run q c ->
  (forall t n, asked calls run t n -> exists calls', Q calls' /\ asked calls' run t n) -> exists calls', Q calls' /\ belongs chk powi fetch m calls' run q c.
Proof.
  intros B X. destruct B as [n temp f c1 A G P|n u v g f c1 A G1 G2 G3 P|n clct p0 p1 clct' ce ww f c1 A G1 G2 G3 G4 G5 G6 P|n hhl clc f c1 A G1 G2 P|n hhl u v f c1 A G1 G2 G3 P];
    destruct (X _ _ A) as (calls' & HQ & A'); exists calls'; (split; [exact HQ|]).
  - now apply (in_temp chk powi fetch m calls' run n temp).
  - now apply (in_wind chk powi fetch m calls' run n u v g).
  - now apply (in_cloud_precip chk powi fetch m calls' run n clct p0 p1 clct' ce ww).
  - now apply (in_vertical_cloud chk powi fetch m calls' run n hhl clc).
  - now apply (in_vertical_wind chk powi fetch m calls' run n hhl u v).
Qed.
(** A file that belongs to some calls belongs to one of them. *)
Lemma belongs_one chk powi fetch m calls run q c : belongs chk powi fetch m calls run q c -> exists call, In call calls /\ belongs chk powi fetch m [call] run q c.
Proof.
  intro B. destruct (belongs_asked chk powi fetch m calls run q c (fun cs => exists call, cs = [call] /\ In call calls) B) as (cs & (call & -> & J) & H); [|exists call; auto].
  intros t n (call & J & W). exists [call]. split; [exists call; auto|]. exists call. split; [now left|exact W].
Qed.
Lemma belongs_all chk powi fetch m calls run q c call : In call calls -> belongs chk powi fetch m [call] run q c -> belongs chk powi fetch m calls run q c.
Proof.
  intros J B. destruct (belongs_asked chk powi fetch m [call] run q c (fun cs => cs = calls) B) as (cs & -> & H); [|exact H].
  intros t n (call' & [<-|[]] & W). exists calls. split; [reflexivity|]. exists call. auto.
Qed.
(** After a completed call. *)
Lemma dwd_complete chk powi fetch m head today today' model call tr run : dwd_model model -> valid_date today -> valid_date (prev_day today') -> steady fetch ->
  dwd_render_latest chk powi fetch m false head today today' model (fst call) (snd call) tr (Ok tt) -> find_latest_run head model today today' = Ok run ->
  forall q c, belongs chk powi fetch m [call] run q c -> forall before, file_after q before tr = Some c.
Proof.
  intros M V V' St R F q c B before. destruct (c59_proof chk powi fetch m head today today' model (fst call) (snd call) tr M V V' St R) as (run' & F' & Ht & Hw & Hc & Hv).
  assert (run' = run) by congruence. subst run'. assert (AS : forall t n, asked [call] run t n -> named (fst call) t /\ wanted_nr run (snd call) n) by (intros t n (c' & [<-|[]] & H); exact H).
  pose proof (float_same chk powi fetch St run) as FS. pose proof (levels_same chk powi fetch St run) as LS.
  destruct B as [n temp f c1 A G P|n u v g f c1 A G1 G2 G3 P|n clct p0 p1 clct' ce ww f c1 A G1 G2 G3 G4 G5 G6 P|n hhl clc f c1 A G1 G2 P|n hhl u v f c1 A G1 G2 G3 P]; apply AS in A; destruct A as [N W].
  - destruct (Ht N n W) as (temp' & G' & [_ Re]). rewrite (FS _ _ _ _ G G') in P. exact (Re f _ P before).
  - destruct (Hw N n W) as (u' & v' & g' & G1' & G2' & G3' & [_ Re]). rewrite (FS _ _ _ _ G1 G1'), (FS _ _ _ _ G2 G2'), (FS _ _ _ _ G3 G3') in P. exact (Re f _ P before).
  - destruct (Hc N n W) as (cl & a & b & ce' & ww' & G1' & G2' & G3' & G5' & G6' & [_ Re]).
    rewrite (FS _ _ _ _ G1 G1'), (FS _ _ _ _ G2 G2'), (FS _ _ _ _ G3 G3'), (FS _ _ _ _ G4 G1'), (FS _ _ _ _ G5 G5'), (FS _ _ _ _ G6 G6') in P. exact (Re f _ P before).
  - destruct (Hv (or_introl N)) as (h & Gh & Hvc & _). destruct (Hvc N n W) as (cl & G2' & [_ Re]). rewrite (LS _ _ _ _ _ G1 Gh), (LS _ _ _ _ _ G2 G2') in P. exact (Re f _ P before).
  - destruct (Hv (or_intror N)) as (h & Gh & _ & Hvw). destruct (Hvw N n W) as (a & b & G2' & G3' & [_ Re]). rewrite (LS _ _ _ _ _ G1 Gh), (LS _ _ _ _ _ G2 G2'), (LS _ _ _ _ _ G3 G3') in P.
    exact (Re f _ P before).
Qed.
(** Traces that leave a file or give it the same content. *)
Lemma agreeing q c ts tr : interleaving ts tr -> (exists t, In t ts /\ last_hit q t = Some c) -> Forall (fun t => last_hit q t = None \/ last_hit q t = Some c) ts ->
  forall before, file_after q before tr = Some c.
Proof.
  intros L (t & J & H) A before. rewrite file_after_hit. apply (interleaving_hit q) in L. rewrite Forall_forall in A. destruct (last_hit q tr) as [c'|].
  - destruct L as (t' & J' & H'). destruct (A t' J') as [X|X]; congruence.
  - rewrite Forall_forall in L. rewrite (L t J) in H. discriminate.
Qed.
Lemma right_hit F q tr : Forall (rightly false F) tr -> last_hit q tr <> None -> exists c, F q c.
Proof.
  intros A N. destruct (last_hit q tr) as [c|] eqn:E; [|contradiction]. destruct (last_hit_in q tr c E) as (e & J & H). rewrite Forall_forall in A. specialize (A e J).
  destruct e as [s| |p|p d|p d|p|p b]; cbn [hit] in H; try discriminate; destruct (String.eqb_spec p q) as [->|]; try discriminate; cbn [rightly] in A; [eauto|eauto|destruct A; eauto|].
  destruct A as (lost & A & _). eauto.
Qed.
Lemma Forall2_in_l {A B} (R : A -> B -> Prop) l l' a : Forall2 R l l' -> In a l -> exists b, In b l' /\ R a b.
Proof. intro F. induction F as [|x y l l' H F IH]; intros J; [destruct J|]. destruct J as [<-|J]; [exists y; split; [now left|exact H]|]. destruct (IH J) as (b & Jb & Hb). exists b. split; [now right|exact Hb]. Qed.
Lemma Forall2_in_r {A B} (R : A -> B -> Prop) l l' b : Forall2 R l l' -> In b l' -> exists a, In a l /\ R a b.
Proof. intro F. induction F as [|x y l l' H F IH]; intros J; [destruct J|]. destruct J as [<-|J]; [exists x; split; [now left|exact H]|]. destruct (IH J) as (a & Ja & Ha). exists a. split; [now right|exact Ha]. Qed.
Lemma dwd_parts chk powi fetch m faulty head today today' model calls ts run : dwd_model model -> valid_date today -> valid_date (prev_day today') ->
  find_latest_run head model today today' = Ok run ->
  Forall2 (fun c t => part_of (dwd_render_latest chk powi fetch m faulty head today today' model (fst c) (snd c)) t) calls ts ->
  Forall (started_right faulty (belongs chk powi fetch m calls run)) ts.
Proof.
  intros M V V' Fr F. apply Forall_forall. intros t J. destruct (Forall2_in_r _ _ _ _ F J) as ([vars steps] & Jc & (missed & r & R)). cbn [fst snd] in R. split.
  - pose proof (dwd_right chk powi fetch m faulty head today today' model vars steps calls run _ r M Jc R Fr) as X. apply Forall_app in X. exact (proj1 X).
  - exact (ordered_part _ _ (dwd_ordered chk powi fetch m faulty head today today' model vars steps M V V' _ r R)).
Qed.
Lemma whole_part (p : prog effect) t r : p t r -> part_of p t.
Proof. intro R. exists [], r. now rewrite app_nil_r. Qed.
Lemma c75_dwd_proof : forall chk powi fetch m head today today' model calls ts tr,
  dwd_model model -> valid_date today -> valid_date (prev_day today') -> steady fetch ->
  Forall2 (fun c t => dwd_render_latest chk powi fetch m false head today today' model (fst c) (snd c) t (Ok tt)) calls ts -> interleaving ts tr ->
  exists run, find_latest_run head model today today' = Ok run /\
    forall q, (forall c, belongs chk powi fetch m calls run q c -> forall before, found_after q before tr = Some c) /\
              ((forall c, ~ belongs chk powi fetch m calls run q c) -> forall before, found_after q before tr = before).
Proof.
  intros chk powi fetch m head today today' model calls ts tr M V V' St F L. destruct (c50_latest_proof head model today today' M) as (run & Fr & _). exists run. split; [exact Fr|].
  destruct (found_run _ _ _ _ _ M V V' Fr) as [VR _].
  assert (R : forall call t, dwd_render_latest chk powi fetch m false head today today' model (fst call) (snd call) t (Ok tt) -> Forall (rightly false (belongs chk powi fetch m [call] run)) t).
  { intros [vars steps] t H. exact (dwd_right chk powi fetch m false head today today' model vars steps [(vars, steps)] run t _ M (or_introl eq_refl) H Fr). }
  assert (Fp : Forall2 (fun c t => part_of (dwd_render_latest chk powi fetch m false head today today' model (fst c) (snd c)) t) calls ts).
  { clear -F. induction F as [|c t calls ts H F IH]; constructor; [exact (whole_part _ _ _ H)|exact IH]. }
  pose proof (right_together false _ ts tr (dwd_parts chk powi fetch m false head today today' model calls ts run M V V' Fr Fp) L) as [Rt Ot].
  intro q. split.
  - intros c B before. rewrite (found_same (belongs chk powi fetch m calls run) q (fun a b Ha Hb => belongs_same chk powi fetch m St run VR _ _ q q a b Ha Hb eq_refl) tr [] before Rt Ot) by (intros [[]|(? & [])]).
    apply belongs_one in B. destruct B as (call & J & B). destruct (Forall2_in_l _ _ _ _ F J) as (t & Jt & H). apply (agreeing q c ts tr L).
    + exists t. split; [exact Jt|]. apply hit_always. exact (dwd_complete chk powi fetch m head today today' model call t run M V V' St H Fr q c B).
    + apply Forall_forall. intros t' J'. destruct (Forall2_in_r _ _ _ _ F J') as (call' & Jc & H'). destruct (last_hit q t') as [c'|] eqn:E; [right|now left].
      destruct (right_hit _ q t' (R call' t' H')) as (c2 & B2); [congruence|].
      pose proof (dwd_complete chk powi fetch m head today today' model call' t' run M V V' St H' Fr q c2 B2) as X. apply hit_always in X.
      rewrite (belongs_same chk powi fetch m St run VR _ _ q q c c2 B B2 eq_refl). congruence.
  - intros N. apply found_untouched. pose proof (interleaving_hit q ts tr L) as I. destruct (last_hit q tr) as [c|]; [|reflexivity]. destruct I as (t & Jt & E).
    destruct (Forall2_in_r _ _ _ _ F Jt) as (call & Jc & H). exfalso. destruct (right_hit _ q t (R call t H)) as (c2 & B2); [congruence|]. apply (N c2). exact (belongs_all _ _ _ _ _ _ _ _ _ Jc B2).
Qed.
(** *** Killed calls *)
Lemma c76_dwd_proof : forall chk powi fetch m faulty head today today' model calls ts, dwd_model model ->
  Forall2 (fun c t => part_of (dwd_render_latest chk powi fetch m faulty head today today' model (fst c) (snd c)) t) calls ts ->
  forall q before, file_after q before (concat ts) = before \/
    exists run c found, find_latest_run head model today today' = Ok run /\ belongs chk powi fetch m calls run q c /\
      beginning faulty c found /\ file_after q before (concat ts) = Some found.
Proof.
  intros chk powi fetch m faulty head today today' model calls ts M F q before. destruct (c50_latest_proof head model today today' M) as (run & Fr & _).
  assert (A : Forall (rightly faulty (belongs chk powi fetch m calls run)) (concat ts)).
  { apply Forall_concat, Forall_forall. intros t J. destruct (Forall2_in_r _ _ _ _ F J) as ([vars steps] & Jc & (missed & r & R)). cbn [fst snd] in R.
    pose proof (dwd_right chk powi fetch m faulty head today today' model vars steps calls run _ r M Jc R Fr) as X. apply Forall_app in X. exact (proj1 X). }
  destruct (right_found faulty _ _ A q before) as [H|(c & found & B & G & H)]; [now left|]. right. exists run, c, found. auto.
Qed.
Lemma c76_dwd_together_proof : forall chk powi fetch m faulty head today today' model calls ts tr, dwd_model model -> valid_date today -> valid_date (prev_day today') ->
  Forall2 (fun c t => part_of (dwd_render_latest chk powi fetch m faulty head today today' model (fst c) (snd c)) t) calls ts -> interleaving ts tr ->
  forall q before, found_after q before tr = before \/
    exists run found, find_latest_run head model today today' = Ok run /\ pieced (belongs chk powi fetch m calls run q) found /\ found_after q before tr = Some found.
Proof.
  intros chk powi fetch m faulty head today today' model calls ts tr M V V' F L q before. destruct (c50_latest_proof head model today today' M) as (run & Fr & _).
  pose proof (right_together faulty _ ts tr (dwd_parts chk powi fetch m faulty head today today' model calls ts run M V V' Fr F) L) as A.
  destruct (pieced_found faulty _ tr A q before) as [H|(found & P & H)]; [now left|]. right. exists run, found. auto.
Qed.
Lemma c76_dwd_steady_proof : forall chk powi fetch m faulty head today today' model calls ts tr, dwd_model model -> valid_date today -> valid_date (prev_day today') -> steady fetch ->
  Forall2 (fun c t => part_of (dwd_render_latest chk powi fetch m faulty head today today' model (fst c) (snd c)) t) calls ts -> interleaving ts tr ->
  forall q before, found_after q before tr = before \/
    exists run c found, find_latest_run head model today today' = Ok run /\ belongs chk powi fetch m calls run q c /\ beginning faulty c found /\ found_after q before tr = Some found.
Proof.
  intros chk powi fetch m faulty head today today' model calls ts tr M V V' St F L q before. destruct (c50_latest_proof head model today today' M) as (run & Fr & _).
  destruct (found_run _ _ _ _ _ M V V' Fr) as [VR _].
  pose proof (right_together faulty _ ts tr (dwd_parts chk powi fetch m faulty head today today' model calls ts run M V V' Fr F) L) as A.
  destruct (beginning_found faulty _ tr q A (fun a b Ha Hb => belongs_same chk powi fetch m St run VR _ _ q q a b Ha Hb eq_refl) before) as [H|(c & found & B & G & H)]; [now left|].
  right. exists run, c, found. auto.
Qed.

(** ** Swiss service *)
Section Swiss.
  Variables (chk : bool) (powi : f32 -> Z -> f32) (rfc : rfc3339_parser) (sv : service) (m : libm) (calls : list selection).
  Notation SB := (swiss_belongs chk powi rfc sv m calls).
  Lemma layered_right k faulty run steps p Q (F : string -> content -> Prop) : In k (kinds chk m) -> layered k faulty run steps p Q ->
    (forall ss read s l o c, Q ss read -> In s ss -> wanted steps s -> read s (Ok l) -> produces chk m k run l o c -> F (file_path run (st_nr s) o) c) ->
    effects (rightly faulty F) p.
  Proof.
    intros K L H tr r R. destruct (L tr r R) as [[-> _]|(ss & read & HQ & R')]; [constructor|]. revert tr r R R'. 
    intros tr r _ R'. revert R'. assert (E : effects (rightly faulty F) (k_render k faulty run ss steps read)); [|exact (E tr r)].
    eapply effects_impl; [|exact (render_right chk m k K faulty run ss steps read)]. intros e [(s & ->)|(s & l & J & Ws & Rl & X)]; [exact I|].
    eapply rightly_impl; [|exact X]. intros q c (f & -> & P). exact (H ss read s l f c HQ J Ws Rl P).
  Qed.
  Lemma found_file t v skip l s : files_of sv v t l -> In s (number_steps skip l) ->
    exists n f, nth_file sv t v n f /\ s = {| st_nr := Z.of_nat n; st_url := ss_href f |} /\ nth_error l n = Some f /\ (skip = true -> (1 <= n)%nat).
  Proof. intros F J. apply number_in in J. destruct J as (i & f & Ni & Hs & ->). exists i, f. split; [exists l; auto|]. split; [reflexivity|]. split; [exact Ni|]. intro E. specialize (Hs E). lia. Qed.
  Lemma swiss_right faulty vars steps tr r : dated rfc sv -> In (vars, steps) calls -> swiss_render_latest chk powi rfc sv m faulty steps vars tr r -> Forall (rightly faulty SB) tr.
  Proof.
    intros D Jc R. destruct (swiss_start _ _ _ _ _ _ _ _ _ _ R) as [[-> _]|(u & heights & t & S & R')]; [constructor|]. clear R.
    pose proof (started_valid _ _ _ _ _ _ _ D S) as V. destruct (kind_in chk m) as (K1 & K2 & K3 & K4 & K5).
    assert (A : forall ty n, named vars ty -> wanted_step steps n -> swiss_asked calls ty n) by (intros ty n N Wn; exists (vars, steps); auto).
    revert tr r R'. apply selected_effects; [exact I| | | |].
    - intro N. apply (layered_right _ _ _ _ _ _ _ K1 (cp_layered chk powi sv m u t V faulty steps)).
      intros ss read s l o c (lc & lp & le & Fc & Fp & Fe & -> & ->) Js Ws Rl P. destruct (found_file _ _ _ _ _ Fc Js) as (n & fc & NF & -> & Hn & Hs). specialize (Hs eq_refl).
      destruct n as [|n]; [lia|]. unfold wanted in Ws. cbn [st_nr] in *.
      unfold swiss_read_cloud_precip_weather in Rl. apply r_bind_ok in Rl. destruct Rl as (cp & Rcp & Rl). apply r_bind_ok in Rl. destruct Rl as (we & Rwe & Rl). injection Rl as ->.
      unfold swiss_read_cloud_precip in Rcp. apply r_bind_ok in Rcp. destruct Rcp as (s1 & H1 & Rcp). apply r_bind_ok in Rcp. destruct Rcp as (b & Hb & Rcp).
      apply r_bind_ok in Rcp. destruct Rcp as (s2 & H2 & Rcp). apply r_bind_ok in Rcp. destruct Rcp as (s3 & H3 & Rcp).
      apply r_bind_ok in Rcp. destruct Rcp as (clct & Rc & Rcp). apply r_bind_ok in Rcp. destruct Rcp as (p0 & R0 & Rcp). apply r_bind_ok in Rcp. destruct Rcp as (p1 & R1 & Rcp).
      symmetry in Rcp. apply cloud_precip_new_ok in Rcp. subst cp.
      unfold swiss_read_weather in Rwe. apply r_bind_ok in Rwe. destruct Rwe as (s4 & H4 & Rwe). apply r_bind_ok in Rwe. destruct Rwe as (s5 & H5 & Rwe).
      apply r_bind_ok in Rwe. destruct Rwe as (clct' & Rc' & Rwe). apply r_bind_ok in Rwe. destruct Rwe as (ce & Rce & Rwe). symmetry in Rwe. apply weather_new_ok in Rwe. subst we.
      cbn [st_nr] in *. apply unwrap_ok in H1, H2, H3, H4, H5.
      assert (Eb : b = Z.of_nat n). { unfold r_of, usub in Hb. destruct (Z.leb_spec 1 (Z.of_nat (Datatypes.S n))); [|lia]. replace (Z.of_nat (Datatypes.S n) - 1) with (Z.of_nat n) in Hb by lia. congruence. }
      subst b. rewrite (lookup_some true lc (Datatypes.S n) fc Hn) in H1, H4 by lia. injection H1 as <-. injection H4 as <-.
      apply lookup_ok in H2, H3, H5. destruct H2 as (f0 & N2 & _ & U2 & _), H3 as (f1 & N3 & _ & U3 & _), H5 as (fe & N5 & _ & U5 & _). cbn [st_url] in *. rewrite U2 in R0. rewrite U3 in R1. rewrite U5 in Rce.
      apply unstructured_spec in Rc, R0, R1, Rc', Rce.
      apply (swiss_cloud_precip_in chk powi rfc sv m calls u heights t n fc f0 f1 fe clct p0 p1 clct' ce); try assumption; [exact (A _ _ N Ws)|exists lp; auto|exists lp; auto|exists le; auto].
    - intro N. apply (layered_right _ _ _ _ _ _ _ K2 (wi_layered chk powi sv m u t V faulty steps)).
      intros ss read s l o c (lu & lv & lg & Fu & Fv & Fg & -> & ->) Js Ws Rl P. destruct (found_file _ _ _ _ _ Fu Js) as (n & fu & NF & -> & Hn & _). unfold wanted in Ws. cbn [st_nr] in *.
      unfold swiss_read_wind in Rl. apply r_bind_ok in Rl. destruct Rl as (s1 & E1 & Rl). apply r_bind_ok in Rl. destruct Rl as (s2 & E2 & Rl). apply r_bind_ok in Rl. destruct Rl as (s3 & E3 & Rl).
      unfold r_of in E1, E2, E3. cbn [st_nr] in *. symmetry in E2, E3. rewrite (lookup_some false lu n fu Hn) in E1 by discriminate. injection E1 as ->.
      apply lookup_ok in E2, E3. destruct E2 as (fv & N2 & _ & U2 & _), E3 as (fg & N3 & _ & U3 & _). cbn [st_url] in Rl. rewrite U2, U3 in Rl.
      apply r_bind_ok in Rl. destruct Rl as (a & Ra & Rl). apply r_bind_ok in Rl. destruct Rl as (b & Rb & Rl). apply r_bind_ok in Rl. destruct Rl as (g & Rg & Rl).
      symmetry in Rl. apply wind_new_ok in Rl. subst l. apply unstructured_spec in Ra, Rb, Rg.
      apply (swiss_wind_in chk powi rfc sv m calls u heights t n fu fv fg a b g); try assumption; [exact (A _ _ N Ws)|exists lv; auto|exists lg; auto].
    - intro N. apply (layered_right _ _ _ _ _ _ _ K3 (te_layered chk powi sv m u t V faulty steps)).
      intros ss read s l o c (lt & Ft & -> & ->) Js Ws Rl P. destruct (found_file _ _ _ _ _ Ft Js) as (n & f & NF & -> & Hn & _). unfold wanted in Ws. cbn [st_nr] in *.
      unfold swiss_read_temp in Rl. apply r_bind_ok in Rl. destruct Rl as (s' & Es & Rl). apply unwrap_ok in Es. cbn [st_nr] in Es. rewrite (lookup_some false lt n f Hn) in Es by discriminate.
      injection Es as <-. cbn [st_url] in Rl. apply unstructured_spec in Rl. apply (swiss_temp_in chk powi rfc sv m calls u heights t n f l); try assumption. exact (A _ _ N Ws).
    - intros hhl Hh. apply multi_spec in Hh. split; intro N.
      + apply (layered_right _ _ _ _ _ _ _ K4 (vc_layered chk powi sv u t V faulty steps hhl)).
        intros ss read s l o c (lc & Fc & -> & ->) Js Ws Rl P. destruct (found_file _ _ _ _ _ Fc Js) as (n & f & NF & -> & Hn & _). unfold wanted in Ws. cbn [st_nr] in *.
        unfold swiss_read_vertical_cloud in Rl. apply r_bind_ok in Rl. destruct Rl as (s' & Es & Rl). apply unwrap_ok in Es. cbn [st_nr] in Es. rewrite (lookup_some false lc n f Hn) in Es by discriminate.
        injection Es as <-. cbn [st_url] in Rl. apply r_bind_ok in Rl. destruct Rl as (clc & Rc & Rl). symmetry in Rl. apply vertical_cloud_new_ok in Rl. subst l. apply multi_spec in Rc.
        apply (swiss_vertical_cloud_in chk powi rfc sv m calls u heights t n f hhl clc); try assumption. exact (A _ _ N Ws).
      + apply (layered_right _ _ _ _ _ _ _ K5 (vw_layered chk powi sv u t V faulty steps hhl)).
        intros ss read s l o c (lu & lv & Fu & Fv & -> & ->) Js Ws Rl P. destruct (found_file _ _ _ _ _ Fu Js) as (n & f & NF & -> & Hn & _). unfold wanted in Ws. cbn [st_nr] in *.
        unfold swiss_read_vertical_wind in Rl. apply r_bind_ok in Rl. destruct Rl as (s1 & E1 & Rl). apply r_bind_ok in Rl. destruct Rl as (s2 & E2 & Rl). apply unwrap_ok in E1, E2. cbn [st_nr] in *.
        rewrite (lookup_some false lu n f Hn) in E1 by discriminate. injection E1 as <-. apply lookup_ok in E2. destruct E2 as (fv & N2 & _ & U2 & _). cbn [st_url] in Rl. rewrite U2 in Rl.
        apply r_bind_ok in Rl. destruct Rl as (a & Ra & Rl). apply r_bind_ok in Rl. destruct Rl as (b & Rb & Rl). symmetry in Rl. apply vertical_wind_new_ok in Rl. subst l. apply multi_spec in Ra, Rb.
        apply (swiss_vertical_wind_in chk powi rfc sv m calls u heights t n f fv hhl a b); try assumption; [exact (A _ _ N Ws)|exists lv; auto].
  Qed.
End Swiss.
Lemma swiss_ordered chk powi rfc sv m faulty steps vars : dated rfc sv -> ord [] (swiss_render_latest chk powi rfc sv m faulty steps vars).
Proof.
  intros D tr r R. destruct (swiss_start _ _ _ _ _ _ _ _ _ _ R) as [[-> _]|(u & heights & t & S & R')]; [apply ordered_nil|]. clear R.
  pose proof (started_valid _ _ _ _ _ _ _ D S) as V. destruct (kind_in chk m) as (K1 & K2 & K3 & K4 & K5). pose proof (swiss_valid t V) as SV.
  assert (G : forall k p Q, In k (kinds chk m) -> layered k faulty (swiss_run_of t) steps p Q -> (forall ss read, Q ss read -> numbering ss) -> ord [] p).
  { intros k p Q K Lk N tr' r' R. destruct (Lk tr' r' R) as [[-> _]|(ss & read & H & R2)]; [apply ordered_nil|]. exact (render_ordered chk m k K faulty _ ss steps read SV (proj1 (N _ _ H)) tr' r' R2). }
  revert tr r R'. apply selected_ordered; [|..|intro h|intro h].
  - exact (G _ _ _ K1 (cp_layered chk powi sv m u t V faulty steps) (numbered_cp chk powi sv u t)).
  - exact (G _ _ _ K2 (wi_layered chk powi sv m u t V faulty steps) (numbered_wi chk powi sv u t)).
  - exact (G _ _ _ K3 (te_layered chk powi sv m u t V faulty steps) (numbered_te chk powi sv u t)).
  - exact (G _ _ _ K4 (vc_layered chk powi sv u t V faulty steps h) (numbered_vc chk powi sv u t h)).
  - exact (G _ _ _ K5 (vw_layered chk powi sv u t V faulty steps h) (numbered_vw chk powi sv u t h)).
Qed.
Lemma swiss_parts chk powi rfc sv m faulty calls ts : dated rfc sv ->
  Forall2 (fun c t => part_of (swiss_render_latest chk powi rfc sv m faulty (snd c) (fst c)) t) calls ts -> Forall (started_right faulty (swiss_belongs chk powi rfc sv m calls)) ts.
Proof.
  intros D F. apply Forall_forall. intros t J. destruct (Forall2_in_r _ _ _ _ F J) as ([vars steps] & Jc & (missed & r & R)). cbn [fst snd] in R. split.
  - pose proof (swiss_right chk powi rfc sv m calls faulty vars steps _ r D Jc R) as X. apply Forall_app in X. exact (proj1 X).
  - exact (ordered_part _ _ (swiss_ordered chk powi rfc sv m faulty steps vars D _ r R)).
Qed.
Lemma c76_swiss_proof : forall chk powi rfc3339 sv m faulty calls ts, dated rfc3339 sv ->
  Forall2 (fun c t => part_of (swiss_render_latest chk powi rfc3339 sv m faulty (snd c) (fst c)) t) calls ts ->
  forall q before, file_after q before (concat ts) = before \/
    exists c found, swiss_belongs chk powi rfc3339 sv m calls q c /\ beginning faulty c found /\ file_after q before (concat ts) = Some found.
Proof.
  intros chk powi rfc sv m faulty calls ts D F q before. apply right_found. apply Forall_concat.
  eapply Forall_impl; [|exact (swiss_parts chk powi rfc sv m faulty calls ts D F)]. intros t H. apply H.
Qed.
Lemma c76_swiss_together_proof : forall chk powi rfc3339 sv m faulty calls ts tr, dated rfc3339 sv ->
  Forall2 (fun c t => part_of (swiss_render_latest chk powi rfc3339 sv m faulty (snd c) (fst c)) t) calls ts -> interleaving ts tr ->
  forall q before, found_after q before tr = before \/
    exists found, pieced (swiss_belongs chk powi rfc3339 sv m calls q) found /\ found_after q before tr = Some found.
Proof.
  intros chk powi rfc sv m faulty calls ts tr D F L. exact (pieced_found faulty _ tr (right_together faulty _ ts tr (swiss_parts chk powi rfc sv m faulty calls ts D F) L)).
Qed.
(** A service that is settled gives the same again. *)
Lemma sorted_same l : forall l', StronglySorted horizon_le l -> StronglySorted horizon_le l' ->
  (forall n, filter (fun s => hours (ss_horizon s) =? n) l = filter (fun s => hours (ss_horizon s) =? n) l') -> l = l'.
Proof.
  assert (In1 : forall a (l : list swiss_step), In a l -> In a (filter (fun s => hours (ss_horizon s) =? hours (ss_horizon a)) l)) by (intros a l0 J; apply filter_In; split; [exact J|apply Z.eqb_refl]).
  assert (In2 : forall a n (l : list swiss_step), In a (filter (fun s => hours (ss_horizon s) =? n) l) -> In a l) by (intros a n l0 J; now apply filter_In in J).
  induction l as [|a l IH]; intros [|b l'] S S' E; [reflexivity| | |].
  - specialize (In1 b (b :: l') (or_introl eq_refl)). rewrite <- E in In1. destruct In1.
  - specialize (In1 a (a :: l) (or_introl eq_refl)). rewrite E in In1. destruct In1.
  - inversion S as [|? ? S1 B1]; subst. inversion S' as [|? ? S2 B2]; subst. rewrite Forall_forall in B1, B2.
    assert (Ja : In a (b :: l')) by (apply (In2 _ (hours (ss_horizon a))); rewrite <- E; apply In1; now left).
    assert (Jb : In b (a :: l)) by (apply (In2 _ (hours (ss_horizon b))); rewrite E; apply In1; now left).
    assert (Eh : hours (ss_horizon a) = hours (ss_horizon b)).
    { destruct Ja as [->|Ja]; [reflexivity|]. destruct Jb as [->|Jb]; [reflexivity|]. specialize (B1 _ Jb). specialize (B2 _ Ja). unfold horizon_le in *. lia. }
    assert (Ea : a = b). { specialize (E (hours (ss_horizon a))). cbn [filter] in E. rewrite <- Eh, Z.eqb_refl in E. congruence. }
    subst b. f_equal. apply IH; [assumption..|]. intro n. specialize (E n). cbn [filter] in E. destruct (hours (ss_horizon a) =? n); congruence.
Qed.
Section Settled.
  Variables (chk : bool) (powi : f32 -> Z -> f32) (rfc : rfc3339_parser) (sv : service) (m : libm) (S : settled sv).
  Lemma described_same f s s' : described f s -> described f s' -> s = s'.
  Proof. intros (T & H & more & R) (T' & H' & more' & R'). destruct s, s'. cbn in *. congruence. Qed.
  Lemma files_same v t l l' : files_of sv v t l -> files_of sv v t l' -> l = l'.
  Proof.
    destruct S as (_ & S2 & _ & S4). intros (fs & ps & Q & D & _ & B) (fs' & ps' & Q' & D' & _ & B'). assert (fs' = fs) by exact (S2 _ _ _ Q' Q). subst fs'.
    assert (ps' = ps). { clear -D D'. revert ps' D'. induction D as [|f s fs ps H D IH]; intros ps' D'; inversion D' as [|? s' ? ps2 H' D2]; subst; [reflexivity|]. f_equal; [exact (described_same f s' s H' H)|auto]. }
    subst ps'. destruct (B (S4 _ _ _ Q D)) as [S1 E1]. destruct (B' (S4 _ _ _ Q D)) as [S1' E1']. apply sorted_same; [assumption..|]. intro n. rewrite E1, E1'. reflexivity.
  Qed.
  Lemma nth_same t v n f f' : nth_file sv t v n f -> nth_file sv t v n f' -> f = f'.
  Proof. intros (l & F & H) (l' & F' & H'). rewrite (files_same v t l l' F F') in H. congruence. Qed.
  Lemma asset_same id l a a' : first_asset id l a -> first_asset id l a' -> a = a'.
  Proof. intros H H'. apply find_asset_some in H, H'. congruence. Qed.
  Lemma started_same u h t u' h' t' : started chk powi rfc sv u h t -> started chk powi rfc sv u' h' t' -> u = u' /\ h = h' /\ t = t'.
  Proof.
    destruct S as (S1 & S2 & S3 & _). intros (l & hor & vert & A & H1 & G & H2 & -> & fs & f & L & T) (l' & hor' & vert' & A' & H1' & G' & H2' & -> & fs' & f' & L' & T').
    assert (l' = l) by exact (S1 _ _ A' A). subst l'. rewrite (asset_same _ _ _ _ H1' H1) in G'. rewrite (asset_same _ _ _ _ H2' H2).
    pose proof (S2 _ _ _ L L') as E. apply app_inj_tail in E. destruct E as [_ <-]. split; [|split; [reflexivity|congruence]].
    apply hor_consts_ok in G, G'. unfold read_hor_consts in G, G'. assert (X : det (read_hor_consts chk powi (sv_fetch sv) (as_href hor))).
    { apply det_bind; [apply det_bind; [apply det_fetch; exact S3|intro; apply det_of]|intro; apply det_of]. }
    exact (X _ _ G G').
  Qed.
  Lemma value_same {T} u (missing : T) transform f g g' : file_grid chk powi (sv_fetch sv) u missing transform f g -> file_grid chk powi (sv_fetch sv) u missing transform f g' -> g = g'.
  Proof. destruct S as (_ & _ & S3 & _). intros H H'. apply unstructured_spec in H, H'. exact (det_unstructured chk powi (sv_fetch sv) S3 _ _ _ _ _ _ H H'). Qed.
  Lemma grids_same u missing transform url gs gs' : level_grids_at chk powi (sv_fetch sv) u missing transform url gs -> level_grids_at chk powi (sv_fetch sv) u missing transform url gs' -> gs = gs'.
  Proof. destruct S as (_ & _ & S3 & _). intros H H'. apply multi_spec in H, H'. exact (det_multi chk powi (sv_fetch sv) S3 _ _ _ _ _ _ _ H H'). Qed.
  Hypothesis D : dated rfc sv.
  Ltac same :=
    repeat match goal with
    | A : nth_file sv ?t ?v ?n ?f, B : nth_file sv ?t ?v ?n ?f' |- _ => tryif constr_eq f f' then fail else (pose proof (nth_same t v n f f' A B); subst f'; clear B)
    end;
    repeat match goal with
    | A : value_file chk powi (sv_fetch sv) ?u ?f ?g, B : value_file chk powi (sv_fetch sv) ?u ?f ?g' |- _ =>
        tryif constr_eq g g' then fail else (pose proof (value_same u _ _ f g g' A B); subst g'; clear B)
    | A : percent_file chk powi (sv_fetch sv) ?u ?f ?g, B : percent_file chk powi (sv_fetch sv) ?u ?f ?g' |- _ =>
        tryif constr_eq g g' then fail else (pose proof (value_same u _ _ f g g' A B); subst g'; clear B)
    | A : level_grids_at chk powi (sv_fetch sv) ?u ?mi ?tf ?url ?g, B : level_grids_at chk powi (sv_fetch sv) ?u ?mi ?tf ?url ?g' |- _ =>
        tryif constr_eq g g' then fail else (pose proof (grids_same u mi tf url g g' A B); subst g'; clear B)
    end.
  Lemma swiss_same calls calls' q q' c c' : swiss_belongs chk powi rfc sv m calls q c -> swiss_belongs chk powi rfc sv m calls' q' c' -> q = q' -> c = c'.
  Proof.
    destruct (kind_in chk m) as (K1 & K2 & K3 & K4 & K5).
    intros B B' E. destruct B, B';
      match goal with A : started _ _ _ _ ?u ?h ?t, B : started _ _ _ _ ?u' ?h' ?t' |- _ => destruct (started_same u h t u' h' t' A B) as (<- & <- & <-); clear B end;
      match goal with A : started _ _ _ _ _ _ ?t |- _ => pose proof (swiss_valid t (started_valid _ _ _ _ _ _ _ D A)) as V end;
      match goal with P : produces _ _ ?k _ ?l ?o ?c, P' : produces _ _ ?k' _ ?l' ?o' ?c', H : file_path _ ?n ?o = file_path _ ?n' ?o' |- ?c = ?c' =>
        assert (X : n = n' /\ o = o' /\ k_type k = k_type k') by
          (apply (same_place chk m (swiss_run_of t) V k k' l l' n n' o o' c c'); [cbn; auto 10|cbn; auto 10|lia|lia|exact P|exact P'|exact H]) end;
      destruct X as (En & <- & X); try discriminate X; clear X; apply Nat2Z.inj in En; try (injection En as En); subst; same;
      match goal with P : produces _ _ _ _ _ ?o ?c, P' : produces _ _ _ _ _ ?o ?c' |- ?c = ?c' => refine (produces_same chk m (swiss_run_of t) _ _ o c c' _ P P'); cbn; auto 10 end.
  Qed.
  Lemma swiss_complete call tr : swiss_render_latest chk powi rfc sv m false (snd call) (fst call) tr (Ok tt) ->
    forall q c, swiss_belongs chk powi rfc sv m [call] q c -> forall before, file_after q before tr = Some c.
  Proof.
    intros R q c B before. pose proof S as (_ & _ & S3 & _). destruct (c60_proof chk powi rfc sv m (snd call) (fst call) tr D S3 R) as (u & heights & t & St & Ht & Hw & Hc & Hv). cbn zeta in *.
    assert (AS : forall ty n, swiss_asked [call] ty n -> named (fst call) ty /\ wanted_step (snd call) n) by (intros ty n (c' & [<-|[]] & H); exact H).
    destruct B as [u' h' t' n f temp o c1 St' A NF G P|u' h' t' n fu fv fg a b g o c1 St' A N1 N2 N3 G1 G2 G3 P|u' h' t' n fc f0 f1 fe clct p0 p1 clct' ce o c1 St' A N1 N2 N3 N4 G1 G2 G3 G4 G5 P
      |u' h' t' n f hhl clc o c1 St' A NF G1 G2 P|u' h' t' n fu fv hhl a b o c1 St' A N1 N2 G1 G2 G3 P];
      destruct (started_same _ _ _ _ _ _ St St') as (<- & <- & <-); apply AS in A; destruct A as [N W].
    - destruct (Ht N) as (l & Fl & H). destruct NF as (l' & Fl' & Hn). rewrite (files_same _ _ _ _ Fl' Fl) in Hn. destruct (H n f Hn W) as (g & G' & [_ Re]). same. exact (Re o _ P before).
    - destruct (Hw N) as (lu & lv & lg & Fu & Fv & Fg & H). destruct N1 as (l' & Fl' & Hn). rewrite (files_same _ _ _ _ Fl' Fu) in Hn.
      destruct (H n fu Hn W) as (fv' & fg' & a' & b' & g' & Hv' & Hg' & G1' & G2' & G3' & [_ Re]).
      assert (N2' : nth_file sv t SV10m n fv') by (exists lv; auto). assert (N3' : nth_file sv t SVmax10m n fg') by (exists lg; auto). same. exact (Re o _ P before).
    - destruct (Hc N) as (lc & lp & le & Fc & Fp & Fe & H). destruct N1 as (l' & Fl' & Hn). rewrite (files_same _ _ _ _ Fl' Fc) in Hn.
      destruct (H n fc Hn W) as (f0' & f1' & fe' & cl & q0 & q1 & ce' & H0 & H1 & He & G1' & G2' & G3' & G5' & [_ Re]).
      assert (N2' : nth_file sv t STotPrec n f0') by (exists lp; auto). assert (N3' : nth_file sv t STotPrec (Datatypes.S n) f1') by (exists lp; auto). assert (N4' : nth_file sv t SCeiling (Datatypes.S n) fe') by (exists le; auto).
      same. exact (Re o _ P before).
    - destruct (Hv (or_introl N)) as (h & Gh & Hvc & _). destruct (Hvc N) as (l & Fl & H). destruct NF as (l' & Fl' & Hn). rewrite (files_same _ _ _ _ Fl' Fl) in Hn.
      destruct (H n f Hn W) as (cl & G' & _ & _ & [_ Re]). same. exact (Re o _ P before).
    - destruct (Hv (or_intror N)) as (h & Gh & _ & Hvw). destruct (Hvw N) as (lu & lv & Fu & Fv & H). destruct N1 as (l' & Fl' & Hn). rewrite (files_same _ _ _ _ Fl' Fu) in Hn.
      destruct (H n fu Hn W) as (fv' & a' & b' & Hv' & G1' & G2' & _ & _ & _ & [_ Re]). assert (N2' : nth_file sv t SV n fv') by (exists lv; auto). same. exact (Re o _ P before).
  Qed.
End Settled.
(** What belongs to Swiss calls belongs to others of which the same was asked. *)
Lemma swiss_asked_of chk powi rfc sv m calls q c (Q : list selection -> Prop) : swiss_belongs chk powi rfc sv m calls q c ->
  (forall t n, swiss_asked calls t n -> exists calls', Q calls' /\ swiss_asked calls' t n) -> exists calls', Q calls' /\ swiss_belongs chk powi rfc sv m calls' q c.
Proof.
  intros B X.
  destruct B as [u' h' t' n f temp o c1 St' A NF G P|u' h' t' n fu fv fg a b g o c1 St' A N1 N2 N3 G1 G2 G3 P|u' h' t' n fc f0 f1 fe clct p0 p1 clct' ce o c1 St' A N1 N2 N3 N4 G1 G2 G3 G4 G5 P
      |u' h' t' n f hhl clc o c1 St' A NF G1 G2 P|u' h' t' n fu fv hhl a b o c1 St' A N1 N2 G1 G2 G3 P]; destruct (X _ _ A) as (calls' & HQ & A'); exists calls'; (split; [exact HQ|]).
  - now apply (swiss_temp_in chk powi rfc sv m calls' u' h' t' n f temp).
  - now apply (swiss_wind_in chk powi rfc sv m calls' u' h' t' n fu fv fg a b g).
  - now apply (swiss_cloud_precip_in chk powi rfc sv m calls' u' h' t' n fc f0 f1 fe clct p0 p1 clct' ce).
  - now apply (swiss_vertical_cloud_in chk powi rfc sv m calls' u' h' t' n f hhl clc).
  - now apply (swiss_vertical_wind_in chk powi rfc sv m calls' u' h' t' n fu fv hhl a b).
Qed.
Lemma swiss_one chk powi rfc sv m calls q c : swiss_belongs chk powi rfc sv m calls q c -> exists call, In call calls /\ swiss_belongs chk powi rfc sv m [call] q c.
Proof.
  intro B. destruct (swiss_asked_of chk powi rfc sv m calls q c (fun cs => exists call, cs = [call] /\ In call calls) B) as (cs & (call & -> & J) & H); [|exists call; auto].
  intros t n (call & J & W). exists [call]. split; [exists call; auto|]. exists call. split; [now left|exact W].
Qed.
Lemma swiss_all chk powi rfc sv m calls q c call : In call calls -> swiss_belongs chk powi rfc sv m [call] q c -> swiss_belongs chk powi rfc sv m calls q c.
Proof.
  intros J B. destruct (swiss_asked_of chk powi rfc sv m [call] q c (fun cs => cs = calls) B) as (cs & -> & H); [|exact H].
  intros t n (call' & [<-|[]] & W). exists calls. split; [reflexivity|]. exists call. auto.
Qed.
Lemma c75_swiss_proof : forall chk powi rfc3339 sv m calls ts tr, dated rfc3339 sv -> settled sv ->
  Forall2 (fun c t => swiss_render_latest chk powi rfc3339 sv m false (snd c) (fst c) t (Ok tt)) calls ts -> interleaving ts tr ->
  forall q, (forall c, swiss_belongs chk powi rfc3339 sv m calls q c -> forall before, found_after q before tr = Some c) /\
            ((forall c, ~ swiss_belongs chk powi rfc3339 sv m calls q c) -> forall before, found_after q before tr = before).
Proof.
  intros chk powi rfc sv m calls ts tr D S F L q.
  assert (R : forall call t, swiss_render_latest chk powi rfc sv m false (snd call) (fst call) t (Ok tt) -> Forall (rightly false (swiss_belongs chk powi rfc sv m [call])) t).
  { intros [vars steps] t H. exact (swiss_right chk powi rfc sv m [(vars, steps)] false vars steps t _ D (or_introl eq_refl) H). }
  assert (Fp : Forall2 (fun c t => part_of (swiss_render_latest chk powi rfc sv m false (snd c) (fst c)) t) calls ts).
  { clear -F. induction F as [|c t calls ts H F IH]; constructor; [exact (whole_part _ _ _ H)|exact IH]. }
  pose proof (right_together false _ ts tr (swiss_parts chk powi rfc sv m false calls ts D Fp) L) as [Rt Ot].
  split.
  - intros c B before. rewrite (found_same (swiss_belongs chk powi rfc sv m calls) q (fun a b Ha Hb => swiss_same chk powi rfc sv m S D _ _ q q a b Ha Hb eq_refl) tr [] before Rt Ot) by (intros [[]|(? & [])]).
    apply swiss_one in B. destruct B as (call & J & B). destruct (Forall2_in_l _ _ _ _ F J) as (t & Jt & H). apply (agreeing q c ts tr L).
    + exists t. split; [exact Jt|]. apply hit_always. exact (swiss_complete chk powi rfc sv m S D call t H q c B).
    + apply Forall_forall. intros t' J'. destruct (Forall2_in_r _ _ _ _ F J') as (call' & Jc & H'). destruct (last_hit q t') as [c'|] eqn:E; [right|now left].
      destruct (right_hit _ q t' (R call' t' H')) as (c2 & B2); [congruence|].
      pose proof (swiss_complete chk powi rfc sv m S D call' t' H' q c2 B2) as X. apply hit_always in X.
      rewrite (swiss_same chk powi rfc sv m S D _ _ q q c c2 B B2 eq_refl). congruence.
  - intros N. apply found_untouched. pose proof (interleaving_hit q ts tr L) as I. destruct (last_hit q tr) as [c|]; [|reflexivity]. destruct I as (t & Jt & E).
    destruct (Forall2_in_r _ _ _ _ F Jt) as (call & Jc & H). exfalso. destruct (right_hit _ q t (R call t H)) as (c2 & B2); [congruence|]. apply (N c2). exact (swiss_all _ _ _ _ _ _ _ _ _ Jc B2).
Qed.
Lemma c76_swiss_settled_proof : forall chk powi rfc3339 sv m faulty calls ts tr, dated rfc3339 sv -> settled sv ->
  Forall2 (fun c t => part_of (swiss_render_latest chk powi rfc3339 sv m faulty (snd c) (fst c)) t) calls ts -> interleaving ts tr ->
  forall q before, found_after q before tr = before \/
    exists c found, swiss_belongs chk powi rfc3339 sv m calls q c /\ beginning faulty c found /\ found_after q before tr = Some found.
Proof.
  intros chk powi rfc sv m faulty calls ts tr D S F L q before.
  exact (beginning_found faulty _ tr q (right_together faulty _ ts tr (swiss_parts chk powi rfc sv m faulty calls ts D F) L) (fun a b Ha Hb => swiss_same chk powi rfc sv m S D _ _ q q a b Ha Hb eq_refl) before).
Qed.

(** ** A call after killed calls *)
Lemma found_after_app q t t' : forall before, found_after q before (t ++ t') = found_after q (found_after q before t) t'.
Proof. induction t as [|e t IH]; intros before; [reflexivity|]. cbn [app found_after]. apply IH. Qed.
Lemma c76_dwd_repaired_proof : forall chk powi fetch m head today today' model vars steps earlier tr,
  dwd_model model -> valid_date today -> valid_date (prev_day today') -> steady fetch ->
  dwd_render_latest chk powi fetch m false head today today' model vars steps tr (Ok tt) ->
  exists run, find_latest_run head model today today' = Ok run /\
    forall q c, belongs chk powi fetch m [(vars, steps)] run q c -> forall before, found_after q before (earlier ++ tr) = Some c.
Proof.
  intros chk powi fetch m head today today' model vars steps earlier tr M V V' St R.
  destruct (c75_dwd_proof chk powi fetch m head today today' model [(vars, steps)] [tr] tr M V V' St) as (run & Fr & H).
  - constructor; [exact R|constructor].
  - pose proof (interleaving_concat [tr]) as L. cbn [concat] in L. rewrite app_nil_r in L. exact L.
  - exists run. split; [exact Fr|]. intros q c B before. rewrite found_after_app. exact (proj1 (H q) c B _).
Qed.
Lemma c76_swiss_repaired_proof : forall chk powi rfc3339 sv m vars steps earlier tr, dated rfc3339 sv -> settled sv ->
  swiss_render_latest chk powi rfc3339 sv m false steps vars tr (Ok tt) ->
  forall q c, swiss_belongs chk powi rfc3339 sv m [(vars, steps)] q c -> forall before, found_after q before (earlier ++ tr) = Some c.
Proof.
  intros chk powi rfc sv m vars steps earlier tr D S R q c B before. rewrite found_after_app.
  apply (fun F L => proj1 (c75_swiss_proof chk powi rfc sv m [(vars, steps)] [tr] tr D S F L q) c B).
  - constructor; [exact R|constructor].
  - pose proof (interleaving_concat [tr]) as L. cbn [concat] in L. rewrite app_nil_r in L. exact L.
Qed.

(** ** Killed while it saves an image *)
Lemma last_part l q d : last_hit q (l ++ [EPart q d]) = Some (Pieces [d]).
Proof. induction l as [|e l IH]; cbn [app last_hit hit]; [now rewrite String.eqb_refl|now rewrite IH]. Qed.
Lemma cut_image tr q d : ordered [] tr -> In (EImage q d) tr -> exists killed missed, tr = killed ++ missed /\ forall before, file_after q before killed = Some (Pieces [d]).
Proof.
  intros O J. apply in_split in J. destruct J as (a & b & ->). destruct (O a _ b eq_refl) as [_ J]. cbn [app] in J. apply in_split in J. destruct J as (a1 & a2 & ->).
  exists (a1 ++ [EPart q d]), (a2 ++ EImage q d :: b). split; [rewrite <- !app_assoc; reflexivity|]. intros before. rewrite file_after_hit, last_part. reflexivity.
Qed.
Lemma c76_cut_proof : forall chk powi fetch rfc3339 sv m faulty head today today' model vars steps tr r,
  (dwd_model model /\ valid_date today /\ valid_date (prev_day today') /\ dwd_render_latest chk powi fetch m faulty head today today' model vars steps tr r) \/
  (dated rfc3339 sv /\ swiss_render_latest chk powi rfc3339 sv m faulty steps vars tr r) ->
  forall q d, In (EImage q d) tr -> exists killed missed, tr = killed ++ missed /\ forall before, file_after q before killed = Some (Pieces [d]).
Proof.
  intros chk powi fetch rfc sv m faulty head today today' model vars steps tr r H q d J. apply cut_image; [|exact J].
  destruct H as [(M & V & V' & R)|(D & R)]; [exact (dwd_ordered _ _ _ _ _ _ _ _ _ _ _ M V V' tr r R)|exact (swiss_ordered _ _ _ _ _ _ _ _ D tr r R)].
Qed.
