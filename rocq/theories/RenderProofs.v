(** Proofs about the rendering of the selected layers of a run, for the German and the Swiss forecasts (C54, C59, C60). *)
From Coq Require Import Ascii String ZArith List Bool Lia Permutation.
From Verif Require Import Base F32 Grib2Model GeoModel Par ParFacts TileModel ChartModel MetobinModel Text TextFacts
  ForecastModel ForecastSpec ForecastProofs FetchModel FetchSpec FetchProofs.
Import ListNotations.
Open Scope Z_scope.

Lemma render_quiet chk m k : In k (kinds chk m) -> forall faulty run steps filter read, valid_run run -> Forall (fun s => 0 <= st_nr s) steps ->
  quiet (k_render k faulty run steps filter read).
Proof.
  intros K faulty run steps filter read V NN tr r e R J. rewrite Forall_forall in NN. destruct (kind_body chk m k K) as (body & GB).
  rewrite (proj1 GB) in R. destruct (steps_any chk m k body GB faulty run filter read V steps NN tr r R) as (_ & A & _). auto.
Qed.
Lemma produces_layer chk m k run l f c : In k (kinds chk m) -> produces chk m k run l f c -> proper f /\ of_layer (k_type k) f.
Proof.
  intros K P. split; [destruct (kind_body chk m k K) as (body & GB); exact (produces_proper chk m k body GB run (fun _ _ => True) l f c P K)|]. destruct f as [t z x y|b]; [exact (proj1 P)|]. destruct P as (data & J & _).
  destruct K as [<-|[<-|[<-|[<-|[<-|[]]]]]]; cbn in J; repeat (destruct J as [J|J]; [injection J as <- _; reflexivity|]); contradiction.
Qed.
Lemma render_leaves chk m k : In k (kinds chk m) -> forall run steps filter read n f, valid_run run -> Forall (fun s => 0 <= st_nr s) steps ->
  NoDup (map st_nr steps) -> stable read -> 0 <= n -> proper f -> ~ of_layer (k_type k) f ->
  leaves (file_path run n f) (k_render k false run steps filter read).
Proof.
  intros K run steps filter read n f V NN ND S Hn P NL tr R b. refine (proj2 (c47_files_proof chk m k K run steps filter read tr V NN ND S R) _ _ b).
  intros s l f' c J W Rd Pr E. apply (produces_layer chk m k run l f' c K) in Pr. destruct Pr as [P' L'].
  apply c47_paths_proof in E; [|assumption..|rewrite Forall_forall in NN; auto|assumption|assumption]. destruct E as (_ & _ & <-). contradiction.
Qed.

Section Whole.
  Variables (chk : bool) (m : libm) (run : fc_run) (filter : list string) (steps : list Z).
  Variables (cps wis tes vcs vws : list fc_step).
  Variables (cpr : fc_step -> outcome (cloud_precip_layer * weather_layer) -> Prop) (wir : fc_step -> outcome wind_layer -> Prop)
    (ter : fc_step -> outcome temp_layer -> Prop) (heights : result (list bgrid))
    (vcr : list bgrid -> fc_step -> outcome vertical_cloud_layer -> Prop) (vwr : list bgrid -> fc_step -> outcome vertical_wind_layer -> Prop).
  Definition steps_for (t : layer_type) : list fc_step :=
    match t with CloudPrecip => cps | Wind10m => wis | Temp2m => tes | VerticalCloud => vcs | VerticalWind => vws | Weather => [] end.
  Hypotheses (V : valid_run run) (NN : forall t, Forall (fun s => 0 <= st_nr s) (steps_for t)).
  Notation cp := (fun faulty => cloud_precip_render chk m faulty run cps steps cpr).
  Notation wi := (fun faulty => wind_render chk m faulty run wis steps wir).
  Notation te := (fun faulty => temp_render chk m faulty run tes steps ter).
  Notation vc := (fun faulty hhl => vertical_cloud_render faulty run vcs steps (vcr hhl)).
  Notation vw := (fun faulty hhl => vertical_wind_render faulty run vws steps (vwr hhl)).

  Lemma kind_in : In (cloud_precip_kind chk m) (kinds chk m) /\ In (wind_kind chk m) (kinds chk m) /\ In (temp_kind chk m) (kinds chk m) /\
    In vertical_cloud_kind (kinds chk m) /\ In vertical_wind_kind (kinds chk m).
  Proof. cbn. auto 10. Qed.
  Lemma all_quiet faulty : quiet (cp faulty) /\ quiet (wi faulty) /\ quiet (te faulty) /\ (forall h, quiet (vc faulty h)) /\ (forall h, quiet (vw faulty h)).
  Proof.
    destruct kind_in as (K1 & K2 & K3 & K4 & K5). split; [|split; [|split; [|split; intro h]]].
    - exact (render_quiet chk m _ K1 faulty run cps steps cpr V (NN CloudPrecip)).
    - exact (render_quiet chk m _ K2 faulty run wis steps wir V (NN Wind10m)).
    - exact (render_quiet chk m _ K3 faulty run tes steps ter V (NN Temp2m)).
    - exact (render_quiet chk m _ K4 faulty run vcs steps (vcr h) V (NN VerticalCloud)).
    - exact (render_quiet chk m _ K5 faulty run vws steps (vwr h) V (NN VerticalWind)).
  Qed.
  Definition whole (faulty : bool) : prog effect := render_selected filter (cp faulty) (wi faulty) (te faulty) heights (vc faulty) (vw faulty).
  Lemma whole_plan faulty plan tr r : plan_of filter plan -> whole faulty tr r ->
    exists o, (In EHeights tr -> heights o) /\ for_seq plan (perform (cp faulty) (wi faulty) (te faulty) o (vc faulty) (vw faulty)) tr r.
  Proof. intros P R. destruct (all_quiet faulty) as (Q1 & Q2 & Q3 & Q4 & Q5). exact (selected_plan filter _ _ _ heights _ _ Q1 Q2 Q3 plan tr r P R). Qed.
  Lemma whole_heights faulty tr r : whole faulty tr r ->
    (heights_read tr <= 1)%nat /\ (~ chosen filter Heights -> heights_read tr = 0%nat) /\ (r = Ok tt -> chosen filter Heights -> heights_read tr = 1%nat).
  Proof.
    intro R. destruct (plan_exists filter) as (plan & P). destruct (whole_plan faulty plan tr r P R) as (o & _ & F). destruct (all_quiet faulty) as (Q1 & Q2 & Q3 & Q4 & Q5).
    destruct (seq_heights _ (fun a t r' => perform_heights _ _ _ _ _ Q1 Q2 Q3 Q4 Q5 o a t r') plan tr r F) as [H1 H2].
    destruct (plan_heights filter plan P) as [P1 P2].
    assert (D : chosen filter Heights \/ ~ chosen filter Heights).
    { cbn [chosen]. destruct (named_dec filter VerticalCloud), (named_dec filter VerticalWind); tauto. }
    split; [destruct D as [D|D]; [rewrite (P1 D) in H1|rewrite (P2 D) in H1]; lia|]. split; [intro N; rewrite (P2 N) in H1; lia|]. intros E C. now rewrite (H2 E), P1.
  Qed.
  Lemma any_path k : In k (kinds chk m) -> forall faulty read ss t r e p, Forall (fun s => 0 <= st_nr s) ss -> k_render k faulty run ss steps read t r -> In e t -> effect_path e = Some p ->
    exists s rest, In s ss /\ wanted steps s /\ In (ERead s) t /\ p = (output_path run (st_nr s) (k_type k) ++ rest)%string.
  Proof.
    intros K faulty read ss t r e p N R J Ep. destruct (c46_any_end_proof chk m k K faulty run ss steps read t r V N R) as [(rest & P & W) B].
    destruct (B e p J Ep) as (s & rest' & Js & ->). exists s, rest'. rewrite Forall_forall in W.
    split; [eapply Permutation_in; [exact P|apply in_or_app; now left]|]. split; [auto|]. split; [|reflexivity].
    unfold reads in Js. apply in_flat_map in Js. destruct Js as (e' & Je & Js). destruct e'; cbn in Js; try contradiction. destruct Js as [<-|[]]. exact Je.
  Qed.
  Lemma whole_paths faulty tr r e p : whole faulty tr r -> In e tr -> effect_path e = Some p ->
    exists t s rest, named filter t /\ In s (steps_for t) /\ wanted steps s /\ p = (output_path run (st_nr s) t ++ rest)%string.
  Proof.
    intros R J Ep. destruct (plan_exists filter) as (plan & P). destruct (whole_plan faulty plan tr r P R) as (o & _ & F).
    destruct (seq_effect _ plan tr r F e J) as (a & t & r' & Ja & B & Je & _). apply (plan_in _ _ _ P) in Ja. destruct Ja as [_ C].
    destruct kind_in as (K1 & K2 & K3 & K4 & K5).
    destruct a as [ty|].
    - exists ty. cbn [chosen] in C. destruct ty; cbn [perform] in B; cbn [steps_for].
      + destruct (any_path _ K1 faulty cpr cps t r' e p (NN CloudPrecip) B Je Ep) as (s & rest & ? & ? & ? & ?). eauto 8.
      + destruct B as [-> _]. destruct Je.
      + destruct (any_path _ K2 faulty wir wis t r' e p (NN Wind10m) B Je Ep) as (s & rest & ? & ? & ? & ?). eauto 8.
      + destruct (any_path _ K3 faulty ter tes t r' e p (NN Temp2m) B Je Ep) as (s & rest & ? & ? & ? & ?). eauto 8.
      + destruct o as [h|?|]; cbn [p_let] in B; [|destruct B as [-> _]; destruct Je|destruct B as [-> _]; destruct Je].
        destruct (any_path _ K4 faulty (vcr h) vcs t r' e p (NN VerticalCloud) B Je Ep) as (s & rest & ? & ? & ? & ?). eauto 8.
      + destruct o as [h|?|]; cbn [p_let] in B; [|destruct B as [-> _]; destruct Je|destruct B as [-> _]; destruct Je].
        destruct (any_path _ K5 faulty (vwr h) vws t r' e p (NN VerticalWind) B Je Ep) as (s & rest & ? & ? & ? & ?). eauto 8.
    - cbn [perform] in B. exfalso. destruct B as [[[-> ->] N]|(t1 & t2 & -> & [-> _] & [-> _])]; [contradiction|]. destruct Je as [<-|[]]. discriminate Ep.
  Qed.

  Hypotheses (ND : forall t, NoDup (map st_nr (steps_for t))) (Scp : stable cpr) (Swi : stable wir) (Ste : stable ter)
    (Svc : forall h, stable (vcr h)) (Svw : forall h, stable (vwr h)).
  Lemma others_leave o t n f a : 0 <= n -> proper f -> of_layer t f -> a <> Layer t ->
    leaves (file_path run n f) (perform (cp false) (wi false) (te false) o (vc false) (vw false) a).
  Proof.
    intros Hn P L Na. assert (D : forall t', a = Layer t' -> ~ of_layer t' f).
    { intros t' -> L'. apply Na. f_equal. destruct f as [? ? ? ?|[]]; cbn in *; congruence. }
    destruct kind_in as (K1 & K2 & K3 & K4 & K5). destruct a as [[]|]; cbn [perform].
    - exact (render_leaves chk m _ K1 run cps steps cpr n f V (NN CloudPrecip) (ND CloudPrecip) Scp Hn P (D _ eq_refl)).
    - intros tr [-> _] b. reflexivity.
    - exact (render_leaves chk m _ K2 run wis steps wir n f V (NN Wind10m) (ND Wind10m) Swi Hn P (D _ eq_refl)).
    - exact (render_leaves chk m _ K3 run tes steps ter n f V (NN Temp2m) (ND Temp2m) Ste Hn P (D _ eq_refl)).
    - destruct o as [h|?|]; cbn [p_let]; [|intros tr [-> _] b; reflexivity..].
      exact (render_leaves chk m _ K4 run vcs steps (vcr h) n f V (NN VerticalCloud) (ND VerticalCloud) (Svc h) Hn P (D _ eq_refl)).
    - destruct o as [h|?|]; cbn [p_let]; [|intros tr [-> _] b; reflexivity..].
      exact (render_leaves chk m _ K5 run vws steps (vwr h) n f V (NN VerticalWind) (ND VerticalWind) (Svw h) Hn P (D _ eq_refl)).
    - intros tr R b. apply p_then_ok in R. destruct R as (t1 & t2 & -> & [-> _] & [-> _]). reflexivity.
  Qed.
  Lemma one_layer k : In k (kinds chk m) -> forall o plan tr (read : fc_step -> outcome (k_data k) -> Prop), NoDup plan -> In (Layer (k_type k)) plan ->
    for_seq plan (perform (cp false) (wi false) (te false) o (vc false) (vw false)) tr (Ok tt) ->
    (forall seg, perform (cp false) (wi false) (te false) o (vc false) (vw false) (Layer (k_type k)) seg (Ok tt) -> k_render k false run (steps_for (k_type k)) steps read seg (Ok tt)) ->
    stable read ->
    forall s, In s (steps_for (k_type k)) -> wanted steps s -> exists l, read s (Ok l) /\ rendered chk m k run (st_nr s) l tr.
  Proof.
    intros K o plan tr read NDp J F E S s Js W. destruct (seq_file _ plan tr _ NDp J F) as (seg & B & L). apply E in B.
    destruct (c46_success_proof chk m k K false run _ steps read seg V (NN (k_type k)) B) as [_ C]. destruct (C s Js W) as (l & Rl & Cl). exists l. split; [exact Rl|].
    split; [exact Cl|]. intros f c P b. rewrite L.
    - exact (proj1 (c47_files_proof chk m k K run _ steps read seg V (NN (k_type k)) (ND (k_type k)) S B) s l f c Js W Rl P b).
    - intros a' _ Na. apply (produces_layer chk m k run l f c K) in P. destruct P as [P Lf]. apply (others_leave o (k_type k)); [|assumption..].
      pose proof (NN (k_type k)) as N. rewrite Forall_forall in N. auto.
  Qed.
  Lemma whole_files tr : whole false tr (Ok tt) ->
    (named filter CloudPrecip -> forall s, In s cps -> wanted steps s -> exists l, cpr s (Ok l) /\ rendered chk m (cloud_precip_kind chk m) run (st_nr s) l tr) /\
    (named filter Wind10m -> forall s, In s wis -> wanted steps s -> exists l, wir s (Ok l) /\ rendered chk m (wind_kind chk m) run (st_nr s) l tr) /\
    (named filter Temp2m -> forall s, In s tes -> wanted steps s -> exists l, ter s (Ok l) /\ rendered chk m (temp_kind chk m) run (st_nr s) l tr) /\
    (named filter VerticalCloud \/ named filter VerticalWind -> exists hhl, heights (Ok hhl) /\
      (named filter VerticalCloud -> forall s, In s vcs -> wanted steps s -> exists l, vcr hhl s (Ok l) /\ rendered chk m vertical_cloud_kind run (st_nr s) l tr) /\
      (named filter VerticalWind -> forall s, In s vws -> wanted steps s -> exists l, vwr hhl s (Ok l) /\ rendered chk m vertical_wind_kind run (st_nr s) l tr)).
  Proof.
    intro R. destruct (plan_exists filter) as (plan & P). destruct (whole_plan false plan tr _ P R) as (o & Ho & F). pose proof (plan_nodup _ _ P) as NDp.
    destruct kind_in as (K1 & K2 & K3 & K4 & K5).
    assert (Jp : forall t, In (Layer t) order -> named filter t -> In (Layer t) plan) by (intros t J N; apply (plan_in _ _ _ P); auto).
    split; [|split; [|split]].
    - intro N. exact (one_layer _ K1 o plan tr cpr NDp (Jp CloudPrecip ltac:(cbn; auto 10) N) F (fun seg B => B) Scp).
    - intro N. exact (one_layer _ K2 o plan tr wir NDp (Jp Wind10m ltac:(cbn; auto 10) N) F (fun seg B => B) Swi).
    - intro N. exact (one_layer _ K3 o plan tr ter NDp (Jp Temp2m ltac:(cbn; auto 10) N) F (fun seg B => B) Ste).
    - intro N. assert (Ch : chosen filter Heights) by exact N.
      destruct (whole_heights false tr _ R) as (_ & _ & H1). specialize (H1 eq_refl Ch).
      assert (HJ : In EHeights tr).
      { unfold heights_read in H1. destruct (List.filter is_heights tr) as [|e l] eqn:El; [discriminate|]. assert (Je : In e (List.filter is_heights tr)) by (rewrite El; now left).
        apply filter_In in Je. destruct Je as [Je He]. destruct e; try discriminate He. exact Je. }
      assert (Oh : exists hhl, o = Ok hhl).
      { assert (Jh : In Heights plan) by (apply (plan_in _ _ _ P); split; [cbn; auto 10|exact Ch]). destruct (seq_file _ plan tr _ NDp Jh F) as (seg & B & _). cbn [perform] in B.
        apply p_then_ok in B. destruct B as (t1 & t2 & _ & _ & [_ B]). destruct o as [hhl|?|]; try discriminate B. eauto. }
      destruct Oh as (hhl & ->). exists hhl. split; [exact (Ho HJ)|]. split.
      + intro N'. exact (one_layer _ K4 (Ok hhl) plan tr (vcr hhl) NDp (Jp VerticalCloud ltac:(cbn; auto 10) N') F (fun seg B => B) (Svc hhl)).
      + intro N'. exact (one_layer _ K5 (Ok hhl) plan tr (vwr hhl) NDp (Jp VerticalWind ltac:(cbn; auto 10) N') F (fun seg B => B) (Svw hhl)).
  Qed.
End Whole.

(** ** Success, or an error that is [lost] *)
Section Live.
Variable lost : err -> Prop.
Definition live {E} (p : prog E) : Prop := (exists tr r, p tr r) /\ forall tr r, p tr r -> r = Ok tt \/ exists e, r = Err e /\ lost e.
Lemma live_end {E} : live (p_end (Ok tt) : prog E).
Proof. split; [exists [], (Ok tt); split; reflexivity|]. intros tr r [_ ->]. now left. Qed.
Lemma live_then {E} (p q : prog E) : live p -> live q -> live (p_then p q).
Proof.
  intros [(t1 & r1 & P) Ap] [(t2 & r2 & Q) Aq]. split.
  - destruct (Ap _ _ P) as [->|(e & -> & _)].
    + exists (t1 ++ t2), r2. right. exists t1, t2. auto.
    + exists t1, (Err e). left. split; [exact P|discriminate].
  - intros tr r [[H N]|(u1 & u2 & -> & H1 & H2)]; [exact (Ap _ _ H)|exact (Aq _ _ H2)].
Qed.
Lemma live_if {E} b (p : prog E) : (b = true -> live p) -> live (p_if b p).
Proof. destruct b; cbn [p_if]; [auto|intros _; apply live_end]. Qed.
Lemma live_call {A} (f : outcome A -> Prop) (q : A -> prog effect) : (exists o, f o) ->
  (forall o, f o -> (exists a, o = Ok a /\ live (q a)) \/ exists e, o = Err e /\ lost e) -> live (p_call f q).
Proof.
  intros (o & F) H. split.
  - destruct (H o F) as [(a & -> & (tr & r & Q) & _)|(e & -> & _)]; [exists tr, r, (Ok a); auto|exists [], (Err e), (Err e); split; [exact F|split; reflexivity]].
  - intros tr r (o' & F' & Q). destruct (H o' F') as [(a & -> & _ & L)|(e & -> & L)]; [exact (L _ _ Q)|]. destruct Q as [_ ->]. eauto.
Qed.
Lemma live_emit {E} (e : E) : live (p_emit e).
Proof. split; [exists [e], (Ok tt); split; reflexivity|]. intros tr r [_ ->]. now left. Qed.
Lemma selected_live filter cp wi te (heights : result (list bgrid)) vc vw :
  (named filter CloudPrecip -> live cp) -> (named filter Wind10m -> live wi) -> (named filter Temp2m -> live te) ->
  (named filter VerticalCloud \/ named filter VerticalWind -> exists o, heights o) ->
  (named filter VerticalCloud \/ named filter VerticalWind -> forall o, heights o -> (exists hhl, o = Ok hhl /\
     (named filter VerticalCloud -> live (vc hhl)) /\ (named filter VerticalWind -> live (vw hhl))) \/ exists e, o = Err e /\ lost e) ->
  live (render_selected filter cp wi te heights vc vw).
Proof.
  intros H1 H2 H3 H4 H5. unfold render_selected. apply live_then; [apply live_if; intro S; apply H1; now apply selected_spec|].
  apply live_then; [apply live_if; intro S; apply H2; now apply selected_spec|]. apply live_then; [apply live_if; intro S; apply H3; now apply selected_spec|].
  apply live_if. intro S. assert (N : named filter VerticalCloud \/ named filter VerticalWind) by (apply orb_true_iff in S; destruct S as [S|S]; apply selected_spec in S; auto).
  apply live_then; [apply live_emit|]. apply live_call; [exact (H4 N)|]. intros o Ho. destruct (H5 N o Ho) as [(hhl & -> & L1 & L2)|(e & -> & L)]; [|right; eauto].
  left. exists hhl. split; [reflexivity|].
  apply live_then; apply live_if; intro S'; [apply L1|apply L2]; now apply selected_spec.
Qed.
Lemma render_live chk m k : In k (kinds chk m) -> forall run ss steps (read : fc_step -> outcome (k_data k) -> Prop), valid_run run -> Forall (fun s => 0 <= st_nr s) ss ->
  (forall s, In s ss -> exists o, read s o) ->
  (forall s o, In s ss -> wanted steps s -> read s o -> (exists l, o = Ok l /\ computable chk m k run l) \/ exists e, o = Err e /\ lost e) -> live (k_render k false run ss steps read).
Proof.
  intros K run ss steps read V NN T C. split; [exact (c46_runs_proof chk m k K run ss steps read V NN T)|]. intros tr r R.
  assert (D : r = Ok tt \/ r <> Ok tt) by (destruct r as [[]|?|]; [now left|right; discriminate|right; discriminate]). destruct D as [D|D]; [now left|]. right.
  destruct (c46_failure_proof chk m k K false run ss steps read tr r V NN R D) as (s & J & W & X). destruct r as [?|e|]; [destruct X| |].
  - exists e. split; [reflexivity|]. destruct (C s _ J W X) as [(l & E & _)|(e' & E & L)]; [discriminate|]. injection E as <-. exact L.
  - exfalso. destruct X as [X|(l & X & N)].
    + destruct (C s _ J W X) as [(l & E & _)|(e & E & _)]; discriminate.
    + destruct (C s _ J W X) as [(l' & E & Q)|(e & E & _)]; [|discriminate]. injection E as <-. exact (N eq_refl Q).
Qed.

(** Reading that succeeds, or gives an error that is [lost]. *)
Notation gives := (answers lost).
Lemma gives_of {A} (o : outcome A) a (P : A -> Prop) : o = Ok a -> P a -> gives (r_of o) P.
Proof. intros -> H. split; [eexists; reflexivity|]. intros o ->. left. eauto. Qed.
Lemma gives_lost {A} (o : outcome A) e (P : A -> Prop) : o = Err e -> lost e -> gives (r_of o) P.
Proof. intros -> H. split; [eexists; reflexivity|]. intros o ->. right. eauto. Qed.
Lemma gives_bind {A B} (p : result A) (q : A -> result B) P Q : gives p P -> (forall a, P a -> gives (q a) Q) -> gives (r_bind p q) Q.
Proof.
  intros [(o & Ho) Hp] Hq. split.
  - destruct (Hp o Ho) as [(a & -> & Pa)|(e & -> & L)]; [destruct (Hq a Pa) as [(o' & Ho') _]; exists o', (Ok a); auto|exists (Err e), (Err e); auto].
  - intros r (o' & Ho' & R). destruct (Hp o' Ho') as [(a & -> & Pa)|(e & -> & L)]; [destruct (Hq a Pa) as [_ H]; exact (H r R)|]. right. exists e. auto.
Qed.
Lemma gives_impl {A} (p : result A) (P Q : A -> Prop) : (forall a, P a -> Q a) -> gives p P -> gives p Q.
Proof. intros I [T H]. split; [exact T|]. intros o Ho. destruct (H o Ho) as [(a & -> & Pa)|X]; [left; eauto|now right]. Qed.
Lemma gives_collect {A B} (f : A -> result B) (P : A -> B -> Prop) l : (forall x, In x l -> gives (f x) (P x)) -> gives (r_collect f l) (Forall2 P l).
Proof.
  intro H. split.
  - induction l as [|x l IH]; [exists (Ok []); constructor|]. destruct IH as (o & Ho); [intros; apply H; now right|].
    destruct (H x (or_introl eq_refl)) as [(ox & Hx) G]. destruct (G ox Hx) as [(y & -> & _)|(e & -> & _)]; [|exists (Err e), x; split; [now left|exact Hx]]. destruct o as [ys|e|].
    + exists (Ok (y :: ys)). constructor; [exact Hx|exact Ho].
    + destruct Ho as (x' & J & F). exists (Err e), x'. split; [now right|exact F].
    + destruct Ho as (x' & J & F). exists Panic, x'. split; [now right|exact F].
  - intros [ys|e|] R; cbn in R.
    + left. exists ys. split; [reflexivity|]. induction R as [|x y l ys F R IH]; constructor.
      * destruct (H x (or_introl eq_refl)) as [_ G]. destruct (G _ F) as [(y' & E & Py)|(e & E & _)]; [|discriminate]. injection E as <-. exact Py.
      * apply IH. intros; apply H; now right.
    + right. destruct R as (x & J & F). destruct (H x J) as [_ G]. destruct (G _ F) as [(y & E & _)|(e' & E & L)]; [discriminate|]. injection E as <-. eauto.
    + destruct R as (x & J & F). destruct (H x J) as [_ G]. destruct (G _ F) as [(y & E & _)|(e & E & _)]; discriminate.
Qed.
End Live.
Notation gives := answers (only parsing).
