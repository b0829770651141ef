(** Proofs about the selection of layers (C54). *)
From Coq Require Import String ZArith List Bool Lia Permutation.
From Verif Require Import Base Par ParFacts ChartModel Text TextFacts ForecastModel ForecastSpec ForecastProofs FetchModel FetchSpec.
Import ListNotations.
Open Scope Z_scope.

Lemma selected_spec f t : selected f t = true <-> named f t.
Proof.
  unfold selected, named. destruct f as [|x f]; [split; auto|]. rewrite mem_In. split; [auto|]. intros [H|H]; [discriminate|exact H].
Qed.
Lemma plan_selected f plan : plan_of f plan ->
  plan = List.filter (fun a => match a with Layer t => selected f t | Heights => selected f VerticalCloud || selected f VerticalWind end) order.
Proof.
  intros (keep & -> & K). apply filter_ext_in. intros a J. specialize (K a J).
  match goal with |- ?x = ?y => destruct x eqn:X, y eqn:Y end; try reflexivity.
  - exfalso. assert (C : chosen f a) by now apply K. destruct a as [t|]; cbn [chosen] in C.
    + apply selected_spec in C. congruence.
    + rewrite <- !selected_spec in C. destruct C as [C|C]; rewrite C, ?orb_true_r in Y; discriminate.
  - exfalso. assert (C : chosen f a). { destruct a as [t|]; cbn [chosen]; [now apply selected_spec|]. rewrite <- !selected_spec. apply orb_true_iff in Y. tauto. }
    apply K in C. congruence.
Qed.
Lemma p_then_skip {E} (q : prog E) tr r : p_then (p_end (Ok tt)) q tr r <-> q tr r.
Proof.
  split.
  - intros [[[_ H] N]|(t1 & t2 & -> & [-> _] & H)]; [contradiction|exact H].
  - intro H. right. exists [], tr. split; [reflexivity|]. split; [split; reflexivity|exact H].
Qed.
Lemma p_then_last {E} (p : prog E) tr r : p tr r -> p_then p (p_end (Ok tt)) tr r.
Proof.
  intro H. destruct r as [[]|e|]; [|left; split; [exact H|discriminate]|left; split; [exact H|discriminate]].
  right. exists tr, []. rewrite app_nil_r. split; [reflexivity|]. split; [exact H|split; reflexivity].
Qed.
Lemma p_then_mono {E} (p q q' : prog E) tr r : p_then p q tr r -> (forall t r', q t r' -> q' t r') -> p_then p q' tr r.
Proof. intros [H|(t1 & t2 & E1 & H1 & H2)] M; [left; exact H|right; exists t1, t2; auto]. Qed.

Section Selected.
  Variables (filter : list string) (cp wi te : prog effect) (heights : result (list bgrid)) (vc vw : list bgrid -> prog effect).
  Definition quiet (p : prog effect) : Prop := forall tr r e, p tr r -> In e tr -> e <> EHeights.
  Hypotheses (Qcp : quiet cp) (Qwi : quiet wi) (Qte : quiet te) (Qvc : forall h, quiet (vc h)) (Qvw : forall h, quiet (vw h)).
  Notation act := (perform cp wi te).
  (* one step of the proof: either the layer fails and nothing follows, or it is done *)
  Lemma seq_step p (rest : list action) (a : action) (q : prog effect) (b : bool) tr r :
    quiet p -> (forall o, act o vc vw a = p) ->
    p_then (p_if b p) q tr r ->
    (forall tr', q tr' r -> exists o, (In EHeights tr' -> heights o) /\ for_seq rest (act o vc vw) tr' r) ->
    exists o, (In EHeights tr -> heights o) /\ for_seq (if b then a :: rest else rest) (act o vc vw) tr r.
  Proof.
    intros Q A R IH. destruct b; cbn [p_if] in R; [|apply (proj1 (p_then_skip _ _ _)) in R; exact (IH tr R)].
    destruct R as [[R N]|(t1 & t2 & -> & R1 & R2)].
    - exists Panic. split; [intro J; destruct (Q tr r _ R J eq_refl)|]. cbn [for_seq]. left. rewrite A. auto.
    - destruct (IH t2 R2) as (o & Ho & F). exists o. split.
      + intro J. apply in_app_or in J. destruct J as [J|J]; [destruct (Q t1 _ _ R1 J eq_refl)|auto].
      + cbn [for_seq]. right. exists t1, t2. rewrite A. auto.
  Qed.
  Lemma selected_plan plan tr r : plan_of filter plan -> render_selected filter cp wi te heights vc vw tr r ->
    exists o, (In EHeights tr -> heights o) /\ for_seq plan (act o vc vw) tr r.
  Proof.
    intros P R. rewrite (plan_selected _ _ P). clear P. unfold order, render_selected in *. cbn [List.filter].
    eapply seq_step in R; [exact R|exact Qcp|reflexivity|]. clear R tr. intros tr R.
    eapply seq_step in R; [exact R|exact Qwi|reflexivity|]. clear R tr. intros tr R.
    eapply seq_step in R; [exact R|exact Qte|reflexivity|]. clear R tr. intros tr R.
    destruct (selected filter VerticalCloud || selected filter VerticalWind) eqn:S; cbn [p_if] in R.
    - destruct R as [[[_ ->] N]|(t1 & t2 & -> & [-> _] & o & Ho & R)]; [contradiction|]. exists o. split; [auto|]. cbn [for_seq perform].
      destruct o as [hhl|e|]; cbn [p_let omap] in *.
      + right. exists [EHeights], t2. split; [reflexivity|]. split; [right; exists [EHeights], []; split; [reflexivity|]; split; split; reflexivity|].
        destruct (selected filter VerticalCloud), (selected filter VerticalWind); try discriminate S; cbn [p_if for_seq perform p_let] in *.
        * eapply p_then_mono; [exact R|]. intros t r' H. now apply p_then_last.
        * eapply p_then_mono; [exact R|]. auto.
        * apply (proj1 (p_then_skip _ _ _)) in R. now apply p_then_last.
      + destruct R as [-> ->]. left. split; [right; exists [EHeights], []; split; [reflexivity|]; split; split; reflexivity|discriminate].
      + destruct R as [-> ->]. left. split; [right; exists [EHeights], []; split; [reflexivity|]; split; split; reflexivity|discriminate].
    - apply orb_false_iff in S. destruct S as [-> ->]. exists Panic. destruct R as [-> ->]. split; [intros []|]. split; reflexivity.
  Qed.
  Lemma perform_heights o a tr r : act o vc vw a tr r -> heights_read tr = match a with Heights => 1%nat | _ => 0%nat end.
  Proof.
    assert (Z : forall l, (forall e, In e l -> e <> EHeights) -> heights_read l = 0%nat).
    { intros l H. unfold heights_read. induction l as [|e l IH]; [reflexivity|]. cbn. destruct e; cbn; try (apply IH; intros; apply H; now right).
      destruct (H EHeights (or_introl eq_refl) eq_refl). }
    intro R. destruct a as [[]|]; cbn [perform] in R; try (apply Z; intros e J).
    - exact (Qcp _ _ _ R J).
    - destruct R as [-> _]. destruct J.
    - exact (Qwi _ _ _ R J).
    - exact (Qte _ _ _ R J).
    - destruct o as [h|?|]; cbn [p_let] in R; [exact (Qvc h _ _ _ R J)| |]; destruct R as [-> _]; destruct J.
    - destruct o as [h|?|]; cbn [p_let] in R; [exact (Qvw h _ _ _ R J)| |]; destruct R as [-> _]; destruct J.
    - destruct R as [[[-> ->] N]|(t1 & t2 & -> & [-> _] & [-> _])]; [contradiction|reflexivity].
  Qed.
End Selected.

Lemma heights_app a b : heights_read (a ++ b) = (heights_read a + heights_read b)%nat.
Proof. unfold heights_read. now rewrite filter_app, app_length. Qed.
Definition heights_in (plan : list action) : nat := length (List.filter (fun a => match a with Heights => true | _ => false end) plan).
Lemma seq_heights (body : action -> prog effect) : (forall a t r, body a t r -> heights_read t = match a with Heights => 1%nat | _ => 0%nat end) ->
  forall plan tr r, for_seq plan body tr r -> (heights_read tr <= heights_in plan)%nat /\ (r = Ok tt -> heights_read tr = heights_in plan).
Proof.
  intro B. induction plan as [|a plan IH]; intros tr r R; cbn [for_seq] in R; [destruct R as [-> ->]; split; auto|].
  assert (E : heights_in (a :: plan) = (match a with Heights => 1 | _ => 0 end + heights_in plan)%nat) by (unfold heights_in; cbn; destruct a; reflexivity).
  rewrite E. destruct R as [[R N]|(t1 & t2 & -> & R1 & R2)].
  - apply B in R. rewrite R. split; [lia|contradiction].
  - apply B in R1. destruct (IH _ _ R2) as [I1 I2]. rewrite heights_app, R1. split; [lia|]. intro H. rewrite (I2 H). reflexivity.
Qed.
Lemma plan_heights f plan : plan_of f plan -> (chosen f Heights -> heights_in plan = 1%nat) /\ (~ chosen f Heights -> heights_in plan = 0%nat).
Proof.
  intros (keep & -> & K). specialize (K Heights ltac:(cbn; auto)). split; intro C.
  - apply K in C. unfold order. cbn [List.filter]. rewrite C. destruct (keep (Layer CloudPrecip)), (keep (Layer Wind10m)), (keep (Layer Temp2m)), (keep (Layer VerticalCloud)), (keep (Layer VerticalWind)); reflexivity.
  - assert (D : keep Heights = false) by (destruct (keep Heights); [exfalso; apply C, K; reflexivity|reflexivity]).
    unfold order. cbn [List.filter]. rewrite D. destruct (keep (Layer CloudPrecip)), (keep (Layer Wind10m)), (keep (Layer Temp2m)), (keep (Layer VerticalCloud)), (keep (Layer VerticalWind)); reflexivity.
Qed.
Lemma named_dec f t : named f t \/ ~ named f t.
Proof. destruct (selected f t) eqn:S; [left; now apply selected_spec|right]. intro H. apply selected_spec in H. congruence. Qed.
Lemma plan_exists f : exists plan, plan_of f plan.
Proof.
  exists (List.filter (fun a => match a with Layer t => selected f t | Heights => selected f VerticalCloud || selected f VerticalWind end) order).
  eexists. split; [reflexivity|]. intros a _. destruct a as [t|]; cbn [chosen]; [apply selected_spec|]. rewrite orb_true_iff, !selected_spec. reflexivity.
Qed.
Lemma plan_in f plan a : plan_of f plan -> (In a plan <-> In a order /\ chosen f a).
Proof. intros (keep & -> & K). rewrite filter_In. split; intros [I C]; split; auto; apply K; auto. Qed.
Lemma order_nodup : NoDup order.
Proof. repeat (constructor; [cbn; intro H; repeat (destruct H as [H|H]; [discriminate|]); exact H|]). constructor. Qed.
Lemma selected_same f f' cp wi te heights vc vw tr r : same_layers f f' ->
  render_selected f cp wi te heights vc vw tr r -> render_selected f' cp wi te heights vc vw tr r.
Proof.
  intros S R. assert (E : forall t, In (Layer t) order -> selected f' t = selected f t).
  { intros t J. specialize (S t J). destruct (selected f t) eqn:A, (selected f' t) eqn:B; try reflexivity.
    - apply selected_spec, S, selected_spec in A. congruence.
    - apply selected_spec, S, selected_spec in B. congruence. }
  unfold render_selected in *. rewrite (E CloudPrecip), (E Wind10m), (E Temp2m), (E VerticalCloud), (E VerticalWind) by (cbn; auto 10). exact R.
Qed.
Lemma seq_effect {A} (body : A -> prog effect) plan tr r : for_seq plan body tr r -> forall e, In e tr ->
  exists a t r', In a plan /\ body a t r' /\ In e t /\ exists before after, tr = before ++ t ++ after.
Proof.
  revert tr r. induction plan as [|a plan IH]; intros tr r R e J; cbn [for_seq] in R; [destruct R as [-> _]; destruct J|].
  destruct R as [[R N]|(t1 & t2 & -> & R1 & R2)].
  - exists a, tr, r. split; [now left|]. split; [exact R|]. split; [exact J|]. exists [], []. now rewrite app_nil_r.
  - apply in_app_or in J. destruct J as [J|J].
    + exists a, t1, (Ok tt). split; [now left|]. split; [exact R1|]. split; [exact J|]. now exists [], t2.
    + destruct (IH _ _ R2 e J) as (a' & t & r' & I1 & I2 & I3 & p & q & ->). exists a', t, r'. split; [now right|]. split; [exact I2|]. split; [exact I3|].
      exists (t1 ++ p), q. now rewrite <- app_assoc.
Qed.
Lemma file_after_app q b t1 t2 : file_after q b (t1 ++ t2) = file_after q (file_after q b t1) t2.
Proof. revert b. induction t1 as [|e t1 IH]; intro b; [reflexivity|]. cbn [app file_after]. apply IH. Qed.
Lemma seq_leaves {A} q (body : A -> prog effect) plan tr : (forall a, In a plan -> leaves q (body a)) -> for_seq plan body tr (Ok tt) ->
  forall b, file_after q b tr = b.
Proof.
  revert tr. induction plan as [|a plan IH]; intros tr L R b; cbn [for_seq] in R; [destruct R as [-> _]; reflexivity|].
  apply p_then_ok in R. destruct R as (t1 & t2 & -> & R1 & R2). rewrite file_after_app.
  rewrite (L a (or_introl eq_refl) t1 R1). apply IH; [intros a' J; apply L; now right|exact R2].
Qed.
Lemma seq_file {A} (body : A -> prog effect) plan tr a : NoDup plan -> In a plan -> for_seq plan body tr (Ok tt) ->
  exists seg, body a seg (Ok tt) /\ forall q, (forall a', In a' plan -> a' <> a -> leaves q (body a')) -> forall b, file_after q b tr = file_after q b seg.
Proof.
  revert tr. induction plan as [|a0 plan IH]; intros tr ND J R; [destruct J|]. cbn [for_seq] in R. apply p_then_ok in R. destruct R as (t1 & t2 & -> & R1 & R2).
  inversion ND as [|? ? N ND']; subst. destruct J as [<-|J].
  - exists t1. split; [exact R1|]. intros q L b. rewrite file_after_app. apply (seq_leaves q body plan t2); [|exact R2].
    intros a' J'. apply L; [now right|]. intros ->. contradiction.
  - destruct (IH t2 ND' J R2) as (seg & S & F). exists seg. split; [exact S|]. intros q L b. rewrite file_after_app.
    rewrite (L a0 (or_introl eq_refl) (fun E => N ltac:(rewrite E; exact J)) t1 R1). apply F. intros a' J' NE. apply L; [now right|exact NE].
Qed.
Lemma plan_nodup f plan : plan_of f plan -> NoDup plan.
Proof. intros (keep & -> & _). apply NoDup_filter, order_nodup. Qed.

(** ** Readers *)
Definition det {A} (p : result A) : Prop := forall a b, p (Ok a) -> p (Ok b) -> a = b.
Lemma det_of {A} (o : outcome A) : det (r_of o).
Proof. intros a b H1 H2. unfold r_of in *. congruence. Qed.
Lemma r_bind_ok {A B} (p : result A) (q : A -> result B) b : r_bind p q (Ok b) <-> exists a, p (Ok a) /\ q a (Ok b).
Proof. split; [intros ([a|?|] & H & K); [eauto|discriminate|discriminate]|intros (a & H & K); exists (Ok a); auto]. Qed.
Lemma det_bind {A B} (p : result A) (q : A -> result B) : det p -> (forall a, det (q a)) -> det (r_bind p q).
Proof.
  intros P Q x y H1 H2. apply r_bind_ok in H1, H2. destruct H1 as (a & A1 & B1), H2 as (a' & A2 & B2). assert (a = a') by exact (P _ _ A1 A2). subst. exact (Q a' _ _ B1 B2).
Qed.
Lemma det_collect {A B} (f : A -> result B) l : (forall x, det (f x)) -> det (r_collect f l).
Proof.
  intros D a b H1. revert b. cbn in *. induction H1 as [|x y l ys F H IH]; intros b H2; inversion H2; subst; [reflexivity|]. f_equal; [eapply D; eassumption|now apply IH].
Qed.
