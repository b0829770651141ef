(** Facts about programs with effects. *)
From Coq Require Import ZArith List Bool Permutation Lia.
From Verif Require Import Base Par.
Import ListNotations.
Open Scope Z_scope.

(** ** Interleavings *)
Lemma interleaving_perm {E} (ts : list (list E)) tr : interleaving ts tr -> Permutation tr (concat ts).
Proof.
  induction 1 as [ts F|l1 e t l2 tr H IH].
  - induction F as [|? ? -> F IH]; [constructor|exact IH].
  - rewrite concat_app in *. cbn [concat app] in *. rewrite IH. cbn [app]. rewrite !app_comm_cons. apply Permutation_middle.
Qed.
Lemma interleaving_single {E} (l1 l2 : list (list E)) t : Forall (fun t => t = []) l1 -> Forall (fun t => t = []) l2 ->
  forall tr, interleaving (l1 ++ t :: l2) tr -> tr = t.
Proof.
  intros F1 F2 tr H. remember (l1 ++ t :: l2) as ts eqn:E0. revert t E0.
  induction H as [ts F|k1 e s k2 tr H IH]; intros t E0.
  - subst. apply Forall_app in F. destruct F as [_ F]. inversion F. auto.
  - assert (K : forall (a b c d : list (list E)) x y, a ++ x :: b = c ++ y :: d ->
       (a = c /\ x = y /\ b = d) \/ In x c \/ In x d \/ False).
    { intros a b c. revert a. induction c as [|c0 c IHc]; intros [|a0 a] d x y Eq; cbn in Eq; injection Eq as Q1 Q2; subst; auto.
      - right. right. left. apply in_or_app. right. now left.
      - right. left. now left.
      - destruct (IHc _ _ _ _ Q2) as [(-> & -> & ->)|[K|[K|[]]]]; [auto|right; left; now right|right; right; now left]. }
    destruct (K _ _ _ _ _ _ E0) as [(Q1 & Q2 & Q3)|[I|[I|[]]]].
    + subst. f_equal. apply IH. reflexivity.
    + exfalso. rewrite Forall_forall in F1. specialize (F1 _ I). discriminate.
    + exfalso. rewrite Forall_forall in F2. specialize (F2 _ I). discriminate.
Qed.
Lemma interleaving_filter {E} (P : E -> bool) ts tr : interleaving ts tr -> interleaving (map (filter P) ts) (filter P tr).
Proof.
  induction 1 as [ts F|l1 e t l2 tr H IH].
  - apply il_done. apply Forall_map. eapply Forall_impl; [|exact F]. intros ? ->. reflexivity.
  - rewrite map_app in *. cbn [map filter] in *. destruct (P e); [|exact IH]. apply il_next. exact IH.
Qed.
Lemma interleaving_concat {E} (ts : list (list E)) : interleaving ts (concat ts).
Proof.
  assert (G : forall (l2 l1 : list (list E)), Forall (fun t => t = []) l1 -> interleaving (l1 ++ l2) (concat l2)).
  { induction l2 as [|t l2 IH]; intros l1 F; cbn [concat].
    - apply il_done. rewrite app_nil_r. exact F.
    - induction t as [|e t IHt]; cbn [app].
      + specialize (IH (l1 ++ [[]])). rewrite <- app_assoc in IH. apply IH. apply Forall_app. auto.
      + apply il_next. exact IHt. }
  apply (G ts []). constructor.
Qed.

(** ** Loops *)
Lemma p_then_ok {E} (p q : prog E) tr : p_then p q tr (Ok tt) <-> exists t1 t2, tr = t1 ++ t2 /\ p t1 (Ok tt) /\ q t2 (Ok tt).
Proof. unfold p_then. split; [intros [[_ []]|H]; auto|auto]. Qed.
Lemma for_seq_ok {A E} (body : A -> prog E) l : forall tr, for_seq l body tr (Ok tt) <->
  exists ts, Forall2 (fun a t => body a t (Ok tt)) l ts /\ tr = concat ts.
Proof.
  induction l as [|a l IH]; intro tr; cbn [for_seq].
  - split; [intros [-> _]; exists []; auto|]. intros (ts & F & ->). inversion F. split; reflexivity.
  - rewrite p_then_ok. split.
    + intros (t1 & t2 & -> & B & R). apply IH in R. destruct R as (ts & F & ->). exists (t1 :: ts). auto.
    + intros (ts & F & ->). inversion F; subst. exists y, (concat l'). split; [reflexivity|]. split; [assumption|]. apply IH. eauto.
Qed.
(** A loop that fails: some iterations succeed, the next one fails, the others are not reached. *)
Lemma for_seq_fail {A E} (body : A -> prog E) l r : r <> Ok tt -> forall tr, for_seq l body tr r ->
  exists l1 a l2 ts t, l = l1 ++ a :: l2 /\ Forall2 (fun a t => body a t (Ok tt)) l1 ts /\ body a t r /\ tr = concat ts ++ t.
Proof.
  intro N. induction l as [|a l IH]; intros tr H; cbn [for_seq] in H; [destruct H; contradiction|].
  destruct H as [[H _]|(t1 & t2 & -> & B & R)].
  - exists [], a, l, [], tr. auto.
  - destruct (IH _ R) as (l1 & b & l2 & ts & t & -> & F & Bb & ->). exists (a :: l1), b, l2, (t1 :: ts), t.
    split; [reflexivity|]. split; [auto|]. split; [exact Bb|]. cbn. rewrite app_assoc. reflexivity.
Qed.
Lemma for_par_ok {A E} (body : A -> prog E) l tr : for_par l body tr (Ok tt) <->
  exists ts, Forall2 (fun a t => body a t (Ok tt)) l ts /\ interleaving ts tr.
Proof.
  unfold for_par. split.
  - intros (xs & F & I & O). exists (traces_of xs). split; [|exact I]. revert O. clear I. induction F as [|a x l xs S F IH]; intro O; cbn; constructor.
    + inversion O as [|? ? (t & ->)]; subst. exact S.
    + apply IH. inversion O; assumption.
  - intros (ts & F & I). exists (map (fun t => Some (t, Ok tt)) ts). split; [|split].
    + clear I. induction F; cbn; constructor; auto.
    + unfold traces_of. rewrite map_map. cbn. rewrite map_id. exact I.
    + apply Forall_map. apply Forall_forall. eauto.
Qed.
(** In every execution each element contributes the beginning or all of one of its executions. *)
Lemma for_par_any {A E} (body : A -> prog E) l tr r : for_par l body tr r ->
  exists ts, interleaving ts tr /\ Forall2 (fun a t => t = [] \/ exists r', body a t r') l ts.
Proof.
  intros (xs & F & I & _). exists (traces_of xs). split; [exact I|]. clear I. induction F as [|a x l xs S F IH]; cbn; constructor; [|exact IH].
  destruct x as [[t r']|]; [right; eauto|now left].
Qed.
Lemma for_par_fail {A E} (body : A -> prog E) l tr r : r <> Ok tt -> for_par l body tr r ->
  exists a t, In a l /\ body a t r.
Proof.
  intros N (xs & F & _ & O).
  assert (G : forall t o, In (Some (t, o)) xs -> exists a, In a l /\ body a t o).
  { intros t o. clear O. induction F as [|a x l xs S F IH]; [intros []|]. intros [->|I]; [exists a; split; [now left|exact S]|].
    destruct (IH I) as (b & J & B). exists b. split; [now right|exact B]. }
  destruct r as [[]|e|]; [contradiction| |].
  - destruct O as [(t & I) _]. destruct (G _ _ I) as (a & J & B). eauto.
  - destruct O as (t & I). destruct (G _ _ I) as (a & J & B). eauto.
Qed.
(** Every parallel loop has an execution if its body has. *)
Lemma for_par_runs {A E} (body : A -> prog E) l : (forall a, In a l -> exists t r, body a t r) -> exists tr r, for_par l body tr r.
Proof.
  intro H.
  assert (G : exists xs, Forall2 (started body) l xs /\ Forall (fun x => x <> None) xs).
  { induction l as [|a l IH]; [exists []; auto|]. destruct IH as (xs & F & N); [intros; apply H; now right|].
    destruct (H a (or_introl eq_refl)) as (t & r & B). exists (Some (t, r) :: xs). split; constructor; auto. discriminate. }
  destruct G as (xs & F & N). exists (concat (traces_of xs)).
  assert (D : forall ys : list (option (list E * outcome unit)), Forall (fun x => x <> None) ys ->
    Forall (fun x => exists t, x = Some (t, Ok tt)) ys \/ (exists t, In (Some (t, Panic)) ys) \/
    ((exists t e, In (Some (t, Err e)) ys) /\ forall t, ~ In (Some (t, Panic)) ys)).
  { induction 1 as [|x ys Nx _ IH]; [left; constructor|]. destruct x as [[t [[]|e|]]|]; [| | |congruence].
    - destruct IH as [IH|[(t' & IH)|((t' & e & IH) & IP)]].
      + left. constructor; eauto.
      + right. left. exists t'. now right.
      + right. right. split; [exists t', e; now right|]. intros s [Q|Q]; [discriminate|eapply IP, Q].
    - destruct IH as [IH|[(t' & IH)|((t' & e' & IH) & IP)]].
      + right. right. split; [exists t, e; now left|]. intros s [Q|Q]; [discriminate|]. rewrite Forall_forall in IH. destruct (IH _ Q). discriminate.
      + right. left. exists t'. now right.
      + right. right. split; [exists t, e; now left|]. intros s [Q|Q]; [discriminate|eapply IP, Q].
    - right. left. exists t. now left. }
  destruct (D xs N) as [O|[(t & O)|((t & e & O) & P)]].
  - exists (Ok tt), xs. split; [exact F|]. split; [apply interleaving_concat|exact O].
  - exists Panic, xs. split; [exact F|]. split; [apply interleaving_concat|eauto].
  - exists (Err e), xs. split; [exact F|]. split; [apply interleaving_concat|split; eauto].
Qed.
Lemma for_seq_runs {A E} (body : A -> prog E) l : (forall a, In a l -> exists t r, body a t r) -> exists tr r, for_seq l body tr r.
Proof.
  induction l as [|a l IH]; intro H; cbn [for_seq]; [exists [], (Ok tt); split; reflexivity|].
  destruct (H a (or_introl eq_refl)) as (t & r & B). destruct IH as (t2 & r2 & R); [intros; apply H; now right|].
  destruct r as [[]|e|].
  - exists (t ++ t2), r2. right. eauto.
  - exists t, (Err e). left. split; [exact B|discriminate].
  - exists t, Panic. left. split; [exact B|discriminate].
Qed.

(** ** Programs whose successful executions perform given effects, in any order *)
Lemma concat_perm {A E} (R : A -> list E -> Prop) (f : A -> list E) l ts :
  Forall2 R l ts -> (forall a t, In a l -> R a t -> Permutation t (f a)) -> Permutation (concat ts) (flat_map f l).
Proof.
  induction 1 as [|a t l ts S F IH]; intro H; cbn; [constructor|].
  apply Permutation_app; [apply H; [now left|exact S]|]. apply IH. intros; apply H; [now right|assumption].
Qed.
Lemma for_seq_exact {A E} (body : A -> prog E) (f : A -> list E) l tr :
  (forall a t, In a l -> body a t (Ok tt) -> Permutation t (f a)) -> for_seq l body tr (Ok tt) -> Permutation tr (flat_map f l).
Proof. intros H R. apply for_seq_ok in R. destruct R as (ts & F & ->). exact (concat_perm _ f l ts F H). Qed.
Lemma for_par_exact {A E} (body : A -> prog E) (f : A -> list E) l tr :
  (forall a t, In a l -> body a t (Ok tt) -> Permutation t (f a)) -> for_par l body tr (Ok tt) -> Permutation tr (flat_map f l).
Proof. intros H R. apply for_par_ok in R. destruct R as (ts & F & I). rewrite (interleaving_perm _ _ I). exact (concat_perm _ f l ts F H). Qed.

(** ** Programs that perform at most given effects, however they end; [k] observes the effects *)
Definition at_most {E K} (k : E -> K) (p : prog E) (l : list K) : Prop :=
  forall tr r, p tr r -> exists rest, Permutation (map k tr ++ rest) l.
Lemma at_most_concat {A E K} (k : E -> K) (R : A -> list E -> Prop) (f : A -> list K) l ts :
  Forall2 R l ts -> (forall a t, In a l -> R a t -> exists rest, Permutation (map k t ++ rest) (f a)) ->
  exists rest, Permutation (map k (concat ts) ++ rest) (flat_map f l).
Proof.
  induction 1 as [|a t l ts S F IH]; intro H; cbn [concat flat_map]; [exists []; constructor|].
  destruct (H a t (or_introl eq_refl) S) as (r1 & P1). destruct IH as (r2 & P2); [intros; apply H; [now right|assumption]|].
  exists (r1 ++ r2). rewrite map_app, <- P1, <- P2. rewrite <- !app_assoc. apply Permutation_app_head.
  rewrite !app_assoc. apply Permutation_app_tail. apply Permutation_app_comm.
Qed.
Lemma for_par_at_most {A E K} (k : E -> K) (body : A -> prog E) (f : A -> list K) l :
  (forall a, In a l -> at_most k (body a) (f a)) -> at_most k (for_par l body) (flat_map f l).
Proof.
  intros H tr r R. destruct (for_par_any _ _ _ _ R) as (ts & I & F).
  destruct (at_most_concat k _ f l ts F) as (rest & P).
  - intros a t J [->|(r' & B)]; [exists (f a); reflexivity|]. exact (H a J t r' B).
  - exists rest. rewrite <- P. apply Permutation_app_tail, Permutation_map, interleaving_perm, I.
Qed.
Lemma for_seq_at_most {A E K} (k : E -> K) (body : A -> prog E) (f : A -> list K) l :
  (forall a, In a l -> at_most k (body a) (f a)) -> at_most k (for_seq l body) (flat_map f l).
Proof.
  induction l as [|a l IH]; intros H tr r R; cbn [for_seq flat_map] in *; [destruct R as [-> _]; exists []; constructor|].
  assert (Ha := H a (or_introl eq_refl)). destruct R as [[R _]|(t1 & t2 & -> & B & R)].
  - destruct (Ha _ _ R) as (rest & P). exists (rest ++ flat_map f l). rewrite app_assoc. apply Permutation_app_tail, P.
  - destruct (Ha _ _ B) as (r1 & P1). destruct (IH (fun b J => H b (or_intror J)) _ _ R) as (r2 & P2).
    exists (r1 ++ r2). rewrite map_app, <- P1, <- P2. rewrite <- !app_assoc. apply Permutation_app_head.
    rewrite !app_assoc. apply Permutation_app_tail. apply Permutation_app_comm.
Qed.
(** ** Programs all of whose effects satisfy a predicate *)
Definition effects {E} (P : E -> Prop) (p : prog E) : Prop := forall tr r, p tr r -> Forall P tr.
Lemma interleaving_forall {E} (P : E -> Prop) ts tr : interleaving ts tr -> Forall (Forall P) ts -> Forall P tr.
Proof.
  intros I F. apply (Permutation_Forall (Permutation_sym (interleaving_perm _ _ I))). apply Forall_concat. exact F.
Qed.
Lemma for_par_effects {A E} (P : E -> Prop) (body : A -> prog E) l :
  (forall a, In a l -> effects P (body a)) -> effects P (for_par l body).
Proof.
  intros H tr r R. destruct (for_par_any _ _ _ _ R) as (ts & I & F). apply (interleaving_forall P ts); [exact I|].
  clear I R. induction F as [|a t l ts S F IH]; constructor.
  - destruct S as [->|(r' & B)]; [constructor|]. exact (H a (or_introl eq_refl) _ _ B).
  - apply IH. intros; apply H; now right.
Qed.
Lemma for_seq_effects {A E} (P : E -> Prop) (body : A -> prog E) l :
  (forall a, In a l -> effects P (body a)) -> effects P (for_seq l body).
Proof.
  induction l as [|a l IH]; intros H tr r R; cbn [for_seq] in R; [destruct R as [-> _]; constructor|].
  destruct R as [[R _]|(t1 & t2 & -> & B & R)]; [exact (H a (or_introl eq_refl) _ _ R)|].
  apply Forall_app. split; [exact (H a (or_introl eq_refl) _ _ B)|]. eapply IH; [|exact R]. intros; apply H; now right.
Qed.
