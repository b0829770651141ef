(** Proofs about the requests (C79). *)
From Coq Require Import Ascii ZArith Lia List Bool String Permutation.
From Verif Require Import Base F32 Text TextFacts Grib2Model GeoModel Par ParFacts TileModel ChartModel MetobinModel ForecastModel ForecastSpec ForecastProofs
  FetchModel FetchSpec FetchProofs DwdModel DwdSpec DwdProofs SwissModel SwissSpec SwissProofs CliModel ReqModel ReqSpec.
Import ListNotations.
Open Scope Z_scope.

(** ** Without the record of the requests, the programs are the same *)
Definition erases {A} (p : logged A) (f : result A) : Prop := (forall qs o, p qs o -> f o) /\ (forall o, f o -> exists qs, p qs o).
Lemma er_of {A} (o : outcome A) : erases (l_of o) (r_of o).
Proof. split; [intros qs r [_ E]; exact E|]. intros r E. exists []. now split. Qed.
Lemma er_quiet {A} (f : result A) : erases (l_quiet f) f.
Proof. split; [intros qs r [_ E]; exact E|]. intros r E. exists []. now split. Qed.
Lemma er_ask {A} q (f : result A) : erases (l_ask q f) f.
Proof. split; [intros qs r [_ E]; exact E|]. intros r E. exists [q]. now split. Qed.
Lemma er_bind {A B} (p : logged A) (f : result A) (q : A -> logged B) (g : A -> result B) : erases p f -> (forall a, erases (q a) (g a)) -> erases (l_bind p q) (r_bind f g).
Proof.
  intros [P1 P2] Q. split.
  - intros qs r (q1 & o & H & R). exists o. split; [exact (P1 _ _ H)|]. destruct o as [a| |]; [destruct R as (q2 & R & _); exact (proj1 (Q a) _ _ R)|apply R..].
  - intros r (o & H & R). destruct (P2 _ H) as [q1 H1]. destruct o as [a| |].
    + destruct (proj2 (Q a) _ R) as [q2 H2]. exists (q1 ++ q2), q1, (Ok a). split; [exact H1|]. exists q2. now split.
    + exists q1, q1, (Err e). split; [exact H1|]. now split.
    + exists q1, q1, Panic. split; [exact H1|]. now split.
Qed.
Lemma er_collect {A B} (p : A -> logged B) (f : A -> result B) l : (forall a, erases (p a) (f a)) -> erases (l_collect p l) (r_collect f l).
Proof.
  intro E. split.
  - intros qs r (xs & F & _ & R). unfold r_collect. destruct r as [ys|e|].
    + revert ys R. induction F as [|a x l xs H F IH]; intros ys R; inversion R as [|? y ? ys' [q ->] R']; subst; constructor; [exact (proj1 (E a) _ _ H)|now apply IH].
    + destruct R as [[q J] _]. apply In_nth_error in J. destruct J as [n J]. clear -E F J. revert n J. induction F as [|a x l xs H F IH]; intros [|n] J; try discriminate.
      * injection J as ->. exists a. split; [now left|exact (proj1 (E a) _ _ H)].
      * destruct (IH n J) as (b & Jb & Hb). exists b. split; [now right|exact Hb].
    + destruct R as [q J]. apply In_nth_error in J. destruct J as [n J]. clear -E F J. revert n J. induction F as [|a x l xs H F IH]; intros [|n] J; try discriminate.
      * injection J as ->. exists a. split; [now left|exact (proj1 (E a) _ _ H)].
      * destruct (IH n J) as (b & Jb & Hb). exists b. split; [now right|exact Hb].
  - assert (One : forall o (a : A) q, In a l -> p a q o -> exists xs, Forall2 (fun a x => match x with Some (q, o) => p a q o | None => True end) l xs /\
        In (Some (q, o)) xs /\ (forall x, In x xs -> x = None \/ x = Some (q, o))).
    { intros o a q J H. apply in_split in J. destruct J as (l1 & l2 & ->).
      exists (map (fun _ => None) l1 ++ Some (q, o) :: map (fun _ => None) l2).
      assert (N : forall l : list A, Forall2 (fun a (x : option (list ask * outcome B)) => match x with Some (q, o) => p a q o | None => True end) l (map (fun _ => None) l))
        by (intro k; induction k; constructor; auto).
      split; [apply Forall2_app; [apply N|constructor; [exact H|apply N]]|]. split; [apply in_or_app; right; now left|].
      intros x J. apply in_app_or in J. destruct J as [J|[J|J]]; [left; now apply in_map_iff in J; destruct J as (? & <- & _)|now right|left; now apply in_map_iff in J; destruct J as (? & <- & _)]. }
    intros r R. unfold r_collect in R. destruct r as [ys|e|].
    + assert (X : exists xs, Forall2 (fun a x => match x with Some (q, o) => p a q o | None => True end) l xs /\ Forall2 (fun x y => exists q, x = Some (q, Ok y)) xs ys).
      { clear One. induction R as [|a y l ys H R IH]; [exists []; now split|]. destruct IH as (xs & F & G).
        destruct (proj2 (E a) _ H) as [q Q]. exists (Some (q, Ok y) :: xs). split; constructor; auto. now exists q. }
      destruct X as (xs & F & G). eexists. exists xs. split; [exact F|]. split; [apply interleaving_concat|exact G].
    + destruct R as (a & J & H). destruct (proj2 (E a) _ H) as [q Q]. destruct (One _ _ _ J Q) as (xs & F & I1 & I2).
      eexists. exists xs. split; [exact F|]. split; [apply interleaving_concat|]. split; [now exists q|]. intros q' I3. destruct (I2 _ I3); discriminate.
    + destruct R as (a & J & H). destruct (proj2 (E a) _ H) as [q Q]. destruct (One _ _ _ J Q) as (xs & F & I1 & I2).
      eexists. exists xs. split; [exact F|]. split; [apply interleaving_concat|]. now exists q.
Qed.

(** ** Programs *)
Definition shows (p : prog event) (p0 : prog effect) : Prop := (forall tr r, p tr r -> p0 (done tr) r) /\ (forall t r, p0 t r -> exists tr, p tr r /\ done tr = t).
Lemma done_app a b : done (a ++ b) = done a ++ done b. Proof. apply flat_map_app. Qed.
Lemma asked_app a b : asked (a ++ b) = asked a ++ asked b. Proof. apply flat_map_app. Qed.
Lemma done_did t : done (map Did t) = t. Proof. induction t as [|e t IH]; [reflexivity|]. cbn. f_equal. exact IH. Qed.
Lemma asked_did t : asked (map Did t) = []. Proof. induction t as [|e t IH]; [reflexivity|]. cbn. exact IH. Qed.
Lemma done_asked q : done (map Asked q) = []. Proof. induction q as [|e t IH]; [reflexivity|]. cbn. exact IH. Qed.
Lemma asked_asked q : asked (map Asked q) = q. Proof. induction q as [|e t IH]; [reflexivity|]. cbn. f_equal. exact IH. Qed.
Lemma sh_end o : shows (p_end o) (p_end o).
Proof. split; [intros tr r [-> ->]; now split|]. intros t r [-> ->]. exists []. now split. Qed.
Lemma sh_emit e : shows (p_emit (Did e)) (p_emit e).
Proof. split; [intros tr r [-> ->]; now split|]. intros t r [-> ->]. exists [Did e]. now split. Qed.
Lemma sh_quiet p : shows (quiet p) p.
Proof. split; [intros tr r (t & H & ->); now rewrite done_did|]. intros t r H. exists (map Did t). split; [now exists t|apply done_did]. Qed.
Lemma sh_then p p0 q q0 : shows p p0 -> shows q q0 -> shows (p_then p q) (p_then p0 q0).
Proof.
  intros [P1 P2] [Q1 Q2]. split.
  - intros tr r [[H N]|(t1 & t2 & -> & H1 & H2)]; [left; split; [exact (P1 _ _ H)|exact N]|right]. exists (done t1), (done t2). rewrite done_app. auto.
  - intros t r [[H N]|(t1 & t2 & -> & H1 & H2)].
    + destruct (P2 _ _ H) as (tr & T & <-). exists tr. split; [now left|reflexivity].
    + destruct (P2 _ _ H1) as (tr1 & T1 & <-). destruct (Q2 _ _ H2) as (tr2 & T2 & <-). exists (tr1 ++ tr2). split; [right; now exists tr1, tr2|apply done_app].
Qed.
Lemma sh_if b p p0 : shows p p0 -> shows (p_if b p) (p_if b p0). Proof. destruct b; [auto|intros _; apply sh_end]. Qed.
Lemma sh_let {A} (o : outcome A) q q0 : (forall a, shows (q a) (q0 a)) -> shows (p_let o q) (p_let o q0).
Proof. intro H. destruct o; [apply H|apply sh_end..]. Qed.
Lemma sh_call {A} (f : logged A) (f0 : result A) q q0 : erases f f0 -> (forall a, shows (q a) (q0 a)) -> shows (l_call f q) (p_call f0 q0).
Proof.
  intros [F1 F2] Q. split.
  - intros tr r (qs & o & t & F & L & ->). exists o. split; [exact (F1 _ _ F)|]. rewrite done_app, done_asked. exact (proj1 (sh_let o q q0 Q) _ _ L).
  - intros t r (o & F & L). destruct (F2 _ F) as [qs G]. destruct (proj2 (sh_let o q q0 Q) _ _ L) as (tr & T & <-).
    exists (map Asked qs ++ tr). split; [now exists qs, o, tr|]. now rewrite done_app, done_asked.
Qed.
Lemma done_interleaving ts tr : interleaving ts tr -> interleaving (map done ts) (done tr).
Proof.
  induction 1 as [ts F|l1 e t l2 tr I IH].
  - apply il_done. apply Forall_forall. intros x J. apply in_map_iff in J. destruct J as (t & <- & J). rewrite Forall_forall in F. now rewrite (F t J).
  - rewrite map_app in *. cbn [map] in *. destruct e as [e|q]; cbn; [|exact IH]. apply il_next. exact IH.
Qed.
Definition waits (t : list event) : Prop := match t with Asked _ :: _ => True | _ => False end.
Lemma waits_dec (ts : list (list event)) : (exists l1 q t l2, ts = l1 ++ (Asked q :: t) :: l2) \/ Forall (fun t => ~ waits t) ts.
Proof.
  induction ts as [|t ts [(l1 & q & t' & l2 & ->)|F]]; [now right|left; now exists (t :: l1), q, t', l2|]. destruct t as [|[e|q] t]; [right; constructor; auto..|left; now exists [], q, t, ts].
Qed.
Lemma lift_interleaving : forall n ts t, List.length (List.concat ts) = n -> interleaving (map done ts) t -> exists tr, interleaving ts tr /\ done tr = t.
Proof.
  induction n as [n IH] using lt_wf_ind. intros ts t L I. destruct (waits_dec ts) as [(l1 & q & t' & l2 & ->)|F].
  - destruct (IH (List.length (List.concat (l1 ++ t' :: l2)))) with (ts := l1 ++ t' :: l2) (t := t) as (tr & T & D); [|reflexivity| |].
    + rewrite <- L, !concat_app, !app_length. cbn [List.concat]. rewrite !app_length. cbn [List.length]. lia.
    + rewrite map_app in *. exact I.
    + exists (Asked q :: tr). split; [now apply il_next|exact D].
  - inversion I as [us E|m1 e s m2 t' I' E]; subst.
    + exists []. split; [|reflexivity]. apply il_done. apply Forall_forall. intros x J. rewrite Forall_forall in F, E. specialize (F x J).
      specialize (E (done x) (in_map done _ _ J)). destruct x as [|[e|q] x]; [reflexivity|discriminate E|now destruct F].
    + symmetry in E. apply map_eq_app in E. destruct E as (k1 & k2 & -> & <- & E). apply map_eq_cons in E. destruct E as (x & k3 & -> & E & <-).
      apply Forall_app in F. destruct F as [_ F]. inversion F as [|? ? W _]; subst. destruct x as [|[e'|q] x]; [discriminate E| |now destruct W]. cbn in E. injection E as -> <-.
      destruct (IH (List.length (List.concat (k1 ++ x :: k3)))) with (ts := k1 ++ x :: k3) (t := t') as (tr & T & D); [|reflexivity| |].
      * rewrite !concat_app, !app_length. cbn [List.concat]. rewrite !app_length. cbn [List.length]. lia.
      * rewrite map_app. exact I'.
      * exists (Did e :: tr). split; [now apply il_next|]. cbn. f_equal. exact D.
Qed.
Definition done_of (x : option (list event * outcome unit)) : option (list effect * outcome unit) := match x with Some (t, r) => Some (done t, r) | None => None end.
Lemma traces_done xs : traces_of (map done_of xs) = map done (traces_of xs).
Proof. unfold traces_of. rewrite !map_map. apply map_ext. now intros [[t r]|]. Qed.
Lemma in_done_of xs t r : In (Some (t, r)) (map done_of xs) <-> exists tr, In (Some (tr, r)) xs /\ done tr = t.
Proof.
  rewrite in_map_iff. split.
  - intros ([[tr r']|] & E & J); [|discriminate]. injection E as <- ->. now exists tr.
  - intros (tr & J & <-). exists (Some (tr, r)). now split.
Qed.
Lemma ends_same r xs :
  match r with
  | Ok tt => Forall (fun x => exists t, x = Some (t, Ok tt)) xs
  | Panic => exists t, In (Some (t, Panic)) xs
  | Err e => (exists t, In (Some (t, Err e)) xs) /\ forall t, ~ In (Some (t, Panic)) xs
  end <->
  match r with
  | Ok tt => Forall (fun x => exists t, x = Some (t, Ok tt)) (map done_of xs)
  | Panic => exists t, In (Some (t, Panic)) (map done_of xs)
  | Err e => (exists t, In (Some (t, Err e)) (map done_of xs)) /\ forall t, ~ In (Some (t, Panic)) (map done_of xs)
  end.
Proof.
  destruct r as [[]|e|].
  - rewrite !Forall_forall. split.
    + intros H x J. apply in_map_iff in J. destruct J as (y & <- & J). destruct (H y J) as [t ->]. now exists (done t).
    + intros H x J. destruct (H (done_of x) (in_map done_of _ _ J)) as [t E]. destruct x as [[t' r]|]; [|discriminate]. injection E as _ ->. now exists t'.
  - split; intros [[t J] N]; split.
    + exists (done t). apply in_done_of. now exists t.
    + intros t' J'. apply in_done_of in J'. destruct J' as (tr & J' & _). exact (N _ J').
    + apply in_done_of in J. destruct J as (tr & J & _). now exists tr.
    + intros t' J'. apply (N (done t')). apply in_done_of. now exists t'.
  - split; intros [t J].
    + exists (done t). apply in_done_of. now exists t.
    + apply in_done_of in J. destruct J as (tr & J & _). now exists tr.
Qed.
Lemma sh_for_par {A} (l : list A) b b0 : (forall a, shows (b a) (b0 a)) -> shows (for_par l b) (for_par l b0).
Proof.
  intro H. split.
  - intros tr r (xs & F & I & R). exists (map done_of xs). split; [|split; [rewrite traces_done; now apply done_interleaving|now apply ends_same]].
    clear -H F. induction F as [|a x l xs S F IH]; constructor; [|exact IH]. destruct x as [[t r]|]; cbn in *; [exact (proj1 (H a) _ _ S)|exact I].
  - intros t r (xs0 & F & I & R).
    assert (X : exists xs, Forall2 (Par.started b) l xs /\ map done_of xs = xs0).
    { clear -H F. induction F as [|a x l xs S F (ys & G & <-)]; [now exists []|]. destruct x as [[t r]|].
      - destruct (proj2 (H a) _ _ S) as (tr & T & <-). exists (Some (tr, r) :: ys). split; [now constructor|reflexivity].
      - exists (None :: ys). split; [now constructor|reflexivity]. }
    destruct X as (xs & G & <-). rewrite traces_done in I. destruct (lift_interleaving _ _ _ eq_refl I) as (tr & T & D). exists tr. split; [|exact D].
    exists xs. split; [exact G|]. split; [exact T|now apply ends_same].
Qed.
Lemma sh_steps {L} filter steps (read : fc_step -> logged L) (read0 : fc_step -> result L) body : (forall s, erases (read s) (read0 s)) ->
  shows (l_steps filter steps read body) (render_steps filter steps read0 body).
Proof.
  intro R. apply sh_for_par. intro s. destruct (skipped filter s); [apply sh_end|]. apply sh_then; [apply sh_emit|]. apply sh_call; [apply R|]. intro l. apply sh_quiet.
Qed.
Lemma sh_selected f cp wi te hh vc vw cp0 wi0 te0 hh0 vc0 vw0 : shows cp cp0 -> shows wi wi0 -> shows te te0 -> erases hh hh0 -> (forall h, shows (vc h) (vc0 h)) ->
  (forall h, shows (vw h) (vw0 h)) -> shows (l_selected f cp wi te hh vc vw) (render_selected f cp0 wi0 te0 hh0 vc0 vw0).
Proof.
  intros C W T H V U. unfold l_selected, render_selected. repeat (apply sh_then; [apply sh_if; assumption|]). apply sh_if. apply sh_then; [apply sh_emit|].
  apply sh_call; [exact H|]. intro h. apply sh_then; apply sh_if; auto.
Qed.
Ltac erase := repeat first [apply er_of | apply er_quiet | apply er_ask | apply er_bind; [|intros] | apply er_collect; intros].
Lemma find_run_same head m today : forall names n, snd (l_find_run head n m today names) = find_run head n m today names.
Proof.
  induction names as [|name names IH]; intro n; [reflexivity|]. cbn [l_find_run find_run]. cbv zeta. destruct (probe_urls _ _) as [urls| |]; [|reflexivity..].
  cbn [obind]. destruct (all_found head n urls) as [[|] n']; [reflexivity|]. specialize (IH n'). destruct (l_find_run head n' m today names). exact IH.
Qed.
Lemma er_latest_run head m today today' : erases (l_latest_run head m today today') (r_of (find_latest_run head m today today')).
Proof.
  unfold l_latest_run, find_latest_run. rewrite find_run_same. split; [intros qs o [_ E]; exact E|]. intros o E. eexists. split; [reflexivity|exact E].
Qed.
Lemma call_of {A} (o : outcome A) (q : A -> prog effect) tr r : p_call (r_of o) q tr r <-> p_let o q tr r.
Proof. unfold p_call, r_of. split; [intros (x & -> & H); exact H|]. intro H. now exists o. Qed.
Lemma dwd_shows chk powi fetch m faulty head today today' model variables steps :
  shows (l_dwd_render chk powi fetch m faulty head today today' model variables steps) (dwd_render_latest chk powi fetch m faulty head today today' model variables steps).
Proof.
  assert (S : shows (l_dwd_render chk powi fetch m faulty head today today' model variables steps)
    (p_call (r_of (find_latest_run head model today today')) (fun run => let levels := vertical_level_range (run_model run) in
      render_selected variables (dwd_cloud_precip chk powi fetch m faulty steps run) (dwd_wind chk powi fetch m faulty steps run) (dwd_temp chk powi fetch m faulty steps run)
        (read_hhl chk powi fetch run levels) (dwd_vertical_cloud chk powi fetch faulty steps levels run) (dwd_vertical_wind chk powi fetch faulty steps levels run)))).
  { apply sh_call; [apply er_latest_run|]. intro run. cbv zeta. apply sh_selected; [| | | |intro h|intro h]; try (apply sh_steps; intro s); erase. }
  split; [intros tr r H; apply call_of; exact (proj1 S _ _ H)|]. intros t r H. apply (proj2 S). now apply call_of.
Qed.
Lemma swiss_shows chk powi rfc3339 sv m faulty steps variables :
  shows (l_swiss_render chk powi rfc3339 sv m faulty steps variables) (swiss_render_latest chk powi rfc3339 sv m faulty steps variables).
Proof.
  unfold l_swiss_render, swiss_render_latest. apply sh_call; [apply er_ask|]. intro assets. apply sh_let. intro hor. apply sh_call; [erase|]. intro u. apply sh_let. intro vert.
  apply sh_call; [erase|]. intro t.
  apply sh_selected; [| | |erase|intro h|intro h]; (apply sh_let; intro run); repeat (apply sh_call; [erase|intro]); apply sh_steps; intro s; erase.
Qed.
Lemma c79_shows_proof : forall w a, (forall tr printed code, l_main w a tr printed code -> main w a (done tr) printed code) /\
  (forall t printed code, main w a t printed code -> exists tr, l_main w a tr printed code /\ done tr = t).
Proof.
  intros w a.
  assert (R : forall name p p0, shows p p0 -> (forall tr printed code, l_reporting w name p tr printed code -> reporting w name p0 (done tr) printed code) /\
    (forall t printed code, reporting w name p0 t printed code -> exists tr, l_reporting w name p tr printed code /\ done tr = t)).
  { intros name p p0 [S1 S2]. split.
    - intros tr printed code (r & H & Q). exists r. split; [exact (S1 _ _ H)|exact Q].
    - intros t printed code (r & H & Q). destruct (S2 _ _ H) as (tr & T & <-). exists tr. split; [now exists r|reflexivity]. }
  unfold l_main, main. destruct (String.eqb (ar_model a) "icon-ch1"); [apply R, swiss_shows|]. destruct (String.eqb (ar_model a) "icon-d2"); [apply R, dwd_shows|].
  destruct (String.eqb (ar_model a) "icon-eu"); [apply R, dwd_shows|]. split; [intros tr printed code (-> & H); now split|]. intros t printed code (-> & H). exists []. now repeat split.
Qed.

(** ** What is asked for *)
Lemma some_nil l : some_of l []. Proof. now exists l. Qed.
Lemma some_exact l qs : exactly l qs -> some_of l qs. Proof. intro P. exists []. now rewrite app_nil_r. Qed.
Lemma some_app l1 l2 a b : some_of l1 a -> some_of l2 b -> some_of (l1 ++ l2) (a ++ b).
Proof.
  intros [u P] [v Q]. exists (u ++ v). rewrite <- P, <- Q, <- !app_assoc. apply Permutation_app_head. rewrite !app_assoc. apply Permutation_app_tail. apply Permutation_app_comm.
Qed.
Lemma some_left l1 l2 a : some_of l1 a -> some_of (l1 ++ l2) a.
Proof. intro H. rewrite <- (app_nil_r a). apply some_app; [exact H|apply some_nil]. Qed.
Lemma some_perm l l' a a' : Permutation l l' -> Permutation a a' -> some_of l a -> some_of l' a'.
Proof. intros P Q [u H]. exists u. now rewrite <- Q, H. Qed.
Lemma exact_app l1 l2 a b : exactly l1 a -> exactly l2 b -> exactly (l1 ++ l2) (a ++ b). Proof. apply Permutation_app. Qed.
Definition asks_only {A} (p : logged A) (l : list ask) : Prop := forall qs o, p qs o -> some_of l qs /\ (forall a, o = Ok a -> exactly l qs).
Definition plan (p : prog event) (l : list ask) : Prop := forall tr r, p tr r -> some_of l (asked tr) /\ (r = Ok tt -> exactly l (asked tr)).
Lemma ao_perm {A} (p : logged A) l l' : Permutation l l' -> asks_only p l -> asks_only p l'.
Proof. intros P H qs o Q. destruct (H qs o Q) as [X Y]. split; [exact (some_perm _ _ _ _ P (Permutation_refl _) X)|]. intros a E. unfold exactly. rewrite <- P. exact (Y a E). Qed.
Lemma pl_perm p l l' : Permutation l l' -> plan p l -> plan p l'.
Proof. intros P H qs o Q. destruct (H qs o Q) as [X Y]. split; [exact (some_perm _ _ _ _ P (Permutation_refl _) X)|]. intro E. unfold exactly. rewrite <- P. exact (Y E). Qed.
Lemma ao_of {A} (o : outcome A) : asks_only (l_of o) [].
Proof. intros qs r [-> ->]. split; [apply some_nil|]. intros a _. apply Permutation_refl. Qed.
Lemma ao_quiet {A} (f : result A) : asks_only (l_quiet f) [].
Proof. intros qs r [-> _]. split; [apply some_nil|]. intros a _. apply Permutation_refl. Qed.
Lemma ao_ask {A} q (f : result A) : asks_only (l_ask q f) [q].
Proof. intros qs r [-> _]. split; [apply some_exact|intros a _]; apply Permutation_refl. Qed.
Lemma ao_bind {A B} (p : logged A) (q : A -> logged B) l1 l2 : asks_only p l1 -> (forall a, asks_only (q a) l2) -> asks_only (l_bind p q) (l1 ++ l2).
Proof.
  intros P Q qs r (q1 & o & H & R). destruct (P _ _ H) as [P1 P2]. destruct o as [a| |].
  - destruct R as (q2 & R & ->). destruct (Q a _ _ R) as [Q1 Q2]. split; [now apply some_app|]. intros b E. apply exact_app; eauto.
  - destruct R as [-> ->]. split; [now apply some_left|discriminate].
  - destruct R as [-> ->]. split; [now apply some_left|discriminate].
Qed.
Lemma ao_bind_of {A B} (o : outcome A) (q : A -> logged B) l : (forall a, o = Ok a -> asks_only (q a) l) -> asks_only (l_bind (l_of o) q) l.
Proof.
  intros Q qs r (q1 & o' & [-> ->] & R). destruct o as [a| |]; [destruct R as (q2 & R & ->); exact (Q a eq_refl _ _ R)| |]; destruct R as [-> ->]; (split; [apply some_nil|discriminate]).
Qed.
Lemma ao_then_of {A B} (p : logged A) (q : A -> outcome B) l : asks_only p l -> asks_only (l_bind p (fun a => l_of (q a))) l.
Proof. intro P. rewrite <- (app_nil_r l). apply ao_bind; [exact P|]. intro a. apply ao_of. Qed.
Lemma some_concat (ls qss : list (list ask)) : Forall2 some_of ls qss -> some_of (List.concat ls) (List.concat qss).
Proof. induction 1; [apply some_nil|]. cbn [List.concat]. now apply some_app. Qed.
Lemma exact_concat (ls qss : list (list ask)) : Forall2 exactly ls qss -> exactly (List.concat ls) (List.concat qss).
Proof. induction 1; [apply Permutation_refl|]. cbn [List.concat]. now apply exact_app. Qed.
Lemma ao_collect {A B} (f : A -> logged B) (g : A -> list ask) l : (forall a, In a l -> asks_only (f a) (g a)) -> asks_only (l_collect f l) (flat_map g l).
Proof.
  intros H qs r (xs & F & I & R). apply interleaving_perm in I. rewrite flat_map_concat_map. split.
  - eapply some_perm; [apply Permutation_refl|symmetry; exact I|]. apply some_concat. clear R I. induction F as [|a x l xs X F IH]; [constructor|]. cbn [map]. constructor; [|apply IH; intros b J; apply H; now right].
    destruct x as [[q o]|]; [exact (proj1 (H a (or_introl eq_refl) _ _ X))|apply some_nil].
  - intros ys ->. unfold exactly. rewrite I. apply exact_concat. clear I. revert ys R. induction F as [|a x l xs X F IH]; intros ys R; [constructor|]. inversion R as [|? y ? ys' [q ->] R']; subst. cbn [map].
    constructor; [exact (proj2 (H a (or_introl eq_refl) _ _ X) _ eq_refl)|]. apply (IH (fun b J => H b (or_intror J)) _ R').
Qed.
Lemma pl_end o : plan (p_end o) [].
Proof. intros tr r [-> ->]. split; [apply some_nil|]. intros _. apply Permutation_refl. Qed.
Lemma pl_emit e : plan (p_emit (Did e)) [].
Proof. intros tr r [-> ->]. split; [apply some_nil|]. intros _. apply Permutation_refl. Qed.
Lemma pl_quiet p : plan (quiet p) [].
Proof. intros tr r (t & _ & ->). rewrite asked_did. split; [apply some_nil|]. intros _. apply Permutation_refl. Qed.
Lemma pl_then p q l1 l2 : plan p l1 -> plan q l2 -> plan (p_then p q) (l1 ++ l2).
Proof.
  intros P Q tr r [[H N]|(t1 & t2 & -> & H1 & H2)].
  - split; [apply some_left; exact (proj1 (P _ _ H))|]. intros ->. contradiction.
  - rewrite asked_app. destruct (P _ _ H1) as [_ P2]. destruct (Q _ _ H2) as [Q1 Q2]. split; [apply some_app; [apply some_exact; auto|exact Q1]|]. intro E. apply exact_app; auto.
Qed.
Lemma pl_if b p l : (b = true -> plan p l) -> plan (p_if b p) (only_if b l). Proof. destruct b; [auto|intros _; apply pl_end]. Qed.
Lemma pl_let {A} (o : outcome A) q l : (forall a, o = Ok a -> plan (q a) l) -> plan (p_let o q) l.
Proof. intros H tr r P. destruct o as [a| |]; [exact (H a eq_refl _ _ P)| |]; destruct P as [-> ->]; (split; [apply some_nil|discriminate]). Qed.
Lemma pl_call {A} (f : logged A) q l1 l2 : asks_only f l1 -> (forall a, (exists qs, f qs (Ok a)) -> plan (q a) l2) -> plan (l_call f q) (l1 ++ l2).
Proof.
  intros F Q tr r (qs & o & t & H & L & ->). rewrite asked_app, asked_asked. destruct (F _ _ H) as [F1 F2]. destruct o as [a| |].
  - destruct (Q a (ex_intro _ qs H) _ _ L) as [Q1 Q2]. split; [now apply some_app|]. intro E. apply exact_app; eauto.
  - destruct L as [-> ->]. split; [rewrite app_nil_r; now apply some_left|discriminate].
  - destruct L as [-> ->]. split; [rewrite app_nil_r; now apply some_left|discriminate].
Qed.
Lemma asked_perm a b : Permutation a b -> Permutation (asked a) (asked b). Proof. apply Permutation_flat_map. Qed.
Lemma asked_concat ts : asked (List.concat ts) = List.concat (map asked ts).
Proof. induction ts as [|t ts IH]; [reflexivity|]. cbn [List.concat map]. now rewrite asked_app, IH. Qed.
Lemma pl_for_par {A} (l : list A) b g : (forall a, In a l -> plan (b a) (g a)) -> plan (for_par l b) (flat_map g l).
Proof.
  intros H tr r (xs & F & I & R). apply interleaving_perm, asked_perm in I. rewrite asked_concat in I. rewrite flat_map_concat_map. split.
  - eapply some_perm; [apply Permutation_refl|symmetry; exact I|]. apply some_concat. clear R I. unfold traces_of. induction F as [|a x l xs X F IH]; [constructor|].
    cbn [map]. constructor; [|apply IH; intros b' J; apply H; now right]. destruct x as [[t o]|]; [exact (proj1 (H a (or_introl eq_refl) _ _ X))|apply some_nil].
  - intros ->. unfold exactly. rewrite I. apply exact_concat. clear I. unfold traces_of. induction F as [|a x l xs X F IH]; [constructor|]. inversion R as [|? ? [t ->] R']; subst. cbn [map].
    constructor; [exact (proj2 (H a (or_introl eq_refl) _ _ X) eq_refl)|]. apply (IH (fun b' J => H b' (or_intror J)) R').
Qed.
Lemma wanted_same f s : is_wanted f (st_nr s) = negb (skipped f s).
Proof. unfold is_wanted, skipped. destruct f; [reflexivity|]. cbn [negb andb]. now rewrite negb_involutive. Qed.
Lemma pl_steps {L} f steps (read : fc_step -> logged L) body g : (forall s, In s steps -> asks_only (read s) (g s)) ->
  plan (l_steps f steps read body) (flat_map (fun s => only_if (is_wanted f (st_nr s)) (g s)) steps).
Proof.
  intro H. apply pl_for_par. intros s J. rewrite wanted_same. destruct (skipped f s); [apply pl_end|]. cbn [negb only_if].
  apply (pl_then _ _ [] (g s)); [apply pl_emit|]. rewrite <- (app_nil_r (g s)). apply pl_call; [exact (H s J)|]. intros a _. apply pl_quiet.
Qed.
Lemma named_same f t : is_named f t = selected f t.
Proof.
  unfold is_named. destruct (selected f t) eqn:E.
  - apply selected_spec in E. destruct f as [|x f]; [reflexivity|]. destruct E as [E|E]; [discriminate|]. apply existsb_exists. exists (variable_name t). split; [exact E|apply String.eqb_refl].
  - destruct f as [|x f]; [discriminate E|]. destruct (existsb _ _) eqn:X; [|reflexivity]. apply existsb_exists in X. destruct X as (y & J & Y). apply String.eqb_eq in Y. subst y.
    rewrite <- E. symmetry. apply selected_spec. right. exact J.
Qed.
Lemma pl_selected f cp wi te hh vc vw lc lw lt lh lv lu : (is_named f CloudPrecip = true -> plan cp lc) -> (is_named f Wind10m = true -> plan wi lw) -> (is_named f Temp2m = true -> plan te lt) ->
  asks_only hh lh -> (is_named f VerticalCloud = true -> forall h, plan (vc h) lv) -> (is_named f VerticalWind = true -> forall h, plan (vw h) lu) ->
  plan (l_selected f cp wi te hh vc vw) (only_if (is_named f CloudPrecip) lc ++ only_if (is_named f Wind10m) lw ++ only_if (is_named f Temp2m) lt ++
    only_if (is_named f VerticalCloud || is_named f VerticalWind) lh ++ only_if (is_named f VerticalCloud) lv ++ only_if (is_named f VerticalWind) lu).
Proof.
  intros C W T H V U. unfold l_selected. rewrite <- !named_same. repeat (apply pl_then; [now apply pl_if|]).
  apply (pl_perm _ (only_if (is_named f VerticalCloud || is_named f VerticalWind) (lh ++ only_if (is_named f VerticalCloud) lv ++ only_if (is_named f VerticalWind) lu)));
    [destruct (is_named f VerticalCloud), (is_named f VerticalWind); cbn; rewrite ?app_nil_r; reflexivity|].
  apply pl_if. intros _. apply (pl_then _ _ []); [apply pl_emit|]. apply pl_call; [exact H|]. intros h _. apply pl_then; apply pl_if; auto.
Qed.

(** *** German service *)
Definition files_asks (run : fc_run) (f : dwd_file) : list ask := match dwd_url run f with Ok u => [AskFile u] | _ => [] end.
Section Dwd.
  Variables (chk : bool) (powi : f32 -> Z -> f32) (fetch : fetcher) (run : fc_run).
  Lemma ao_regular {T} url (missing : T) transform : asks_only (l_regular chk powi fetch url missing transform) [AskFile url].
  Proof. apply ao_then_of, ao_then_of, ao_ask. Qed.
  Lemma ao_single v n : asks_only (l_single chk powi fetch v run (numbered n)) (files_asks run (SingleFile v n)).
  Proof. apply ao_bind_of. intros u E. unfold files_asks, dwd_url. rewrite E. apply ao_regular. Qed.
  Lemma ao_levels v missing transform n levels : asks_only (l_levels chk powi fetch v missing transform run (numbered n) levels)
    (flat_map (fun level => files_asks run (LevelFile v n level)) (range (fst levels) (snd levels))).
  Proof. apply ao_collect. intros level _. apply ao_bind_of. intros u E. unfold files_asks, dwd_url. rewrite E. apply ao_regular. Qed.
  Lemma ao_hhl levels : asks_only (l_hhl chk powi fetch run levels) (flat_map (fun level => files_asks run (HeightFile level)) (range (fst levels) (snd levels))).
  Proof. apply ao_collect. intros level _. apply ao_bind_of. intros u E. unfold files_asks, dwd_url. rewrite E. apply ao_regular. Qed.
End Dwd.
Lemma step_found m n s : step_by_nr (forecast_steps m) n = Ok s -> s = numbered n.
Proof.
  unfold step_by_nr. destruct (find _ _) as [x|] eqn:F; [|discriminate]. intro E. injection E as ->. apply find_some in F. destruct F as [J E]. apply Z.eqb_eq in E. subst n. now apply step_in in J.
Qed.
Lemma diff_step_found m n s : step_by_nr (forecast_diff_steps m) n = Ok s -> s = numbered n.
Proof.
  unfold step_by_nr. destruct (find _ _) as [x|] eqn:F; [|discriminate]. intro E. injection E as ->. apply find_some in F. destruct F as [J E]. apply Z.eqb_eq in E. subst n.
  unfold forecast_diff_steps, steps_of_range in J. apply in_map_iff in J. now destruct J as (k & <- & _).
Qed.
Lemma unwrap_ok {A} (o : outcome A) a : unwrap o = Ok a -> o = Ok a. Proof. destruct o; cbn; congruence. Qed.
Lemma run_steps_map steps run (g : Z -> list ask) : flat_map (fun s => only_if (is_wanted steps (st_nr s)) (g (st_nr s))) (forecast_steps (run_model run)) = flat_map g (run_steps steps run).
Proof.
  unfold forecast_steps, steps_of_range, run_steps. assert (E : range (fst (step_range (run_model run))) (snd (step_range (run_model run))) = range 2 (last_step (run_model run))) by (destruct (run_model run); reflexivity).
  rewrite E. clear E. induction (range 2 (last_step (run_model run))) as [|n l IH]; [reflexivity|]. cbn [map flat_map filter st_nr]. rewrite IH. now destruct (is_wanted steps n).
Qed.
Lemma flat_map_split {A B} (f g : A -> list B) l : Permutation (flat_map (fun a => f a ++ g a) l) (flat_map f l ++ flat_map g l).
Proof.
  induction l as [|a l IH]; [constructor|]. cbn [flat_map]. rewrite IH, <- !app_assoc. apply Permutation_app_head. rewrite !app_assoc. apply Permutation_app_tail. apply Permutation_app_comm.
Qed.
Lemma flat_map_map' {A B C} (f : A -> B) (g : B -> list C) l : flat_map g (map f l) = flat_map (fun a => g (f a)) l.
Proof. rewrite !flat_map_concat_map, map_map. reflexivity. Qed.
Lemma flat_map_flat {A B C} (f : A -> list B) (g : B -> list C) l : flat_map g (flat_map f l) = flat_map (fun a => flat_map g (f a)) l.
Proof. induction l as [|a l IH]; [reflexivity|]. cbn [flat_map]. now rewrite flat_map_app, IH. Qed.
Lemma levels_same m : range (fst (vertical_level_range m)) (snd (vertical_level_range m)) = range (first_level m) (last_level m).
Proof. destruct m; reflexivity. Qed.
Lemma only_if_map {A B} b (g : A -> list B) l : flat_map g (only_if b l) = only_if b (flat_map g l). Proof. now destruct b. Qed.
Section DwdPlan.
  Variables (chk : bool) (powi : f32 -> Z -> f32) (fetch : fetcher) (m : libm) (faulty : bool) (steps : list Z) (run : fc_run).
  Notation all := (forecast_steps (run_model run)).
  Notation levels := (vertical_level_range (run_model run)).
  Notation FA := (files_asks run).
  Lemma pl_dwd {L} (read : fc_step -> logged L) body (g : Z -> list ask) : (forall n, 2 <= n <= last_step (run_model run) -> asks_only (read (numbered n)) (g n)) ->
    plan (l_steps steps all read body) (flat_map g (run_steps steps run)).
  Proof.
    intro H. rewrite <- run_steps_map. apply pl_steps. intros s J. apply step_in in J. destruct J as [E J]. rewrite E at 1. auto.
  Qed.
  Lemma pl_dwd_layer {L} t (read : fc_step -> logged L) body (g : Z -> list ask) : (forall n, 2 <= n <= last_step (run_model run) -> asks_only (read (numbered n)) (g n)) ->
    Permutation (flat_map g (run_steps steps run)) (flat_map FA (layer_files steps run t)) -> plan (l_steps steps all read body) (flat_map FA (layer_files steps run t)).
  Proof. intros H P. apply (pl_perm _ _ _ P). now apply pl_dwd. Qed.
  Lemma ao_cloud_precip n : 2 <= n -> asks_only (l_cloud_precip chk powi fetch run (numbered n) all (forecast_diff_steps (run_model run)))
    (FA (SingleFile ClctMod n) ++ FA (SingleFile TotPrec (n - 1)) ++ FA (SingleFile TotPrec n)).
  Proof.
    intro B. unfold l_cloud_precip. cbn [numbered st_nr]. apply ao_bind_of. intros s1 E1. apply unwrap_ok, step_found in E1. subst s1.
    apply ao_bind_of. intros b E2. unfold usub in E2. rewrite (proj2 (Z.leb_le 1 n)) in E2 by lia. injection E2 as <-.
    apply ao_bind_of. intros s3 E3. apply unwrap_ok, diff_step_found in E3. subst s3. apply ao_bind_of. intros s4 E4. apply unwrap_ok, diff_step_found in E4. subst s4.
    apply ao_bind; [apply ao_single|]. intro. apply ao_bind; [apply ao_single|]. intro. apply ao_then_of, ao_single.
  Qed.
  Lemma ao_weather n : asks_only (l_weather chk powi fetch run (numbered n)) (FA (SingleFile ClctMod n) ++ FA (SingleFile Ceiling n) ++ FA (SingleFile Ww n)).
  Proof. apply ao_bind; [apply ao_single|]. intro. apply ao_bind; [apply ao_single|]. intro. apply ao_then_of, ao_single. Qed.
  Lemma pl_dwd_cloud_precip body : plan (l_steps steps all (l_cloud_precip_weather chk powi fetch run) body) (flat_map FA (layer_files steps run CloudPrecip)).
  Proof.
    apply (pl_dwd_layer CloudPrecip _ _ (fun n => (FA (SingleFile ClctMod n) ++ FA (SingleFile TotPrec (n - 1)) ++ FA (SingleFile TotPrec n)) ++
      FA (SingleFile ClctMod n) ++ FA (SingleFile Ceiling n) ++ FA (SingleFile Ww n))).
    - intros n B. apply ao_bind; [apply ao_cloud_precip; lia|]. intro. apply ao_then_of, ao_weather.
    - cbn [layer_files]. rewrite !flat_map_app, !flat_map_map', !flat_map_split. rewrite <- !app_assoc. apply Permutation_app_head.
      rewrite !app_assoc. do 2 apply Permutation_app_tail. rewrite Permutation_app_comm, app_assoc. reflexivity.
  Qed.
  Lemma pl_dwd_wind body : plan (l_steps steps all (l_wind chk powi fetch run) body) (flat_map FA (layer_files steps run Wind10m)).
  Proof.
    apply (pl_dwd_layer Wind10m _ _ (fun n => FA (SingleFile U10m n) ++ FA (SingleFile V10m n) ++ FA (SingleFile Vmax10m n))).
    - intros n B. apply ao_bind; [apply ao_single|]. intro. apply ao_bind; [apply ao_single|]. intro. apply ao_then_of, ao_single.
    - cbn [layer_files]. rewrite !flat_map_app, !flat_map_map', !flat_map_split. reflexivity.
  Qed.
  Lemma pl_dwd_temp body : plan (l_steps steps all (l_single chk powi fetch T2m run) body) (flat_map FA (layer_files steps run Temp2m)).
  Proof.
    apply (pl_dwd_layer Temp2m _ _ (fun n => FA (SingleFile T2m n))); [intros n B; apply ao_single|]. cbn [layer_files]. rewrite flat_map_map'. reflexivity.
  Qed.
  Lemma pl_dwd_vertical_cloud hhl body : plan (l_steps steps all (l_vertical_cloud chk powi fetch run levels hhl) body) (flat_map FA (layer_files steps run VerticalCloud)).
  Proof.
    apply (pl_dwd_layer VerticalCloud _ _ (fun n => flat_map (fun level => FA (LevelFile Clc n level)) (range (fst levels) (snd levels)))).
    - intros n B. apply ao_then_of, ao_levels.
    - cbn [layer_files]. rewrite flat_map_flat. unfold run_levels. rewrite levels_same. erewrite flat_map_ext; [reflexivity|]. intro n. cbn beta. now rewrite flat_map_map'.
  Qed.
  Lemma pl_dwd_vertical_wind hhl body : plan (l_steps steps all (l_vertical_wind chk powi fetch run levels hhl) body) (flat_map FA (layer_files steps run VerticalWind)).
  Proof.
    apply (pl_dwd_layer VerticalWind _ _ (fun n => flat_map (fun level => FA (LevelFile UWind n level)) (range (fst levels) (snd levels)) ++
      flat_map (fun level => FA (LevelFile VWind n level)) (range (fst levels) (snd levels)))).
    - intros n B. apply ao_bind; [apply ao_levels|]. intro. apply ao_then_of, ao_levels.
    - rewrite flat_map_split. cbn [layer_files]. rewrite flat_map_app, !flat_map_flat. unfold run_levels. rewrite levels_same.
      apply Permutation_app; (erewrite flat_map_ext; [reflexivity|]); intro n; cbn beta; now rewrite flat_map_map'.
  Qed.
  Lemma pl_dwd_selected variables : plan (l_selected variables
        (l_steps steps all (l_cloud_precip_weather chk powi fetch run) (cloud_precip_body chk m faulty run))
        (l_steps steps all (l_wind chk powi fetch run) (wind_body chk m faulty run))
        (l_steps steps all (l_single chk powi fetch T2m run) (temp_body chk m faulty run))
        (l_hhl chk powi fetch run levels)
        (fun hhl => l_steps steps all (l_vertical_cloud chk powi fetch run levels hhl) (vertical_cloud_body faulty run))
        (fun hhl => l_steps steps all (l_vertical_wind chk powi fetch run levels hhl) (vertical_wind_body faulty run)))
    (flat_map FA (dwd_files variables steps run)).
  Proof.
    unfold dwd_files. rewrite !flat_map_app, !only_if_map. apply pl_selected; intros; auto using pl_dwd_cloud_precip, pl_dwd_wind, pl_dwd_temp, pl_dwd_vertical_cloud, pl_dwd_vertical_wind.
    rewrite flat_map_map'. unfold run_levels. rewrite <- levels_same. apply ao_hhl.
  Qed.
End DwdPlan.
Lemma files_asks_for run files : dwd_model (run_model run) -> asks_for run files (flat_map (files_asks run) files).
Proof.
  intro M. induction files as [|f files IH]; [constructor|]. cbn [flat_map]. destruct (proj1 (c49_total_proof run f) M) as [u E]. unfold files_asks at 1. rewrite E. constructor; [now exists u|exact IH].
Qed.

(** The search for the run. *)
Lemma l_found_in head urls : forall n q, In q (l_found head n urls) -> exists u, In u urls /\ q = AskHead u.
Proof.
  induction urls as [|u urls IH]; intros n q J; [destruct J|]. cbn [l_found] in J. destruct J as [<-|J]; [exists u; split; [now left|reflexivity]|].
  destruct (head n u) as [s|]; [|destruct J]. destruct (s =? 200); [|destruct J]. destruct (IH _ _ J) as (v & Jv & ->). exists v. split; [now right|reflexivity].
Qed.
(** The URLs asked for: the first [k] of the list; all but the last were found, and the last if all are asked for and found. *)
Lemma l_found_spec head urls : forall n, exists k, l_found head n urls = map AskHead (firstn k urls) /\ snd (all_found head n urls) = (n + k)%nat /\ (k <= List.length urls)%nat /\
  (forall i u, nth_error (firstn k urls) i = Some u -> head (n + i)%nat u <> Some 200 -> k = Datatypes.S i) /\
  (fst (all_found head n urls) = true -> k = List.length urls /\ forall i u, nth_error urls i = Some u -> head (n + i)%nat u = Some 200).
Proof.
  induction urls as [|u urls IH]; intro n; [exists 0%nat; cbn; repeat split; auto; [intros [|i] v E; discriminate|intros [|i] v E; discriminate]|].
  cbn [l_found all_found]. destruct (head n u) as [s|] eqn:H; [destruct (Z.eqb_spec s 200) as [->|N]|].
  - destruct (IH (Datatypes.S n)) as (k & E & S & B & L & F). exists (Datatypes.S k). cbn [firstn map List.length]. rewrite E. split; [reflexivity|]. split; [rewrite S; lia|]. split; [lia|]. split.
    + intros [|i] v J K; cbn in J; [injection J as <-; rewrite Nat.add_0_r in K; contradiction|]. f_equal. apply (L i v J). now replace (Datatypes.S n + i)%nat with (n + Datatypes.S i)%nat by lia.
    + intro T. destruct (F T) as [-> G]. split; [reflexivity|]. intros [|i] v J; cbn in J; [injection J as <-; now rewrite Nat.add_0_r|].
      replace (n + Datatypes.S i)%nat with (Datatypes.S n + i)%nat by lia. now apply G.
  - exists 1%nat. cbn [firstn map List.length fst snd]. split; [reflexivity|]. split; [lia|]. split; [lia|]. split; [|discriminate]. intros [|i] v J; [reflexivity|]. destruct i; discriminate J.
  - exists 1%nat. cbn [firstn map List.length fst snd]. split; [reflexivity|]. split; [lia|]. split; [lia|]. split; [|discriminate]. intros [|i] v J; [reflexivity|]. destruct i; discriminate J.
Qed.
Definition probe_files (m : fc_model) : list dwd_file :=
  map (fun v => SingleFile v (last_step m)) [ClctMod; TotPrec; Ceiling; Ww; U10m; V10m; Vmax10m; T2m] ++ [LevelFile Clc (last_step m) 65; LevelFile UWind (last_step m) 65].
Lemma all_ok_files {A B} (g : A -> outcome B) l : forall us, all_ok (map g l) = Ok us -> Forall2 (fun a u => g a = Ok u) l us.
Proof.
  induction l as [|a l IH]; intros us H; cbn [map all_ok] in H; [injection H as <-; constructor|]. destruct (g a) as [u| |] eqn:E; try discriminate. cbn [obind] in H.
  destruct (all_ok (map g l)) as [vs| |]; try discriminate. injection H as <-. constructor; [exact E|]. now apply IH.
Qed.
Lemma probe_urls_files m d name urls : probe_urls (run_of m d name) {| st_nr := snd (step_range m); st_url := EmptyString |} = Ok urls ->
  Forall2 (fun f u => dwd_url (run_of m d name) f = Ok u) (probe_files m) urls.
Proof. intro H. apply all_ok_files. rewrite <- H. now destruct m. Qed.
Lemma probe_files_in m f : In f (probe_files m) <-> probed m f.
Proof.
  unfold probe_files, probed. rewrite in_app_iff, in_map_iff. split.
  - intros [(v & <- & _)|[<-|[<-|[]]]]; [left; now exists v|auto..].
  - intros [(v & ->)|[->| ->]]; [left|right; cbn; auto..]. exists v. split; [reflexivity|]. destruct v; cbn; tauto.
Qed.
Lemma probe_files_ok m : Forall dwd_file_ok (probe_files m).
Proof. apply Forall_forall. intros f J. apply probe_files_in in J. destruct J as [(v & ->)|[->| ->]]; destruct m; cbn; lia. Qed.
Lemma probe_files_nodup m : NoDup (probe_files m).
Proof. unfold probe_files. cbn. repeat (constructor; [cbn; intuition discriminate|]). constructor. Qed.
Lemma nodup_prefix {A} (a b : list A) : NoDup (a ++ b) -> NoDup a.
Proof. induction a as [|x a IH]; intro D; [constructor|]. inversion D as [|? ? N D']; subst. constructor; [|auto]. intro J. apply N. apply in_or_app. now left. Qed.
Section Search.
  Variables (head : heads) (m : fc_model) (today : date).
  Hypotheses (M : dwd_model m) (V : valid_date today).
  Definition plain_name (name : string) : Prop := contains "/" name = false.
  Lemma probe_same name name' u : plain_name name -> plain_name name' -> probe m today name u -> probe m today name' u -> name = name'.
  Proof.
    intros N N' (f & P & E) (f' & P' & E').
    assert (O : forall f, probed m f -> dwd_file_ok f) by (intros g G; pose proof (probe_files_ok m) as F; rewrite Forall_forall in F; apply F; now apply probe_files_in).
    destruct (c49_injective_proof (run_of m today name) (run_of m today name') f f' u) as [R _]; [split; assumption..|auto|auto|exact E|exact E'|]. now injection R.
  Qed.
  Lemma urls_nodup name urls : plain_name name -> Forall2 (fun f u => dwd_url (run_of m today name) f = Ok u) (probe_files m) urls -> NoDup urls.
  Proof.
    intros N F. pose proof (probe_files_nodup m) as D. pose proof (probe_files_ok m) as O. revert D O. induction F as [|f u fs us E F IH]; intros D O; [constructor|].
    inversion D as [|? ? D1 D2]; subst. inversion O as [|? ? O1 O2]; subst. constructor; [|auto]. intro J. apply D1. apply In_nth_error in J. destruct J as [i J].
    assert (X : exists f', nth_error fs i = Some f' /\ dwd_url (run_of m today name) f' = Ok u).
    { clear -F J. revert i J. induction F as [|g v fs us E F IH]; intros [|i] J; try discriminate; [injection J as ->; now exists g|now apply IH]. }
    destruct X as (f' & J' & E'). apply nth_error_In in J'. rewrite Forall_forall in O2.
    destruct (c49_injective_proof (run_of m today name) (run_of m today name) f f' u) as [_ R]; [split; assumption..|exact O1|auto|exact E|exact E'|]. now subst f'.
  Qed.
  (** What is asked for in the search among these runs, as the [n]-th request and following. *)
  Definition searched (names : list string) (n : nat) (hs : list string) (o : option fc_run) : Prop :=
    NoDup hs /\ (List.length hs <= 10 * List.length names)%nat /\
    (forall i j u v name, (i < j)%nat -> nth_error hs i = Some u -> nth_error hs j = Some v -> plain_name name -> probe m today name u -> head (n + i)%nat u <> Some 200 -> ~ probe m today name v) /\
    match o with
    | Some run => exists l1 name l2, names = l1 ++ name :: l2 /\ run = run_of m today name /\
        (forall u, In u hs -> exists name', In name' (l1 ++ [name]) /\ probe m today name' u) /\
        (forall name', In name' l1 -> exists i u, nth_error hs i = Some u /\ probe m today name' u /\ head (n + i)%nat u <> Some 200) /\
        (forall u, probe m today name u -> exists i, nth_error hs i = Some u /\ head (n + i)%nat u = Some 200)
    | None => (forall u, In u hs -> exists name', In name' names /\ probe m today name' u) /\
        (forall name', In name' names -> exists i u, nth_error hs i = Some u /\ probe m today name' u /\ head (n + i)%nat u <> Some 200)
    end.
  Lemma search_spec names : NoDup names -> Forall plain_name names -> forall n, exists hs o,
    l_find_run head n m today names = (map AskHead hs, Ok o) /\ searched names n hs o.
  Proof.
    induction names as [|name names IH]; intros D P n.
    - exists [], None. split; [reflexivity|]. split; [constructor|]. split; [cbn; lia|]. split; [intros [|i] j u v name _ E; discriminate E|]. split; intros ? [].
    - inversion D as [|? ? D1 D2]; subst. inversion P as [|? ? P1 P2]; subst. cbn [l_find_run]. cbv zeta. fold (run_of m today name).
      destruct (probe_urls_spec m today name M) as (urls & E & _ & _). rewrite E. pose proof (probe_urls_files _ _ _ _ E) as F.
      assert (Len : List.length urls = 10%nat) by (change 10%nat with (List.length (probe_files m)); clear -F; induction F; cbn; congruence).
      assert (In1 : forall u, In u urls -> probe m today name u).
      { intros u J. apply In_nth_error in J. destruct J as [i J]. clear -F J. assert (X : exists f, In f (probe_files m) /\ dwd_url (run_of m today name) f = Ok u).
        { revert i J. induction F as [|g v fs us E F IH]; intros [|i] J; try discriminate; [injection J as ->; exists g; split; [now left|exact E]|]. destruct (IH i J) as (f & A & B). exists f. split; [now right|exact B]. }
        destruct X as (f & A & B). exists f. split; [now apply probe_files_in|exact B]. }
      assert (In2 : forall u, probe m today name u -> In u urls).
      { intros u (f & A & B). apply probe_files_in in A. clear -F A B. induction F as [|g v fs us E F IH]; [destruct A|]. destruct A as [->|A]; [left; congruence|right; auto]. }
      pose proof (urls_nodup _ _ P1 F) as ND. destruct (l_found_spec head urls n) as (k & Lf & Sn & B & Last & All). destruct (all_found head n urls) as [found n'] eqn:AF. cbn [fst snd] in *. subst n'.
      destruct found.
      + destruct (All eq_refl) as [-> G]. rewrite firstn_all in Lf. exists urls, (Some (run_of m today name)). rewrite Lf. split; [reflexivity|]. split; [exact ND|]. split; [cbn [List.length]; lia|]. split.
        * intros i j u v name' _ J _ _ _ N. rewrite (G _ _ J) in N. contradiction.
        * exists [], name, names. split; [reflexivity|]. split; [reflexivity|]. split; [intros u J; exists name; split; [now left|auto]|]. split; [intros ? []|].
          intros u Pu. apply In2, In_nth_error in Pu. destruct Pu as [i J]. exists i. split; [exact J|exact (G _ _ J)].
      + assert (NF : exists i u, nth_error (firstn k urls) i = Some u /\ head (n + i)%nat u <> Some 200).
        { clear -AF Lf. assert (X : fst (all_found head n urls) = false) by now rewrite AF. clear AF. revert n k Lf X. induction urls as [|u urls IH]; intros n k Lf X; [discriminate X|].
          cbn [all_found l_found] in *. destruct k as [|k]; [discriminate Lf|]. cbn [firstn map] in Lf. destruct (head n u) as [s|] eqn:H; [destruct (Z.eqb_spec s 200) as [->|N]|].
          - injection Lf as Lf. destruct (IH (Datatypes.S n) k Lf X) as (i & v & J & K). exists (Datatypes.S i), v. split; [exact J|]. now replace (n + Datatypes.S i)%nat with (Datatypes.S n + i)%nat by lia.
          - exists 0%nat, u. split; [reflexivity|]. rewrite Nat.add_0_r. congruence.
          - exists 0%nat, u. split; [reflexivity|]. rewrite Nat.add_0_r. congruence. }
        destruct (IH D2 P2 (n + k)%nat) as (hs & o & Lr & ND' & Len' & Once & O). rewrite Lr, Lf. exists (firstn k urls ++ hs), o. split; [now rewrite map_app|].
        assert (LK : List.length (firstn k urls) = k) by (rewrite firstn_length; lia).
        assert (Sub : forall u, In u (firstn k urls) -> probe m today name u).
        { intros u J. apply In1. rewrite <- (firstn_skipn k urls). apply in_or_app. now left. }
        assert (Rest : forall u, In u hs -> exists name', In name' names /\ probe m today name' u).
        { intros u J. destruct o as [run|].
          - destruct O as (l1 & nm & l2 & -> & _ & O & _). destruct (O u J) as (name' & Jn & Pn). exists name'. split; [|exact Pn]. apply in_app_or in Jn. apply in_or_app. destruct Jn as [Jn|[<-|[]]]; [now left|right; now left].
          - destruct O as [O _]. exact (O u J). }
        assert (Diff : forall u, In u hs -> ~ probe m today name u).
        { intros u J Q. destruct (Rest u J) as (name' & Jn & Pn). rewrite Forall_forall in P2. apply D1. now rewrite (probe_same name name' u P1 (P2 _ Jn) Q Pn). }
        assert (Nth : forall i u, nth_error hs i = Some u -> nth_error (firstn k urls ++ hs) (k + i) = Some u).
        { intros i u J. rewrite nth_error_app2 by lia. rewrite LK. now replace (k + i - k)%nat with i by lia. }
        split; [|split; [|split]].
        * clear -ND ND' Diff Sub. assert (NDk : NoDup (firstn k urls)) by (rewrite <- (firstn_skipn k urls) in ND; now apply nodup_prefix in ND).
          induction (firstn k urls) as [|u us IHu]; [exact ND'|]. inversion NDk as [|? ? A1 A2]; subst. cbn [app]. constructor; [|apply IHu; [intros v J; apply Sub; now right|exact A2]].
          intro J. apply in_app_or in J. destruct J as [J|J]; [contradiction|]. apply (Diff u J). apply Sub. now left.
        * rewrite app_length, LK. cbn [List.length]. lia.
        * intros i j u v name' Lt Ju Jv Pn Pu N Pv. destruct (Nat.lt_ge_cases i k) as [Li|Li].
          -- rewrite nth_error_app1 in Ju by lia. pose proof (Last i u Ju N) as ->. rewrite nth_error_app2 in Jv by lia. apply nth_error_In in Jv. apply nth_error_In in Ju.
             apply (Diff v Jv). now rewrite (probe_same name name' u P1 Pn (Sub _ Ju) Pu).
          -- rewrite nth_error_app2 in Ju, Jv by lia. rewrite LK in *. apply (Once (i - k)%nat (j - k)%nat u v name'); try assumption; [lia|]. now replace (n + k + (i - k))%nat with (n + i)%nat by lia.
        * assert (Mine : exists i u, nth_error (firstn k urls ++ hs) i = Some u /\ probe m today name u /\ head (n + i)%nat u <> Some 200).
          { destruct NF as (i & u & J & N). exists i, u. split; [|split; [apply Sub; now apply nth_error_In in J|exact N]]. rewrite nth_error_app1; [exact J|]. apply nth_error_Some. congruence. }
          assert (Their : forall name', (exists i u, nth_error hs i = Some u /\ probe m today name' u /\ head (n + k + i)%nat u <> Some 200) ->
            exists i u, nth_error (firstn k urls ++ hs) i = Some u /\ probe m today name' u /\ head (n + i)%nat u <> Some 200).
          { intros name' (i & u & J & Q & N). exists (k + i)%nat, u. rewrite Nat.add_assoc. auto. }
          destruct o as [run|].
          -- destruct O as (l1 & nm & l2 & -> & R & O1 & O2 & O3). exists (name :: l1), nm, l2. split; [reflexivity|]. split; [exact R|]. split; [|split].
             ++ intros u J. apply in_app_or in J. destruct J as [J|J]; [exists name; split; [now left|auto]|]. destruct (O1 u J) as (name' & A & B'). exists name'. split; [now right|exact B'].
             ++ intros name' [<-|J]; [exact Mine|]. apply Their. now apply O2.
             ++ intros u Q. destruct (O3 u Q) as (i & J & N). exists (k + i)%nat. rewrite Nat.add_assoc. auto.
          -- destruct O as [O1 O2]. split.
             ++ intros u J. apply in_app_or in J. destruct J as [J|J]; [exists name; split; [now left|auto]|]. destruct (O1 u J) as (name' & A & B'). exists name'. split; [now right|exact B'].
             ++ intros name' [<-|J]; [exact Mine|]. apply Their. now apply O2.
  Qed.
End Search.

(** *** How often *)
Lemma file_dec (f g : dwd_file) : {f = g} + {f <> g}.
Proof. decide equality; try apply Z.eq_dec; decide equality. Defined.
Notation count := (count_occ file_dec).
Lemma count_once l f : NoDup l -> (count l f <= 1)%nat. Proof. intro D. now apply NoDup_count_occ. Qed.
Lemma count_none l f : ~ In f l -> count l f = 0%nat. Proof. apply count_occ_not_In. Qed.
Definition of_single (v : single_var) (f : dwd_file) : nat := match f with SingleFile w _ => if String.eqb (single_lower v) (single_lower w) then 1 else 0 | _ => 0 end.
Definition of_level (v : level_var) (f : dwd_file) : nat := match f with LevelFile w _ _ => if String.eqb (level_lower v) (level_lower w) then 1 else 0 | _ => 0 end.
Definition of_height (f : dwd_file) : nat := match f with HeightFile _ => 1 | _ => 0 end.
Lemma nodup_map_inj {A B} (g : A -> B) l : (forall a b, g a = g b -> a = b) -> NoDup l -> NoDup (map g l).
Proof. intros I D. induction D as [|a l N D IH]; [constructor|]. cbn [map]. constructor; [|exact IH]. intro J. apply in_map_iff in J. destruct J as (b & E & J). apply I in E. now subst b. Qed.
Lemma count_single v (h : Z -> Z) ns f : (forall a b, h a = h b -> a = b) -> NoDup ns -> (count (map (fun n => SingleFile v (h n)) ns) f <= of_single v f)%nat.
Proof.
  intros I D. unfold of_single. destruct f as [w n|w n l|l].
  - destruct (String.eqb_spec (single_lower v) (single_lower w)) as [E|E].
    + apply count_once. apply nodup_map_inj; [|exact D]. intros a b X. injection X as X. auto.
    + rewrite count_none; [lia|]. intro J. apply in_map_iff in J. destruct J as (k & X & _). injection X as -> _. contradiction.
  - rewrite count_none; [lia|]. intro J. apply in_map_iff in J. destruct J as (k & X & _). discriminate X.
  - rewrite count_none; [lia|]. intro J. apply in_map_iff in J. destruct J as (k & X & _). discriminate X.
Qed.
Lemma nodup_app {A} (a b : list A) : NoDup a -> NoDup b -> (forall x, In x a -> ~ In x b) -> NoDup (a ++ b).
Proof.
  induction a as [|x a IH]; intros D E N; [exact E|]. inversion D as [|? ? D1 D2]; subst. cbn [app]. constructor; [|apply IH; [exact D2|exact E|]; intros y J; apply N; now right].
  intro J. apply in_app_or in J. destruct J as [J|J]; [contradiction|]. exact (N x (or_introl eq_refl) J).
Qed.
Lemma count_level v ls ns f : NoDup ns -> NoDup ls -> (count (flat_map (fun n => map (LevelFile v n) ls) ns) f <= of_level v f)%nat.
Proof.
  intros D L. unfold of_level. assert (I : forall g, In g (flat_map (fun n => map (LevelFile v n) ls) ns) -> exists n l, g = LevelFile v n l /\ In n ns).
  { intros g J. apply in_flat_map in J. destruct J as (n & Jn & J). apply in_map_iff in J. destruct J as (l & <- & _). now exists n, l. }
  destruct f as [w n|w n l|l].
  - rewrite count_none; [lia|]. intro J. destruct (I _ J) as (? & ? & X & _). discriminate X.
  - destruct (String.eqb_spec (level_lower v) (level_lower w)) as [E|E].
    + apply count_once. clear I. induction D as [|k ns N D IH]; [constructor|]. cbn [flat_map]. apply nodup_app; [|exact IH|].
      * apply nodup_map_inj; [|exact L]. intros a b X. now injection X.
      * intros x J K. apply in_map_iff in J. destruct J as (a & <- & _). apply in_flat_map in K. destruct K as (k' & Jk & K). apply in_map_iff in K. destruct K as (b & X & _). injection X as -> _. contradiction.
    + rewrite count_none; [lia|]. intro J. destruct (I _ J) as (? & ? & X & _). injection X as -> _ _. contradiction.
  - rewrite count_none; [lia|]. intro J. destruct (I _ J) as (? & ? & X & _). discriminate X.
Qed.
Lemma count_height ls f : NoDup ls -> (count (map HeightFile ls) f <= of_height f)%nat.
Proof.
  intro D. unfold of_height. destruct f as [w n|w n l|l].
  - rewrite count_none; [lia|]. intro J. apply in_map_iff in J. destruct J as (k & X & _). discriminate X.
  - rewrite count_none; [lia|]. intro J. apply in_map_iff in J. destruct J as (k & X & _). discriminate X.
  - apply count_once. apply nodup_map_inj; [|exact D]. intros a b X. now injection X.
Qed.
Lemma count_if b l f n : (count l f <= n)%nat -> (count (only_if b l) f <= n)%nat. Proof. destruct b; cbn; lia. Qed.
Lemma run_steps_nodup steps run : NoDup (run_steps steps run). Proof. apply NoDup_filter, TileProofs.nodup_range. Qed.
Definition fetches (f : dwd_file) : nat := match f with SingleFile ClctMod _ => 2 | SingleFile TotPrec _ => 2 | _ => 1 end.
Lemma count_files variables steps run f : (count (dwd_files variables steps run) f <= fetches f)%nat.
Proof.
  unfold dwd_files. rewrite !count_occ_app. pose proof (run_steps_nodup steps run) as D. assert (L : NoDup (run_levels run)) by apply TileProofs.nodup_range.
  assert (S : forall v, (count (map (SingleFile v) (run_steps steps run)) f <= of_single v f)%nat) by (intro v; apply (count_single v (fun n => n)); auto).
  assert (S1 : (count (map (fun n => SingleFile TotPrec (n - 1)) (run_steps steps run)) f <= of_single TotPrec f)%nat) by (apply (count_single TotPrec (fun n => n - 1)); [intros a b X; lia|exact D]).
  assert (T : forall v, (count (flat_map (fun n => map (LevelFile v n) (run_levels run)) (run_steps steps run)) f <= of_level v f)%nat) by (intro v; apply count_level; auto).
  pose proof (count_height (run_levels run) f L) as H.
  assert (C1 : (count (layer_files steps run CloudPrecip) f <= of_single ClctMod f + of_single ClctMod f + of_single TotPrec f + of_single TotPrec f + of_single Ceiling f + of_single Ww f)%nat).
  { cbn [layer_files]. rewrite !count_occ_app. pose proof (S ClctMod). pose proof (S TotPrec). pose proof (S Ceiling). pose proof (S Ww). lia. }
  assert (C2 : (count (layer_files steps run Wind10m) f <= of_single U10m f + of_single V10m f + of_single Vmax10m f)%nat).
  { cbn [layer_files]. rewrite !count_occ_app. pose proof (S U10m). pose proof (S V10m). pose proof (S Vmax10m). lia. }
  pose proof (S T2m) as C3. pose proof (T Clc) as C4.
  assert (C5 : (count (layer_files steps run VerticalWind) f <= of_level UWind f + of_level VWind f)%nat).
  { cbn [layer_files]. rewrite !count_occ_app. pose proof (T UWind). pose proof (T VWind). lia. }
  apply (count_if (is_named variables CloudPrecip)) in C1. apply (count_if (is_named variables Wind10m)) in C2. apply (count_if (is_named variables Temp2m)) in C3.
  apply (count_if (is_named variables VerticalCloud || is_named variables VerticalWind)) in H. apply (count_if (is_named variables VerticalCloud)) in C4. apply (count_if (is_named variables VerticalWind)) in C5.
  change (map (SingleFile T2m) (run_steps steps run)) with (layer_files steps run Temp2m) in C3.
  change (flat_map (fun n => map (LevelFile Clc n) (run_levels run)) (run_steps steps run)) with (layer_files steps run VerticalCloud) in C4.
  eapply Nat.le_trans; [repeat apply Nat.add_le_mono; eassumption|]. clear. destruct f as [v n|v n l|l]; [destruct v|destruct v|]; cbn; lia.
Qed.
Lemma run_steps_in steps run n : In n (run_steps steps run) -> 2 <= n.
Proof. intro J. apply filter_In in J. destruct J as [J _]. apply TileProofs.in_range in J. lia. Qed.
Lemma run_levels_in run l : In l (run_levels run) -> 0 <= l.
Proof. intro J. apply TileProofs.in_range in J. destruct (run_model run); cbn in J; lia. Qed.
Lemma files_ok variables steps run : Forall dwd_file_ok (dwd_files variables steps run).
Proof.
  assert (I : forall b (l : list dwd_file), Forall dwd_file_ok l -> Forall dwd_file_ok (only_if b l)) by (intros [] l H; [exact H|constructor]).
  assert (S : forall v, Forall dwd_file_ok (map (SingleFile v) (run_steps steps run))).
  { intro v. apply Forall_forall. intros f J. apply in_map_iff in J. destruct J as (n & <- & J). apply run_steps_in in J. cbn. lia. }
  assert (T : forall v, Forall dwd_file_ok (flat_map (fun n => map (LevelFile v n) (run_levels run)) (run_steps steps run))).
  { intro v. apply Forall_forall. intros f J. apply in_flat_map in J. destruct J as (n & Jn & J). apply in_map_iff in J. destruct J as (l & <- & J). apply run_steps_in in Jn. apply run_levels_in in J. cbn. lia. }
  unfold dwd_files. cbn [layer_files]. rewrite !Forall_app. repeat split; try apply I; rewrite ?Forall_app; repeat split; auto.
  - apply Forall_forall. intros f J. apply in_map_iff in J. destruct J as (n & <- & J). apply run_steps_in in J. cbn. lia.
  - apply Forall_forall. intros f J. apply in_map_iff in J. destruct J as (n & <- & J). apply run_levels_in in J. exact J.
Qed.
Lemma times_count run files f u : valid_run run -> dwd_file_ok f -> Forall dwd_file_ok files -> dwd_url run f = Ok u ->
  (List.length (filter (fun q => match q with AskFile v => String.eqb v u | _ => false end) (flat_map (files_asks run) files)) <= count files f)%nat.
Proof.
  intros V O F E. induction F as [|g files G F IH]; [cbn; lia|]. cbn [flat_map count_occ]. unfold files_asks at 1. destruct (dwd_url run g) as [v| |] eqn:Eg; cbn [app filter].
  - destruct (String.eqb_spec v u) as [->|N]; cbn [List.length].
    + destruct (c49_injective_proof run run g f u) as [_ ->]; auto. destruct (file_dec f f); [lia|contradiction].
    + destruct (file_dec g f); lia.
  - destruct (file_dec g f); lia.
  - destruct (file_dec g f); lia.
Qed.
Lemma some_filter p l qs : some_of l qs -> (List.length (filter p qs) <= List.length (filter p l))%nat.
Proof.
  intros [u P]. assert (Q : Permutation (filter p (qs ++ u)) (filter p l)).
  { clear -P. induction P; cbn [filter]; [constructor|destruct (p x); [now constructor|assumption]|destruct (p x), (p y); try constructor; reflexivity|etransitivity; eassumption]. }
  rewrite <- (Permutation_length Q), filter_app, app_length. lia.
Qed.

(** *** The call *)
Lemma run_names_facts : NoDup run_names_reversed /\ Forall plain_name run_names_reversed.
Proof.
  split; [apply NoDup_rev; repeat (constructor; [cbn; intuition discriminate|]); constructor|]. unfold run_names_reversed. cbn. repeat (constructor; [reflexivity|]). constructor.
Qed.
Lemma run_before_split name l1 l2 : run_names_reversed = l1 ++ name :: l2 -> run_before name (rev l1).
Proof.
  intro E. exists (rev l2). change ["00"%string; "03"%string; "06"%string; "09"%string; "12"%string; "15"%string; "18"%string; "21"%string] with run_names.
  rewrite <- (rev_involutive run_names). fold run_names_reversed. rewrite E, rev_app_distr. cbn [rev]. now rewrite <- app_assoc.
Qed.
Lemma run_before_in name later : run_before name later -> In name run_names_reversed.
Proof. intros [e E]. unfold run_names_reversed. apply in_rev. rewrite rev_involutive. unfold run_names. rewrite E. apply in_or_app. right. now left. Qed.
Lemma in_run_before name : In name run_names_reversed -> exists later, run_before name later.
Proof. intro J. apply in_split in J. destruct J as (l1 & l2 & E). exists (rev l1). now apply (run_before_split _ _ l2). Qed.
Lemma before_unique name later later' : run_before name later -> run_before name later' -> later = later'.
Proof.
  intros [e E] [e' E']. rewrite E in E'. assert (D : NoDup (e ++ name :: later)).
  { rewrite <- E. repeat (constructor; [cbn; intuition discriminate|]). constructor. }
  clear E. revert e' E' D. induction e as [|x e IH]; intros [|x' e'] E' D; cbn in E'.
  - now injection E'.
  - injection E' as -> ->. cbn in D. inversion D as [|? ? N _]; subst. exfalso. apply N. apply in_or_app. right. now left.
  - injection E' as -> E'. cbn in D. inversion D as [|? ? N _]; subst. exfalso. apply N. apply in_or_app. right. now left.
  - injection E' as -> E'. cbn in D. inversion D as [|? ? _ D']; subst. now apply (IH e').
Qed.
Lemma no_heads run files qs u : some_of (flat_map (files_asks run) files) qs -> ~ In (AskHead u) qs.
Proof.
  intros [r P] J. assert (K : In (AskHead u) (flat_map (files_asks run) files)) by (apply (Permutation_in _ P); apply in_or_app; now left).
  apply in_flat_map in K. destruct K as (f & _ & K). unfold files_asks in K. destruct (dwd_url run f); [destruct K as [K|[]]; discriminate K|destruct K..].
Qed.
Lemma asked_in q tr : In (Asked q) tr -> In q (asked tr).
Proof. intro J. apply in_flat_map. exists (Asked q). split; [exact J|now left]. Qed.
Lemma dwd_parts chk powi fetch m faulty head today today' model variables steps tr r : dwd_model model -> valid_date today ->
  l_dwd_render chk powi fetch m faulty head today today' model variables steps tr r ->
  exists hs rest run, tr = map Asked (map AskHead hs) ++ rest /\ find_latest_run head model today today' = Ok run /\ dwd_model (run_model run) /\
    (exists o, searched head model today run_names_reversed 0 hs o /\ run = match o with Some run => run | None => run_of IconD2 (prev_day today') "21" end) /\
    some_of (flat_map (files_asks run) (dwd_files variables steps run)) (asked rest) /\ (r = Ok tt -> exactly (flat_map (files_asks run) (dwd_files variables steps run)) (asked rest)).
Proof.
  intros M V (qs & o & rest & [Q O] & L & ->). destruct run_names_facts as [D P]. destruct (search_spec head model today M V run_names_reversed D P 0) as (hs & found & E & S).
  assert (F : find_latest_run head model today today' = o) by (unfold find_latest_run; now rewrite <- find_run_same, O).
  rewrite E in Q, O. cbn [fst snd omap] in Q, O. subst qs o. cbn [p_let] in L. exists hs, rest. eexists. split; [reflexivity|]. split; [exact F|]. split.
  - destruct found as [run|]; [|now left]. destruct S as (_ & _ & _ & l1 & name & l2 & _ & -> & _). exact M.
  - split; [exists found; split; [exact S|reflexivity]|]. exact (pl_dwd_selected chk powi fetch m faulty steps _ variables _ _ L).
Qed.
Lemma c79_dwd_proof : forall chk powi fetch m faulty head today today' model variables steps tr r,
  dwd_model model -> valid_date today -> l_dwd_render chk powi fetch m faulty head today today' model variables steps tr r ->
  exists hs rest run L, tr = map Asked (map AskHead hs) ++ rest /\ (forall u, ~ In (Asked (AskHead u)) rest) /\ find_latest_run head model today today' = Ok run /\
    asks_for run (dwd_files variables steps run) L /\ some_of L (asked rest) /\ (r = Ok tt -> exactly L (asked rest)).
Proof.
  intros chk powi fetch m faulty head today today' model variables steps tr r M V R. destruct (dwd_parts _ _ _ _ _ _ _ _ _ _ _ _ _ M V R) as (hs & rest & run & E & F & MR & _ & S & X).
  exists hs, rest, run. eexists. split; [exact E|]. split; [intros u J; exact (no_heads _ _ _ u S (asked_in _ _ J))|]. split; [exact F|]. split; [now apply files_asks_for|]. now split.
Qed.
Lemma c79_search_proof : forall chk powi fetch m faulty head today today' model variables steps tr r,
  dwd_model model -> valid_date today -> l_dwd_render chk powi fetch m faulty head today today' model variables steps tr r ->
  exists hs rest run, tr = map Asked (map AskHead hs) ++ rest /\ (forall u, ~ In (Asked (AskHead u)) rest) /\ find_latest_run head model today today' = Ok run /\
    NoDup hs /\ (List.length hs <= 80)%nat /\
    (forall i j u v name later, run_before name later -> (i < j)%nat -> nth_error hs i = Some u -> nth_error hs j = Some v -> probe model today name u -> head i u <> Some 200 ->
      ~ probe model today name v) /\
    ((exists name later, run_before name later /\ run = run_of model today name /\
        (forall u, In u hs -> exists name', (name' = name \/ In name' later) /\ probe model today name' u) /\
        (forall name', In name' later -> exists i u, nth_error hs i = Some u /\ probe model today name' u /\ head i u <> Some 200) /\
        (forall u, probe model today name u -> exists i, nth_error hs i = Some u /\ head i u = Some 200)) \/
     (run = run_of IconD2 (prev_day today') "21" /\ (forall u, In u hs -> exists name later, run_before name later /\ probe model today name u) /\
        forall name later, run_before name later -> exists i u, nth_error hs i = Some u /\ probe model today name u /\ head i u <> Some 200)).
Proof.
  intros chk powi fetch m faulty head today today' model variables steps tr r M V R. destruct (dwd_parts _ _ _ _ _ _ _ _ _ _ _ _ _ M V R) as (hs & rest & run & E & F & MR & (o & S & O) & Y & _).
  exists hs, rest, run. split; [exact E|]. split; [intros u J; exact (no_heads _ _ _ u Y (asked_in _ _ J))|]. split; [exact F|]. destruct S as (D & L & Once & S). split; [exact D|]. split; [exact L|]. split.
  - intros i j u v name later B Lt Ju Jv Pu N. apply (Once i j u v name Lt Ju Jv); [|exact Pu|exact N]. pose proof (proj2 run_names_facts) as P. rewrite Forall_forall in P. apply P. exact (run_before_in _ _ B).
  - destruct o as [run'|].
    + left. destruct S as (l1 & name & l2 & E1 & R1 & S1 & S2 & S3). exists name, (rev l1). split; [exact (run_before_split _ _ _ E1)|]. split; [now subst|]. split; [|split; [|exact S3]].
      * intros u J. destruct (S1 u J) as (name' & A & B). exists name'. split; [|exact B]. apply in_app_or in A. destruct A as [A|[<-|[]]]; [right; now apply -> in_rev|now left].
      * intros name' J. apply S2. now apply in_rev.
    + right. destruct S as [S1 S2]. split; [exact O|]. split.
      * intros u J. destruct (S1 u J) as (name & A & B). destruct (in_run_before _ A) as [later C]. now exists name, later.
      * intros name later B. apply S2. exact (run_before_in _ _ B).
Qed.
Lemma c79_once_proof : forall chk powi fetch m faulty head today today' model variables steps tr r run f u,
  dwd_model model -> valid_date today -> valid_date (prev_day today') -> l_dwd_render chk powi fetch m faulty head today today' model variables steps tr r ->
  find_latest_run head model today today' = Ok run -> dwd_file_ok f -> dwd_url run f = Ok u ->
  (times_asked u tr <= match f with SingleFile ClctMod _ => 2 | SingleFile TotPrec _ => 2 | _ => 1 end)%nat.
Proof.
  intros chk powi fetch m faulty head today today' model variables steps tr r run f u M V V' R F' O E. destruct (dwd_parts _ _ _ _ _ _ _ _ _ _ _ _ _ M V R) as (hs & rest & run' & -> & F & _ & _ & S & _).
  rewrite F in F'. injection F' as ->. destruct (found_run _ _ _ _ _ M V V' F) as [VR _]. unfold times_asked. rewrite asked_app, asked_asked, filter_app, app_length.
  assert (Z : List.length (filter (fun q => match q with AskFile v => String.eqb v u | _ => false end) (map AskHead hs)) = 0%nat) by (clear; induction hs; [reflexivity|assumption]).
  rewrite Z. cbn [plus]. eapply Nat.le_trans; [apply (some_filter _ _ _ S)|]. eapply Nat.le_trans; [exact (times_count _ _ _ _ VR O (files_ok _ _ _) E)|]. apply count_files.
Qed.

(** *** Swiss service *)
Lemma number_nrs skip l : map st_nr (number_steps skip l) = map Z.of_nat (seq (if skip then 1 else 0) (List.length l - (if skip then 1 else 0))).
Proof.
  unfold number_steps. assert (G : forall k, skip = false \/ (1 <= k)%nat ->
    map st_nr (flat_map (fun '(i, s) => if negb skip || Nat.leb 1 i then [{| st_nr := Z.of_nat i; st_url := ss_href s |}] else []) (combine (seq k (List.length l)) l)) = map Z.of_nat (seq k (List.length l))).
  { induction l as [|f l IH]; intros k H; [reflexivity|]. cbn [List.length seq combine flat_map map]. rewrite map_app, IH by (destruct H; [now left|right; lia]).
    assert (B : negb skip || Nat.leb 1 k = true) by (destruct H as [->|H]; [reflexivity|apply orb_true_iff; right; now apply Nat.leb_le]). now rewrite B. }
  destruct skip.
  - destruct l as [|f l]; [reflexivity|]. clear G. cbn [List.length seq combine flat_map]. cbn [negb orb Nat.leb app]. rewrite Nat.sub_0_r || idtac. replace (Datatypes.S (List.length l) - 1)%nat with (List.length l) by lia.
    assert (G : forall k, (1 <= k)%nat -> map st_nr (flat_map (fun '(i, s) => if Nat.leb 1 i then [{| st_nr := Z.of_nat i; st_url := ss_href s |}] else []) (combine (seq k (List.length l)) l)) = map Z.of_nat (seq k (List.length l))).
    { clear f. induction l as [|f l IH]; intros k H; [reflexivity|]. cbn [List.length seq combine flat_map map]. rewrite map_app, IH by lia. now rewrite (proj2 (Nat.leb_le 1 k) H). }
    apply G. lia.
  - rewrite Nat.sub_0_r. apply G. now left.
Qed.
Lemma number_map steps skip l (G : nat -> list ask) :
  flat_map (fun s => only_if (is_wanted steps (st_nr s)) (G (Z.to_nat (st_nr s)))) (number_steps skip l) = flat_map G (steps_from (if skip then 1 else 0) steps l).
Proof.
  transitivity (flat_map (fun z => only_if (is_wanted steps z) (G (Z.to_nat z))) (map st_nr (number_steps skip l))); [now rewrite flat_map_map'|].
  rewrite number_nrs. unfold steps_from. generalize (List.length l - (if skip then 1 else 0))%nat as c. generalize (if skip then 1 else 0)%nat as k. intros k c. revert k.
  induction c as [|c IH]; intro k; [reflexivity|]. cbn [seq map flat_map filter]. rewrite IH, Nat2Z.id. now destruct (is_wanted steps (Z.of_nat k)).
Qed.
Section Swiss.
  Variables (chk : bool) (powi : f32 -> Z -> f32) (rfc3339 : rfc3339_parser) (sv : service) (m : libm) (faulty : bool) (steps : list Z) (u : ugrid) (t : datetime).
  Lemma ao_fetch_docs url : asks_only (l_fetch_docs chk (sv_fetch sv) url) [AskFile url]. Proof. apply ao_then_of, ao_ask. Qed.
  Lemma ao_swiss_single url : asks_only (l_swiss_single chk powi sv u url) [AskFile url]. Proof. apply ao_then_of, ao_then_of, ao_ask. Qed.
  Lemma ao_swiss_clct url : asks_only (l_swiss_clct chk powi sv u url) [AskFile url]. Proof. apply ao_then_of, ao_then_of, ao_ask. Qed.
  Lemma ao_swiss_multi missing transform url : asks_only (l_swiss_multi chk powi sv missing transform u url) [AskFile url].
  Proof. apply (ao_bind _ _ [AskFile url] []); [apply ao_fetch_docs|]. intro. apply ao_quiet. Qed.
  Lemma got skip l n s : step_by_nr (number_steps skip l) (Z.of_nat n) = Ok s -> get l n = [AskFile (st_url s)].
  Proof. intro H. destruct (lookup_ok _ _ _ _ H) as (f & E & _ & U & _). unfold get. now rewrite E, U. Qed.
  Lemma pl_swiss {L} skip l (read : fc_step -> logged L) body G :
    (forall n s, (skip = true -> (1 <= n)%nat) -> st_nr s = Z.of_nat n -> asks_only (read s) (G n)) ->
    plan (l_steps steps (number_steps skip l) read body) (flat_map G (steps_from (if skip then 1 else 0) steps l)).
  Proof.
    intro H. rewrite <- number_map. apply pl_steps. intros s J. apply number_in in J. destruct J as (i & f & _ & K & ->). cbn [st_nr]. rewrite Nat2Z.id. now apply H.
  Qed.
  Lemma call_files v skip q tr r : l_call (l_swiss_steps chk sv v t skip) q tr r ->
    exists l tr', asked tr = search t v :: asked tr' /\ ((files_of sv v t l /\ q (number_steps skip l) tr' r) \/ (r <> Ok tt /\ tr' = [])).
  Proof.
    intros (qs & o & tr' & F & L & ->). rewrite asked_app, asked_asked.
    assert (A : qs = [search t v] /\ forall ss, o = Ok ss -> exists l, files_of sv v t l /\ ss = number_steps skip l).
    { destruct F as (q1 & o1 & F & R). assert (X : q1 = [search t v] /\ find_files chk sv v t o1).
      { split; [|exact (proj1 (er_bind _ _ _ _ (er_ask _ _) (fun a => er_of _)) _ _ F)]. destruct F as (q2 & o2 & [-> _] & R2). unfold search.
        assert (E : swiss_request (Some (ref_name t)) None (Some (swiss_var_name v)) = file_request v t) by (destruct v; reflexivity). rewrite E in R2.
        destruct o2 as [x| |]; [destruct R2 as (q3 & [-> _] & ->); reflexivity|destruct R2; assumption..]. }
      destruct X as [-> X]. destruct o1 as [l| |].
      - destruct R as (q2 & [-> ->] & ->). split; [reflexivity|]. intros ss E. injection E as <-. exists l. split; [exact (files_found _ _ _ _ _ X)|reflexivity].
      - destruct R as [-> ->]. split; [reflexivity|discriminate].
      - destruct R as [-> ->]. split; [reflexivity|discriminate]. }
    destruct A as [-> A]. destruct o as [ss| |].
    - destruct (A _ eq_refl) as (l & Fl & ->). exists l, tr'. split; [reflexivity|]. left. split; [exact Fl|exact L].
    - destruct L as [-> ->]. exists [], []. split; [reflexivity|]. right. split; [discriminate|reflexivity].
    - destruct L as [-> ->]. exists [], []. split; [reflexivity|]. right. split; [discriminate|reflexivity].
  Qed.
  Definition layer_ok (ty : layer_type) (p : prog event) : Prop := forall tr r, p tr r ->
    exists L, layer_asks sv steps (r = Ok tt) t ty L /\ some_of L (asked tr) /\ (r = Ok tt -> exactly L (asked tr)).
  Lemma lo_run ty (q : fc_run -> prog event) : (exists L, layer_asks sv steps False t ty L) -> (forall run, layer_ok ty (q run)) -> layer_ok ty (p_let (swiss_run t) q).
  Proof.
    intros [L E] H tr r P. destruct (swiss_run t) as [run| |]; [exact (H run _ _ P)| |]; destruct P as [-> ->]; exists L; (split; [|split; [apply some_nil|discriminate]]);
      destruct E; constructor; unfold listed in *; intuition discriminate.
  Qed.
  Lemma none v : listed sv False t v []. Proof. right. split; [auto|reflexivity]. Qed.
  Lemma none' (r : outcome unit) v : r <> Ok tt -> listed sv (r = Ok tt) t v []. Proof. intro N. right. now split. Qed.
  Lemma first_of (a : ask) l qs : some_of l qs -> some_of (a :: l) (a :: qs).
  Proof. apply (some_app [a] l [a] qs). apply some_exact. apply Permutation_refl. Qed.
  Lemma lo_wind : layer_ok Wind10m (l_render_wind chk powi sv m faulty steps u t).
  Proof.
    apply lo_run; [eexists; apply (la_wind _ _ _ _ [] [] []); apply none|]. intros run tr r H.
    destruct (call_files _ _ _ _ _ H) as (us & t1 & -> & [[F1 H1]|[N ->]]); [|eexists; split; [apply (la_wind _ _ _ _ [] [] []); now apply none'|]; split; [apply first_of, some_nil|intro; contradiction]].
    destruct (call_files _ _ _ _ _ H1) as (vs & t2 & -> & [[F2 H2]|[N ->]]); [|eexists; split; [apply (la_wind _ _ _ _ [] [] []); now apply none'|]; split; [do 2 apply first_of; apply some_nil|intro; contradiction]].
    destruct (call_files _ _ _ _ _ H2) as (gs & t3 & -> & [[F3 H3]|[N ->]]); [|eexists; split; [apply (la_wind _ _ _ _ [] [] []); now apply none'|]; split; [do 3 apply first_of; apply some_nil|intro; contradiction]].
    eexists. split; [apply (la_wind _ _ _ _ us vs gs); now left|].
    assert (P : plan (l_steps steps (number_steps false us) (l_swiss_wind chk powi sv (number_steps false us) (number_steps false vs) (number_steps false gs) u) (wind_body chk m faulty run))
      (flat_map (fun n => get us n ++ get vs n ++ get gs n) (steps_from 0 steps us))).
    { apply (pl_swiss false). intros n s _ E. unfold l_swiss_wind. rewrite E. apply ao_bind_of. intros s1 E1. apply ao_bind_of. intros s2 E2. apply ao_bind_of. intros s3 E3.
      apply got in E1, E2, E3. rewrite E1, E2, E3. apply ao_bind; [apply ao_swiss_single|]. intro. apply ao_bind; [apply ao_swiss_single|]. intro. apply ao_then_of, ao_swiss_single. }
    destruct (P _ _ H3) as [P1 P2]. split; [do 3 apply first_of; exact P1|]. intro R. do 3 apply perm_skip. exact (P2 R).
  Qed.
  Lemma lo_temp : layer_ok Temp2m (l_render_temp chk powi sv m faulty steps u t).
  Proof.
    apply lo_run; [eexists; apply (la_temp _ _ _ _ []); apply none|]. intros run tr r H.
    destruct (call_files _ _ _ _ _ H) as (ts & t1 & -> & [[F1 H1]|[N ->]]); [|eexists; split; [apply (la_temp _ _ _ _ []); now apply none'|]; split; [apply first_of, some_nil|intro; contradiction]].
    eexists. split; [apply (la_temp _ _ _ _ ts); now left|].
    assert (P : plan (l_steps steps (number_steps false ts) (l_swiss_temp chk powi sv (number_steps false ts) u) (temp_body chk m faulty run)) (flat_map (get ts) (steps_from 0 steps ts))).
    { apply (pl_swiss false). intros n s _ E. unfold l_swiss_temp. rewrite E. apply ao_bind_of. intros s1 E1. apply unwrap_ok, got in E1. rewrite E1. apply ao_swiss_single. }
    destruct (P _ _ H1) as [P1 P2]. split; [apply first_of; exact P1|]. intro R. apply perm_skip. exact (P2 R).
  Qed.
  Lemma lo_vertical_cloud hhl : layer_ok VerticalCloud (l_render_vertical_cloud chk powi sv faulty steps u t hhl).
  Proof.
    apply lo_run; [eexists; apply (la_vertical_cloud _ _ _ _ []); apply none|]. intros run tr r H.
    destruct (call_files _ _ _ _ _ H) as (ts & t1 & -> & [[F1 H1]|[N ->]]); [|eexists; split; [apply (la_vertical_cloud _ _ _ _ []); now apply none'|]; split; [apply first_of, some_nil|intro; contradiction]].
    eexists. split; [apply (la_vertical_cloud _ _ _ _ ts); now left|].
    assert (P : plan (l_steps steps (number_steps false ts) (l_swiss_vertical_cloud chk powi sv (number_steps false ts) u hhl) (vertical_cloud_body faulty run)) (flat_map (get ts) (steps_from 0 steps ts))).
    { apply (pl_swiss false). intros n s _ E. unfold l_swiss_vertical_cloud. rewrite E. apply ao_bind_of. intros s1 E1. apply unwrap_ok, got in E1. rewrite E1. apply ao_then_of, ao_swiss_multi. }
    destruct (P _ _ H1) as [P1 P2]. split; [apply first_of; exact P1|]. intro R. apply perm_skip. exact (P2 R).
  Qed.
  Lemma lo_vertical_wind hhl : layer_ok VerticalWind (l_render_vertical_wind chk powi sv faulty steps u t hhl).
  Proof.
    apply lo_run; [eexists; apply (la_vertical_wind _ _ _ _ [] []); apply none|]. intros run tr r H.
    destruct (call_files _ _ _ _ _ H) as (us & t1 & -> & [[F1 H1]|[N ->]]); [|eexists; split; [apply (la_vertical_wind _ _ _ _ [] []); now apply none'|]; split; [apply first_of, some_nil|intro; contradiction]].
    destruct (call_files _ _ _ _ _ H1) as (vs & t2 & -> & [[F2 H2]|[N ->]]); [|eexists; split; [apply (la_vertical_wind _ _ _ _ [] []); now apply none'|]; split; [do 2 apply first_of; apply some_nil|intro; contradiction]].
    eexists. split; [apply (la_vertical_wind _ _ _ _ us vs); now left|].
    assert (P : plan (l_steps steps (number_steps false us) (l_swiss_vertical_wind chk powi sv (number_steps false us) (number_steps false vs) u hhl) (vertical_wind_body faulty run))
      (flat_map (fun n => get us n ++ get vs n) (steps_from 0 steps us))).
    { apply (pl_swiss false). intros n s _ E. unfold l_swiss_vertical_wind. rewrite E. apply ao_bind_of. intros s1 E1. apply ao_bind_of. intros s2 E2.
      apply unwrap_ok, got in E1. apply unwrap_ok, got in E2. rewrite E1, E2. apply ao_bind; [apply ao_swiss_multi|]. intro. apply ao_then_of, ao_swiss_multi. }
    destruct (P _ _ H2) as [P1 P2]. split; [do 2 apply first_of; exact P1|]. intro R. do 2 apply perm_skip. exact (P2 R).
  Qed.
  Lemma lo_cloud_precip : layer_ok CloudPrecip (l_render_cloud_precip chk powi sv m faulty steps u t).
  Proof.
    apply lo_run; [eexists; apply (la_cloud_precip _ _ _ _ [] [] []); apply none|]. intros run tr r H.
    destruct (call_files _ _ _ _ _ H) as (c & t1 & -> & [[F1 H1]|[N ->]]); [|eexists; split; [apply (la_cloud_precip _ _ _ _ [] [] []); now apply none'|]; split; [apply first_of, some_nil|intro; contradiction]].
    destruct (call_files _ _ _ _ _ H1) as (p & t2 & -> & [[F2 H2]|[N ->]]); [|eexists; split; [apply (la_cloud_precip _ _ _ _ [] [] []); now apply none'|]; split; [do 2 apply first_of; apply some_nil|intro; contradiction]].
    destruct (call_files _ _ _ _ _ H2) as (k & t3 & -> & [[F3 H3]|[N ->]]); [|eexists; split; [apply (la_cloud_precip _ _ _ _ [] [] []); now apply none'|]; split; [do 3 apply first_of; apply some_nil|intro; contradiction]].
    eexists. split; [apply (la_cloud_precip _ _ _ _ c p k); now left|].
    assert (P : plan (l_steps steps (number_steps true c) (l_swiss_cloud_precip_weather chk powi sv (number_steps true c) (number_steps false p) (number_steps false k) u) (cloud_precip_body chk m faulty run))
      (flat_map (fun n => get c n ++ get p (n - 1) ++ get p n ++ get c n ++ get k n) (steps_from 1 steps c))).
    { apply (pl_swiss true). intros n s B E. specialize (B eq_refl).
      apply (ao_perm _ ((get c n ++ get p (n - 1) ++ get p n) ++ get c n ++ get k n)); [rewrite <- !app_assoc; reflexivity|]. apply ao_bind.
      - unfold l_swiss_cloud_precip. rewrite E. apply ao_bind_of. intros s1 E1. apply ao_bind_of. intros b E2. unfold usub in E2. rewrite (proj2 (Z.leb_le 1 (Z.of_nat n))) in E2 by lia. injection E2 as <-.
        replace (Z.of_nat n - 1) with (Z.of_nat (n - 1)) by lia. apply ao_bind_of. intros s3 E3. apply ao_bind_of. intros s4 E4. apply unwrap_ok, got in E1. apply unwrap_ok, got in E3. apply unwrap_ok, got in E4. rewrite E1, E3, E4.
        apply ao_bind; [apply ao_swiss_clct|]. intro. apply ao_bind; [apply ao_swiss_single|]. intro. apply ao_then_of, ao_swiss_single.
      - intro. apply ao_then_of. unfold l_swiss_weather. rewrite E. apply ao_bind_of. intros s1 E1. apply ao_bind_of. intros s2 E2. apply unwrap_ok, got in E1. apply unwrap_ok, got in E2. rewrite E1, E2.
        apply ao_bind; [apply ao_swiss_clct|]. intro. apply ao_then_of, ao_swiss_single. }
    destruct (P _ _ H3) as [P1 P2]. split; [do 3 apply first_of; exact P1|]. intro R. do 3 apply perm_skip. exact (P2 R).
  Qed.
End Swiss.
Definition part (p : prog event) (Q : Prop -> list ask -> Prop) : Prop := forall tr r, p tr r -> exists L, Q (r = Ok tt) L /\ some_of L (asked tr) /\ (r = Ok tt -> exactly L (asked tr)).
Definition monotone (Q : Prop -> list ask -> Prop) : Prop := forall (all all' : Prop) L, all -> Q all L -> Q all' L.
Definition available (Q : Prop -> list ask -> Prop) : Prop := forall all : Prop, ~ all -> exists L, Q all L.
Definition both (Q R : Prop -> list ask -> Prop) (all : Prop) (L : list ask) : Prop := exists L1 L2, Q all L1 /\ R all L2 /\ L = L1 ++ L2.
Lemma part_then p q Q R : monotone Q -> available R -> part p Q -> part q R -> part (p_then p q) (both Q R).
Proof.
  intros MQ AR P P' tr r [[H N]|(t1 & t2 & -> & H1 & H2)].
  - destruct (P _ _ H) as (L & A & B & _). destruct (AR (r = Ok tt) N) as [L2 A2]. exists (L ++ L2). split; [now exists L, L2|]. split; [now apply some_left|intro; contradiction].
  - destruct (P _ _ H1) as (L1 & A1 & _ & C1). destruct (P' _ _ H2) as (L2 & A2 & B2 & C2). exists (L1 ++ L2). rewrite asked_app. split; [exists L1, L2; split; [exact (MQ _ _ _ eq_refl A1)|now split]|].
    split; [apply some_app; [apply some_exact; auto|exact B2]|]. intro E. apply exact_app; auto.
Qed.
Lemma part_call {A} (f : logged A) q L1 R : asks_only f L1 -> available R -> (forall a, part (q a) R) -> part (l_call f q) (both (fun _ L => L = L1) R).
Proof.
  intros F AR P tr r (qs & o & t & H & L & ->). rewrite asked_app, asked_asked. destruct (F _ _ H) as [F1 F2]. destruct o as [a| |].
  - destruct (P a _ _ L) as (L2 & A2 & B2 & C2). exists (L1 ++ L2). split; [now exists L1, L2|]. split; [now apply some_app|]. intro E. apply exact_app; eauto.
  - destruct L as [-> ->]. destruct (AR (Err e = Ok tt)) as [L2 A2]; [discriminate|]. exists (L1 ++ L2). split; [now exists L1, L2|]. split; [rewrite app_nil_r; now apply some_left|discriminate].
  - destruct L as [-> ->]. destruct (AR (Panic = Ok tt)) as [L2 A2]; [discriminate|]. exists (L1 ++ L2). split; [now exists L1, L2|]. split; [rewrite app_nil_r; now apply some_left|discriminate].
Qed.
Definition when (b : bool) (Q : Prop -> list ask -> Prop) (all : Prop) (L : list ask) : Prop := exists L0, (b = true -> Q all L0) /\ L = only_if b L0.
Lemma part_if b p Q : part p Q -> part (p_if b p) (when b Q).
Proof.
  intros P tr r H. destruct b; [destruct (P _ _ H) as (L & A & B); exists L; split; [now exists L|exact B]|]. destruct H as [-> ->]. exists []. split; [exists []; split; [discriminate|reflexivity]|].
  split; [apply some_nil|]. intros _. apply Permutation_refl.
Qed.
Lemma mono_when b Q : monotone Q -> monotone (when b Q). Proof. intros M all all' L H (L0 & A & E). exists L0. split; [intro X; exact (M _ _ _ H (A X))|exact E]. Qed.
Lemma avail_when b Q : available Q -> available (when b Q). Proof. intros M all N. destruct (M all N) as [L A]. exists (only_if b L), L. now split. Qed.
Lemma avail_both Q R : available Q -> available R -> available (both Q R). Proof. intros M M' all N. destruct (M all N) as [L A]. destruct (M' all N) as [L' A']. exists (L ++ L'). now exists L, L'. Qed.
Lemma mono_layer sv steps t ty : monotone (fun all => layer_asks sv steps all t ty).
Proof. intros all all' L H A. destruct A; constructor; unfold listed in *; tauto. Qed.
Lemma avail_layer sv steps t ty : ty <> Weather -> available (fun all => layer_asks sv steps all t ty).
Proof.
  intros N all A. assert (X : forall v, listed sv all t v []) by (intro v; right; now split).
  destruct ty; [eexists; apply (la_cloud_precip _ _ _ _ [] [] []); apply X|contradiction|eexists; apply (la_wind _ _ _ _ [] [] []); apply X|eexists; apply (la_temp _ _ _ _ []); apply X|
    eexists; apply (la_vertical_cloud _ _ _ _ []); apply X|eexists; apply (la_vertical_wind _ _ _ _ [] []); apply X].
Qed.
Lemma latest_request_same : swiss_request None (Some (horizon_name horizon_zero)) (Some (swiss_var_name ST2m)) = latest_request. Proof. reflexivity. Qed.
Lemma c79_swiss_proof : forall chk powi rfc3339 sv m faulty steps variables tr r, l_swiss_render chk powi rfc3339 sv m faulty steps variables tr r ->
  exists L, swiss_asks rfc3339 sv steps (r = Ok tt) variables L /\ some_of L (asked tr) /\ (r = Ok tt -> exactly L (asked tr)).
Proof.
  intros chk powi rfc sv m faulty steps variables tr r (q1 & o1 & tr1 & [-> A1] & R1 & ->). rewrite asked_app, asked_asked. cbn [app].
  destruct o1 as [assets| |]; cbn [p_let] in R1; [|destruct R1 as [-> ->]; exists [AskAssets]; (split; [apply sa_assets; discriminate|]); (split; [apply some_exact; apply Permutation_refl|discriminate])..].
  destruct (find_asset HOR_CONSTS_ID assets) as [hor|] eqn:H1; cbn [expect p_let] in R1;
    [|destruct R1 as [-> ->]; exists [AskAssets]; split; [apply sa_assets; discriminate|]; split; [apply some_exact; apply Permutation_refl|discriminate]].
  apply find_asset_first in H1. destruct R1 as (q2 & o2 & tr2 & F2 & R2 & ->). rewrite asked_app, asked_asked.
  assert (Q2 : asks_only (l_hor_consts chk powi sv (as_href hor)) [AskFile (as_href hor)]) by apply ao_then_of, ao_then_of, ao_ask. destruct (Q2 _ _ F2) as [S2 X2].
  assert (C2 : r <> Ok tt -> asked tr2 = [] -> exists L, swiss_asks rfc sv steps (r = Ok tt) variables L /\ some_of L (AskAssets :: q2 ++ asked tr2) /\ (r = Ok tt -> exactly L (AskAssets :: q2 ++ asked tr2))).
  { intros N ->. rewrite app_nil_r. exists [AskAssets; AskFile (as_href hor)]. split; [exact (sa_constants _ _ _ _ _ assets hor N A1 H1)|]. split; [now apply first_of|intro; contradiction]. }
  destruct o2 as [u| |]; cbn [p_let] in R2; [|destruct R2 as [-> ->]; apply C2; [discriminate|reflexivity]..].
  destruct (find_asset VERT_CONSTS_ID assets) as [vert|] eqn:H2; cbn [expect p_let] in R2; [|destruct R2 as [-> ->]; apply C2; [discriminate|reflexivity]].
  apply find_asset_first in H2. clear C2. specialize (X2 u eq_refl). apply Permutation_sym, Permutation_length_1_inv in X2. subst q2. cbn [app].
  destruct R2 as (q3 & o3 & tr3 & F3 & R3 & ->). rewrite asked_app, asked_asked.
  assert (Q3 : asks_only (l_latest_ref rfc sv) [AskSearch latest_request]) by (apply ao_then_of; apply ao_ask). destruct (Q3 _ _ F3) as [S3 X3].
  assert (E3 : find_latest_ref rfc sv o3) by exact (proj1 (er_bind _ _ _ _ (er_ask _ _) (fun a => er_of _)) _ _ F3).
  destruct o3 as [t| |]; cbn [p_let] in R3.
  2-3: destruct R3 as [-> ->]; exists [AskAssets; AskFile (as_href hor); AskSearch latest_request]; (split; [refine (sa_latest _ _ _ _ _ assets hor _ A1 H1); discriminate|]);
    cbn [asked flat_map]; rewrite app_nil_r; (split; [do 2 apply first_of; exact S3|discriminate]).
  specialize (X3 t eq_refl). apply Permutation_sym, Permutation_length_1_inv in X3. subst q3. cbn [app]. apply (proj1 (latest_spec _ _ _)) in E3.
  assert (AL : forall ty, ty <> Weather -> available (fun all => layer_asks sv steps all t ty)) by (intros; now apply avail_layer).
  assert (P : part (l_selected variables (l_render_cloud_precip chk powi sv m faulty steps u t) (l_render_wind chk powi sv m faulty steps u t) (l_render_temp chk powi sv m faulty steps u t)
        (l_swiss_multi chk powi sv HHL_MISSING hhl_transform u (as_href vert)) (l_render_vertical_cloud chk powi sv faulty steps u t) (l_render_vertical_wind chk powi sv faulty steps u t))
    (both (when (selected variables CloudPrecip) (fun all => layer_asks sv steps all t CloudPrecip)) (both (when (selected variables Wind10m) (fun all => layer_asks sv steps all t Wind10m))
    (both (when (selected variables Temp2m) (fun all => layer_asks sv steps all t Temp2m)) (when (selected variables VerticalCloud || selected variables VerticalWind)
      (both (fun _ L => L = []) (both (fun _ L => L = [AskFile (as_href vert)]) (both (when (selected variables VerticalCloud) (fun all => layer_asks sv steps all t VerticalCloud))
        (when (selected variables VerticalWind) (fun all => layer_asks sv steps all t VerticalWind)))))))))).
  { assert (NL : forall l0 : list ask, available (fun _ L => L = l0)) by (intros l0 all _; now exists l0).
    unfold l_selected. repeat (apply part_then; [apply mono_when, mono_layer|repeat first [apply avail_when|apply avail_both]; first [apply NL|apply AL; discriminate]|apply part_if; first [apply lo_cloud_precip|apply lo_wind|apply lo_temp]|]).
    apply part_if. apply part_then; [intros ? ? ? ? E; exact E|repeat first [apply avail_when|apply avail_both]; first [apply NL|apply AL; discriminate]| |].
    - intros tr' r' [-> ->]. exists []. split; [reflexivity|]. split; [apply some_nil|intros _; apply Permutation_refl].
    - apply part_call; [apply ao_swiss_multi|repeat first [apply avail_when|apply avail_both]; apply AL; discriminate|]. intro hhl.
      apply part_then; [apply mono_when, mono_layer|apply avail_when; apply AL; discriminate|apply part_if, lo_vertical_cloud|apply part_if, lo_vertical_wind]. }
  destruct (P _ _ R3) as (L & (l1 & lr & (cp & C1 & ->) & (l2 & lr2 & (wi & C2 & ->) & (l3 & lr3 & (te & C3 & ->) & (lv & CV & ->) & ->) & ->) & ->) & B1 & B2).
  assert (V : exists vc vw, (selected variables VerticalCloud = true -> layer_asks sv steps (r = Ok tt) t VerticalCloud vc) /\ (selected variables VerticalWind = true -> layer_asks sv steps (r = Ok tt) t VerticalWind vw) /\
    only_if (selected variables VerticalCloud || selected variables VerticalWind) lv = only_if (selected variables VerticalCloud || selected variables VerticalWind) [AskFile (as_href vert)] ++
      only_if (selected variables VerticalCloud) vc ++ only_if (selected variables VerticalWind) vw).
  { destruct (selected variables VerticalCloud || selected variables VerticalWind) eqn:B.
    - destruct (CV eq_refl) as (? & ? & -> & (? & ? & -> & (? & ? & (vc & D1 & ->) & (vw & D2 & ->) & ->) & ->) & ->). exists vc, vw. now repeat split.
    - apply orb_false_iff in B. destruct B as [-> ->]. exists [], []. repeat split; discriminate. }
  destruct V as (vc & vw & D1 & D2 & EV). rewrite EV in B1, B2. rewrite <- !named_same in *.
  eexists. split; [exact (sa_layers _ _ _ _ _ assets hor vert t cp wi te vc vw A1 H1 H2 E3 C1 C2 C3 D1 D2)|]. cbn [app]. split; [do 3 apply first_of; exact B1|]. intro E. do 3 apply perm_skip. exact (B2 E).
Qed.
Lemma c79_same_proof : forall w a t printed code, main w a t printed code <-> exists tr, l_main w a tr printed code /\ done tr = t.
Proof. intros w a t printed code. destruct (c79_shows_proof w a) as [A B]. split; [apply B|]. intros (tr & H & <-). now apply A. Qed.
Lemma c79_service_proof : forall w a tr printed code, l_main w a tr printed code ->
  (ar_model a = "icon-ch1"%string /\ (exists r, l_swiss_render (wo_chk w) (wo_powi w) (wo_rfc3339 w) (wo_service w) (wo_libm w) (wo_faulty w) (ar_steps a) (ar_variables a) tr r)) \/
  (exists model, (ar_model a = "icon-d2"%string /\ model = IconD2 \/ ar_model a = "icon-eu"%string /\ model = IconEu) /\
     exists r, l_dwd_render (wo_chk w) (wo_powi w) (wo_fetch w) (wo_libm w) (wo_faulty w) (wo_heads w) (wo_today w) (wo_today' w) model (ar_variables a) (ar_steps a) tr r) \/
  (~ In (ar_model a) ["icon-ch1"; "icon-d2"; "icon-eu"]%string /\ tr = []).
Proof.
  intros w a tr printed code H. unfold l_main in H. destruct (String.eqb (ar_model a) "icon-ch1") eqn:E1; [apply String.eqb_eq in E1; destruct H as (r & H & _); left; eauto|].
  destruct (String.eqb (ar_model a) "icon-d2") eqn:E2; [apply String.eqb_eq in E2; destruct H as (r & H & _); right; left; exists IconD2; eauto|].
  destruct (String.eqb (ar_model a) "icon-eu") eqn:E3; [apply String.eqb_eq in E3; destruct H as (r & H & _); right; left; exists IconEu; eauto|].
  right; right. destruct H as [-> _]. split; [|reflexivity]. apply String.eqb_neq in E1, E2, E3. cbn. intuition congruence.
Qed.
Lemma exact_filter p l qs : exactly l qs -> List.length (filter p qs) = List.length (filter p l).
Proof.
  intro P. apply Permutation_length. induction P; cbn [filter]; [constructor|destruct (p x); [now constructor|assumption]|destruct (p x), (p y); try constructor; reflexivity|etransitivity; eassumption].
Qed.
