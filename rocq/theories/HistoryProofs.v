(** Proofs about successive calls (C83). *)
From Coq Require Import Ascii String ZArith List Bool Lia Sorted Permutation.
From Verif Require Import Base F32 GeoModel Par TileModel ChartModel Text TextFacts TextSpec TextSpecProofs ForecastModel ForecastSpec FetchModel FetchSpec
  DwdModel DwdSpec DwdProofs OverlapSpec HistorySpec.
Import ListNotations.
Open Scope Z_scope.

(** ** The number of a day determines the day *)
Lemma year_step y k : days_before_year y + 365 * Z.of_nat k <= days_before_year (y + Z.of_nat k).
Proof.
  induction k as [|k IH]; [change (Z.of_nat 0) with 0; rewrite !Z.add_0_r; lia|].
  replace (y + Z.of_nat (S k)) with (y + Z.of_nat k + 1) by lia. rewrite is_leap_days. destruct (is_leap _); lia.
Qed.
Lemma dim_pos y m : 28 <= days_in_month y m.
Proof. unfold days_in_month. destruct (m =? 2), (is_leap y), ((m =? 4) || (m =? 6) || (m =? 9) || (m =? 11)); lia. Qed.
Lemma month_step y a k : days_before_month y a <= days_before_month y (k + a).
Proof. induction k as [|k IH]; [cbn; lia|]. cbn [plus days_before_month]. pose proof (dim_pos y (Z.of_nat (S (k + a)))). lia. Qed.
Lemma month_le y a b : (a <= b)%nat -> days_before_month y a <= days_before_month y b.
Proof. intro H. replace b with (b - a + a)%nat by lia. apply month_step. Qed.
(** The day within the year. *)
Definition in_year (d : date) : Z := days_before_month (year d) (Z.to_nat (month d - 1)) + (day d - 1).
Lemma in_month d : valid_date d -> days_before_month (year d) (Z.to_nat (month d - 1)) <= in_year d < days_before_month (year d) (Z.to_nat (month d)).
Proof.
  intros (Y & M & D). unfold in_year. replace (Z.to_nat (month d)) with (S (Z.to_nat (month d - 1))) by lia. cbn [days_before_month].
  replace (Z.of_nat (S (Z.to_nat (month d - 1)))) with (month d) by lia. lia.
Qed.
Lemma in_year_range d : valid_date d -> 0 <= in_year d < days_before_year (year d + 1) - days_before_year (year d).
Proof.
  intro V. pose proof (in_month d V) as I. destruct V as (Y & M & D).
  pose proof (month_le (year d) 0 (Z.to_nat (month d - 1)) ltac:(lia)) as L0. change (days_before_month (year d) 0) with 0 in L0.
  pose proof (month_le (year d) (Z.to_nat (month d)) 12 ltac:(lia)) as L1. rewrite days_in_year in L1. pose proof (is_leap_days (year d)). lia.
Qed.
Lemma day_number_inj d d' : valid_date d -> valid_date d' -> day_number d = day_number d' -> d = d'.
Proof.
  intros V V' E. pose proof (in_year_range d V) as R. pose proof (in_year_range d' V') as R'.
  unfold day_number in E. rewrite <- !Z.add_assoc in E. change (days_before_month (year d) (Z.to_nat (month d - 1)) + (day d - 1)) with (in_year d) in E.
  change (days_before_month (year d') (Z.to_nat (month d' - 1)) + (day d' - 1)) with (in_year d') in E.
  assert (Yl : forall a b, a < b -> days_before_year (a + 1) <= days_before_year b).
  { intros a b H. pose proof (year_step (a + 1) (Z.to_nat (b - (a + 1)))) as S. replace (a + 1 + Z.of_nat (Z.to_nat (b - (a + 1)))) with b in S by lia. lia. }
  assert (Ey : year d = year d').
  { destruct (Z.lt_trichotomy (year d) (year d')) as [H|[H|H]]; [|exact H|].
    - pose proof (Yl _ _ H). lia.
    - pose proof (Yl _ _ H). lia. }
  pose proof (in_month d V) as I. pose proof (in_month d' V') as I'. rewrite Ey in E.
  assert (Ei : in_year d = in_year d') by lia. rewrite <- Ey in I'. rewrite Ei in I.
  assert (Em : month d = month d').
  { destruct V as (_ & M & _), V' as (_ & M' & _). destruct (Z.lt_trichotomy (month d) (month d')) as [H|[H|H]]; [|exact H|].
    - pose proof (month_le (year d) (Z.to_nat (month d)) (Z.to_nat (month d' - 1)) ltac:(lia)). lia.
    - pose proof (month_le (year d) (Z.to_nat (month d')) (Z.to_nat (month d - 1)) ltac:(lia)). lia. }
  unfold in_year in Ei. rewrite <- Ey, Em in Ei. destruct d as [y mo da], d' as [y' mo' da']. cbn [year month day] in *. subst. f_equal. lia.
Qed.

(** ** The hours of the runs *)
Definition hour_of (name : string) : Z :=
  match find (fun p => String.eqb (fst p) name) [("00", 0); ("03", 3); ("06", 6); ("09", 9); ("12", 12); ("15", 15); ("18", 18); ("21", 21)]%string with
  | Some p => snd p | None => 0
  end.
Lemma hour_padded name : In name run_names -> padded 2 name (hour_of name) /\ 0 <= hour_of name <= 21.
Proof.
  intro J. cbn in J.
  assert (Q : forall s n, s = dec_pad 2 n -> 0 <= n <= 21 -> hour_of s = n -> padded 2 s (hour_of s) /\ 0 <= hour_of s <= 21).
  { intros s n Es B ->. subst s. split; [|exact B]. apply padded_dec_pad; [lia|lia|reflexivity]. }
  destruct J as [<-|[<-|[<-|[<-|[<-|[<-|[<-|[<-|[]]]]]]]]];
    [apply (Q _ 0)|apply (Q _ 3)|apply (Q _ 6)|apply (Q _ 9)|apply (Q _ 12)|apply (Q _ 15)|apply (Q _ 18)|apply (Q _ 21)]; first [lia|vm_compute; reflexivity].
Qed.
Lemma before_in name later : run_before name later -> In name run_names.
Proof. intros (e & E). unfold run_names. rewrite E. apply in_or_app. right. now left. Qed.
Lemma before_total name later name' later' : run_before name later -> run_before name' later' -> name = name' \/ In name later' \/ In name' later.
Proof.
  intros (e & E) (e' & E'). rewrite E in E'. clear -E'. revert e' E'. induction e as [|x e IHe]; intros [|x' e'] Q; cbn [app] in *; inversion Q; subst; auto.
  - right. right. apply in_or_app. right. now left.
  - right. left. apply in_or_app. right. now left.
  - eauto.
Qed.
Lemma later_hours name later name' : run_before name later -> In name' later -> hour_of name < hour_of name'.
Proof.
  intros (e & E) J.
  assert (S : StronglySorted (fun a b => hour_of a < hour_of b) (e ++ name :: later)).
  { rewrite <- E. repeat (apply SSorted_cons; [|repeat (apply Forall_cons; [vm_compute; reflexivity|]); apply Forall_nil]). apply SSorted_nil. }
  clear E. induction e as [|x e IH]; cbn [app] in S; inversion S as [|? ? S' F]; subst; [|exact (IH S')].
  rewrite Forall_forall in F. exact (F _ J).
Qed.
Definition hour (run : fc_run) : Z := 24 * day_number (run_date run) + hour_of (run_name run).

(** ** One call *)
Lemma not_first d : 1 <= day_number d -> (year d, month d, day d) <> (0, 1, 1).
Proof. intros H E. destruct d as [y m da]. cbn [year month day] in E. injection E as -> -> ->. vm_compute in H. congruence. Qed.
Lemma takes_cases m c run : dwd_model m -> possible c -> takes m c run ->
  (exists name later, run = run_of m (ca_begin c) name /\ run_before name later /\ complete_run (ca_heads c) run /\
     forall name', In name' later -> incomplete_run (ca_heads c) (run_of m (ca_begin c) name')) \/
  (run = run_of IconD2 (prev_day (ca_end c)) "21" /\ day_number (run_date run) = day_number (ca_end c) - 1 /\
     forall name later, run_before name later -> incomplete_run (ca_heads c) (run_of m (ca_begin c) name)).
Proof.
  intros M (V & V' & B) T. destruct (c50_latest_proof (ca_heads c) m (ca_begin c) (ca_end c) M) as (run' & F & H). unfold takes in T. rewrite F in T. injection T as ->.
  destruct H as [H|[-> H]]; [left; exact H|right]. split; [reflexivity|]. split; [|exact H]. cbn [run_of run_date].
  exact (proj2 (c50_yesterday_proof _ V' (not_first (ca_end c) ltac:(lia)))).
Qed.
Lemma takes_name m c run : dwd_model m -> possible c -> takes m c run -> In (run_name run) run_names.
Proof.
  intros M P T. destruct (takes_cases m c run M P T) as [(name & later & -> & B & _)|(-> & _)]; [exact (before_in _ _ B)|cbn; auto 10].
Qed.
Lemma takes_starts m c run : dwd_model m -> possible c -> takes m c run -> starts_at run (hour run).
Proof.
  intros M P T. destruct (hour_padded _ (takes_name m c run M P T)) as [H1 H2]. exists (hour_of (run_name run)). split; [exact H1|]. split; [lia|reflexivity].
Qed.
Lemma c83_recent_proof : forall m c run, dwd_model m -> possible c -> takes m c run ->
  exists h, starts_at run h /\ 24 * day_number (ca_begin c) - 3 <= h < 24 * (day_number (ca_end c) + 1).
Proof.
  intros m c run M P T. exists (hour run). split; [exact (takes_starts m c run M P T)|].
  destruct (hour_padded _ (takes_name m c run M P T)) as [_ H2]. pose proof P as (V & V' & B). unfold hour.
  destruct (takes_cases m c run M P T) as [(name & later & -> & _)|(-> & E & _)].
  - cbn [run_of run_date run_name] in *. lia.
  - rewrite E. change (hour_of (run_name (run_of IconD2 (prev_day (ca_end c)) "21"))) with 21. lia.
Qed.

(** ** Successive calls *)
Lemma not_back m c c' run run' : dwd_model m -> possible c -> possible c' -> follows m c c' -> takes m c run -> takes m c' run' -> hour run <= hour run'.
Proof.
  intros M P P' (L & K) T T'. pose proof P as (V & Ve & B). pose proof P' as (V' & Ve' & B').
  destruct (hour_padded _ (takes_name m c run M P T)) as [_ H1]. destruct (hour_padded _ (takes_name m c' run' M P' T')) as [_ H2]. unfold hour.
  destruct (takes_cases m c run M P T) as [(name & later & -> & Bn & C & I)|(-> & E & I)].
  - cbn [run_of run_date run_name] in *.
    assert (Q : ca_begin c = ca_begin c' -> ~ incomplete_run (ca_heads c') (run_of m (ca_begin c') name)).
    { intros Eq (f & u & n & Pf & Eu & N). cbn [run_of run_model] in Pf. destruct (C f Pf) as (u' & k & Eu' & Hk). rewrite <- Eq in Eu. fold (run_of m (ca_begin c) name) in Eu'. rewrite Eu in Eu'. injection Eu' as <-.
      exact (N (K Eq name f u k n Pf Eu Hk)). }
    assert (D : ca_begin c = ca_begin c' \/ day_number (ca_begin c) < day_number (ca_begin c')).
    { destruct (Z.eq_dec (day_number (ca_begin c)) (day_number (ca_begin c'))) as [Eq|Ne]; [left; exact (day_number_inj _ _ V V' Eq)|right; lia]. }
    destruct (takes_cases m c' run' M P' T') as [(name' & later' & -> & Bn' & C' & I')|(-> & E' & I')].
    + cbn [run_of run_date run_name] in *. destruct D as [Eq|Lt]; [|lia]. rewrite <- Eq.
      destruct (before_total _ _ _ _ Bn Bn') as [->|[J|J]]; [lia| |].
      * exfalso. exact (Q Eq (I' _ J)).
      * pose proof (later_hours _ _ _ Bn J). lia.
    + rewrite E'. change (hour_of (run_name (run_of IconD2 (prev_day (ca_end c')) "21"))) with 21. destruct D as [Eq|Lt]; [|lia].
      exfalso. exact (Q Eq (I' _ _ Bn)).
  - rewrite E. change (hour_of (run_name (run_of IconD2 (prev_day (ca_end c)) "21"))) with 21.
    destruct (takes_cases m c' run' M P' T') as [(name' & later' & -> & _)|(-> & E' & _)].
    + cbn [run_of run_date run_name] in *. lia.
    + rewrite E'. change (hour_of (run_name (run_of IconD2 (prev_day (ca_end c')) "21"))) with 21. lia.
Qed.
Lemma c83_forward_proof : forall m calls runs, dwd_model m -> Forall possible calls -> ForallOrdPairs (follows m) calls -> Forall2 (takes m) calls runs ->
  exists hours, Forall2 starts_at runs hours /\ StronglySorted Z.le hours.
Proof.
  intros m calls runs M P O T. exists (map hour runs). split.
  - clear O. induction T as [|c run calls runs H T IH]; [constructor|]. inversion P; subst. cbn [map]. constructor; [exact (takes_starts m c run M H2 H)|auto].
  - induction T as [|c run calls runs H T IH]; [constructor|]. inversion P as [|? ? Pc Pr]; subst. inversion O as [|? ? Oc Or]; subst. cbn [map]. constructor; [auto|].
    clear IH Or O P. induction T as [|c' run' calls runs H' T IH]; [constructor|]. inversion Pr as [|? ? Pc' Pr']; subst. inversion Oc as [|? ? Oc1 Oc']; subst. cbn [map]. constructor; [exact (not_back _ _ _ _ _ M Pc Pc' Oc1 H H')|auto].
Qed.
Lemma part_written chk powi fetch m faulty model c tr : dwd_model model -> possible c ->
  part_of (dwd_render_latest chk powi fetch m faulty (ca_heads c) (ca_begin c) (ca_end c) model (ca_vars c) (ca_steps c)) tr ->
  exists run, takes model c run /\ written_for tr (hour run).
Proof.
  intros M P (missed & r & R). pose proof P as (V & V' & B).
  destruct (c50_latest_proof (ca_heads c) model (ca_begin c) (ca_end c) M) as (run & F & _). exists run. split; [exact F|]. exists run.
  split; [exact (takes_starts model c run M P F)|]. intros e p J Ep.
  destruct (c54_dwd_paths_proof chk powi fetch m faulty (ca_heads c) (ca_begin c) (ca_end c) model (ca_vars c) (ca_steps c) (tr ++ missed) r e p M V
    (proj1 (c50_yesterday_proof _ V' (not_first (ca_end c) ltac:(lia)))) R (in_or_app _ _ _ (or_introl J)) Ep) as (run' & t & n & rest & F' & _ & _ & _ & ->).
  rewrite F in F'. injection F' as <-. exists (dec_pad 3 n ++ "/" ++ output_subdir t ++ "/" ++ rest)%string. unfold output_path. rewrite ?append_assoc. reflexivity.
Qed.
Lemma c83_written_proof : forall chk powi fetch m faulty model calls ts, dwd_model model -> Forall possible calls -> ForallOrdPairs (follows model) calls ->
  Forall2 (fun c tr => part_of (dwd_render_latest chk powi (fetch c) m faulty (ca_heads c) (ca_begin c) (ca_end c) model (ca_vars c) (ca_steps c)) tr) calls ts ->
  exists hours, Forall2 written_for ts hours /\ StronglySorted Z.le hours.
Proof.
  intros chk powi fetch m faulty model calls ts M P O T.
  assert (Q : exists runs, Forall2 (takes model) calls runs /\ Forall2 written_for ts (map hour runs)).
  { clear O. induction T as [|c tr calls ts H T IH]; [exists []; split; constructor|]. inversion P as [|? ? Pc Pr]; subst.
    destruct (IH Pr) as (runs & T1 & T2). destruct (part_written _ _ _ _ _ _ _ _ M Pc H) as (run & F & W). exists (run :: runs). split; constructor; assumption. }
  destruct Q as (runs & T1 & T2). exists (map hour runs). split; [exact T2|]. clear T T2.
  induction T1 as [|c run calls runs H T IH]; [constructor|]. inversion P as [|? ? Pc Pr]; subst. inversion O as [|? ? Oc Or]; subst. cbn [map]. constructor; [auto|].
  clear IH Or O P. induction T as [|c' run' calls runs H' T IH]; [constructor|]. inversion Pr as [|? ? Pc' Pr']; subst. inversion Oc as [|? ? Oc1 Oc']; subst. cbn [map]. constructor; [exact (not_back _ _ _ _ _ M Pc Pc' Oc1 H H')|auto].
Qed.
