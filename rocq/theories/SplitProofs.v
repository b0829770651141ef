From Coq Require Import String ZArith List Bool Lia.
From Verif Require Import Base Par ParFacts ImagingModel GeoModel TileModel ChartModel MetobinModel Text ForecastModel ForecastSpec FetchModel FetchSpec DwdModel DwdSpec SwissModel SwissSpec
  OverlapSpec OverlapProofs HistorySpec HistoryProofs SplitSpec.
Import ListNotations.
Open Scope Z_scope.

(** ** Contents can be compared *)
Lemma drawable_eq (d d' : drawable) : {d = d'} + {d <> d'}.
Proof. decide equality; [apply Z.eq_dec|apply Z.eq_dec|apply (list_eq_dec Z.eq_dec)]. Qed.
Lemma found_eq (c c' : option content) : {c = c'} + {c <> c'}.
Proof. decide equality. decide equality; [apply drawable_eq|apply (list_eq_dec drawable_eq)|apply (list_eq_dec Z.eq_dec)]. Qed.
(** Two outcomes that are both determined by what belongs to a file, or unchanged if nothing does. *)
Lemma both_determined (F F' : content -> Prop) (before a b : option content) : (forall c, F c <-> F' c) ->
  (forall c, F c -> a = Some c) -> ((forall c, ~ F c) -> a = before) -> (forall c, F' c -> b = Some c) -> ((forall c, ~ F' c) -> b = before) -> a = b.
Proof.
  intros I A1 A2 B1 B2. destruct (found_eq a b) as [E|N]; [exact E|]. exfalso.
  assert (X : forall c, ~ F c) by (intros c H; apply N; rewrite (A1 c H); symmetry; apply B1, I, H).
  apply N. rewrite (A2 X). symmetry. apply B2. intros c H. exact (X c (proj2 (I c) H)).
Qed.

(** ** German service *)
Lemma asked_wants calls run t n : asked calls run t n <-> wants calls t n /\ 2 <= n <= last_step (run_model run).
Proof.
  split.
  - intros (c & J & Nm & B & W). split; [exists c; auto|exact B].
  - intros [(c & J & Nm & W) B]. exists c. split; [exact J|]. split; [exact Nm|]. split; assumption.
Qed.
Lemma belongs_incl chk powi fetch m calls calls' run q c : (forall t n, asked calls run t n -> asked calls' run t n) ->
  belongs chk powi fetch m calls run q c -> belongs chk powi fetch m calls' run q c.
Proof.
  intros I H. destruct H.
  - eapply in_temp; eauto.
  - eapply in_wind with (u := u) (v := v) (gusts := gusts); eauto.
  - eapply in_cloud_precip with (clct := clct) (prec0 := prec0) (prec1 := prec1) (clct' := clct') (ceiling := ceiling) (ww := ww); eauto.
  - eapply in_vertical_cloud with (hhl := hhl) (clc := clc); eauto.
  - eapply in_vertical_wind with (hhl := hhl) (u := u) (v := v); eauto.
Qed.
Lemma same_program chk powi fetch m model run c c' vars steps : takes model c run -> takes model c' run ->
  dwd_render_latest chk powi fetch m false (ca_heads c) (ca_begin c) (ca_end c) model vars steps =
  dwd_render_latest chk powi fetch m false (ca_heads c') (ca_begin c') (ca_end c') model vars steps.
Proof. unfold takes, dwd_render_latest. intros -> ->. reflexivity. Qed.
Lemma possible_dates c : possible c -> valid_date (ca_begin c) /\ valid_date (prev_day (ca_end c)).
Proof. intros (V & V' & B). split; [exact V|]. exact (proj1 (DwdProofs.c50_yesterday_proof _ V' (not_first (ca_end c) ltac:(lia)))). Qed.
Lemma dwd_settles chk powi fetch m model run c0 calls ts tr : dwd_model model -> steady fetch -> possible c0 -> takes model c0 run ->
  Forall (fun c => possible c /\ takes model c run) calls ->
  Forall2 (fun c t => dwd_render_latest chk powi fetch m false (ca_heads c) (ca_begin c) (ca_end c) model (ca_vars c) (ca_steps c) t (Ok tt)) calls ts -> interleaving ts tr ->
  forall q, (forall c, belongs chk powi fetch m (map asks calls) run q c -> forall before, found_after q before tr = Some c) /\
            ((forall c, ~ belongs chk powi fetch m (map asks calls) run q c) -> forall before, found_after q before tr = before).
Proof.
  intros M St P0 T0 Al R L. destruct (possible_dates c0 P0) as [V V'].
  assert (R' : Forall2 (fun c t => dwd_render_latest chk powi fetch m false (ca_heads c0) (ca_begin c0) (ca_end c0) model (fst c) (snd c) t (Ok tt)) (map asks calls) ts).
  { clear L. induction R as [|c t calls ts H R IH]; [constructor|]. inversion Al as [|? ? [Pc Tc] Al']; subst. cbn [map]. constructor; [|auto].
    cbn [asks fst snd]. rewrite (same_program chk powi fetch m model run c0 c _ _ T0 Tc). exact H. }
  destruct (c75_dwd_proof chk powi fetch m (ca_heads c0) (ca_begin c0) (ca_end c0) model (map asks calls) ts tr M V V' St R' L) as (run' & F & H).
  unfold takes in T0. rewrite T0 in F. injection F as <-. exact H.
Qed.
Lemma c89_dwd_proof : forall chk powi fetch m model run calls calls' ts ts' tr tr', dwd_model model -> steady fetch ->
  Forall (fun c => possible c /\ takes model c run) (calls ++ calls') -> asks_same (map asks calls) (map asks calls') ->
  let runs c t := dwd_render_latest chk powi fetch m false (ca_heads c) (ca_begin c) (ca_end c) model (ca_vars c) (ca_steps c) t (Ok tt) in
  Forall2 runs calls ts -> interleaving ts tr -> Forall2 runs calls' ts' -> interleaving ts' tr' ->
  forall q before, found_after q before tr = found_after q before tr'.
Proof.
  intros chk powi fetch m model run calls calls' ts ts' tr tr' M St Al Sm runs R L R' L' q before.
  apply Forall_app in Al. destruct Al as [A A'].
  assert (X : (calls = [] /\ calls' = []) \/ exists c0, possible c0 /\ takes model c0 run).
  { destruct calls as [|c0 r]; [|right; inversion A as [|? ? H]; subst; exists c0; exact H]. destruct calls' as [|c0 r]; [now left|]. right. inversion A' as [|? ? H]; subst. exists c0. exact H. }
  destruct X as [[-> ->]|(c0 & P0 & T0)].
  - inversion R; subst. inversion R'; subst. rewrite (ForecastProofs.interleaving_nil _ _ L (Forall_nil _)), (ForecastProofs.interleaving_nil _ _ L' (Forall_nil _)). reflexivity.
  - destruct (dwd_settles chk powi fetch m model run c0 calls ts tr M St P0 T0 A R L q) as [H1 H2].
    destruct (dwd_settles chk powi fetch m model run c0 calls' ts' tr' M St P0 T0 A' R' L' q) as [H3 H4].
    assert (I : forall t n, asked (map asks calls) run t n <-> asked (map asks calls') run t n) by (intros; rewrite !asked_wants; rewrite (Sm t n); reflexivity).
    apply (both_determined (belongs chk powi fetch m (map asks calls) run q) (belongs chk powi fetch m (map asks calls') run q) before); auto.
    intro c. split; apply belongs_incl; intros; now apply I.
Qed.

(** ** Swiss service *)
Lemma swiss_belongs_incl chk powi rfc3339 sv m calls calls' q c : (forall t n, swiss_asked calls t n -> swiss_asked calls' t n) ->
  swiss_belongs chk powi rfc3339 sv m calls q c -> swiss_belongs chk powi rfc3339 sv m calls' q c.
Proof.
  intros I H. destruct H.
  - eapply swiss_temp_in; try eassumption; apply I; assumption.
  - eapply swiss_wind_in with (fu := fu) (fv := fv) (fg := fg) (east := east) (north := north) (gusts := gusts); try eassumption; apply I; assumption.
  - eapply swiss_cloud_precip_in with (fc := fc) (f0 := f0) (f1 := f1) (fe := fe) (clct := clct) (prec0 := prec0) (prec1 := prec1) (clct' := clct') (ceiling := ceiling); try eassumption; apply I; assumption.
  - eapply swiss_vertical_cloud_in with (hhl := hhl) (clc := clc); try eassumption; apply I; assumption.
  - eapply swiss_vertical_wind_in with (fu := fu) (fv := fv) (hhl := hhl) (east := east) (north := north); try eassumption; apply I; assumption.
Qed.
Lemma c89_swiss_proof : forall chk powi rfc3339 sv m calls calls' ts ts' tr tr', dated rfc3339 sv -> settled sv -> asks_same calls calls' ->
  let runs c t := swiss_render_latest chk powi rfc3339 sv m false (snd c) (fst c) t (Ok tt) in
  Forall2 runs calls ts -> interleaving ts tr -> Forall2 runs calls' ts' -> interleaving ts' tr' ->
  forall q before, found_after q before tr = found_after q before tr'.
Proof.
  intros chk powi rfc3339 sv m calls calls' ts ts' tr tr' D St Sm runs R L R' L' q before.
  destruct (c75_swiss_proof chk powi rfc3339 sv m calls ts tr D St R L q) as [H1 H2].
  destruct (c75_swiss_proof chk powi rfc3339 sv m calls' ts' tr' D St R' L' q) as [H3 H4].
  assert (I : forall t n, swiss_asked calls t n <-> swiss_asked calls' t n).
  { intros t n. pose proof (Sm t (Z.of_nat n)) as X. unfold wants in X. unfold swiss_asked, wanted_step. exact X. }
  apply (both_determined (swiss_belongs chk powi rfc3339 sv m calls q) (swiss_belongs chk powi rfc3339 sv m calls' q) before); auto.
  intro c. split; apply swiss_belongs_incl; intros; now apply I.
Qed.

(** ** Ways to ask for the same *)
Lemma c89_layers_proof : forall vars vars' steps, vars <> [] -> vars' <> [] -> asks_same [(vars ++ vars', steps)] [(vars, steps); (vars', steps)].
Proof.
  intros vars vars' steps N N' t n. unfold wants, named. split.
  - intros (c & [<-|[]] & Nm & W). cbn [fst snd] in *. destruct Nm as [E|J]; [destruct vars; [contradiction|discriminate]|].
    apply in_app_or in J. destruct J as [J|J]; [exists (vars, steps)|exists (vars', steps)]; cbn; auto.
  - intros (c & [<-|[<-|[]]] & Nm & W); cbn [fst snd] in *; (destruct Nm as [E|J]; [contradiction|]); exists (vars ++ vars', steps); cbn [fst snd In]; (split; [now left|]);
      (split; [right; apply in_or_app; auto|exact W]).
Qed.
Lemma c89_steps_proof : forall vars steps steps', steps <> [] -> steps' <> [] -> asks_same [(vars, steps ++ steps')] [(vars, steps); (vars, steps')].
Proof.
  intros vars steps steps' N N' t n. unfold wants. split.
  - intros (c & [<-|[]] & Nm & W). cbn [fst snd] in *. destruct W as [E|J]; [destruct steps; [contradiction|discriminate]|].
    apply in_app_or in J. destruct J as [J|J]; [exists (vars, steps)|exists (vars, steps')]; cbn; auto.
  - intros (c & [<-|[<-|[]]] & Nm & W); cbn [fst snd] in *; (destruct W as [E|J]; [contradiction|]); exists (vars, steps ++ steps'); cbn [fst snd In]; (split; [now left|]);
      (split; [exact Nm|right; apply in_or_app; auto]).
Qed.
Lemma members_nil {A} (l l' : list A) : (forall x, In x l <-> In x l') -> l = [] -> l' = [].
Proof. intros H ->. destruct l' as [|a r]; [reflexivity|]. destruct (proj2 (H a) (or_introl eq_refl)). Qed.
Lemma c89_order_proof : forall vars vars' steps steps', (forall x, In x vars <-> In x vars') -> (forall n, In n steps <-> In n steps') -> asks_same [(vars, steps)] [(vars', steps')].
Proof.
  assert (X : forall vars vars' steps steps', (forall x, In x vars <-> In x vars') -> (forall n, In n steps <-> In n steps') -> forall t n, wants [(vars, steps)] t n -> wants [(vars', steps')] t n).
  { intros vars vars' steps steps' V S t n (c & [<-|[]] & Nm & W). exists (vars', steps'). split; [now left|]. cbn [fst snd] in *. split.
    - destruct Nm as [E|J]; [left; exact (members_nil vars vars' V E)|right; now apply V].
    - destruct W as [E|J]; [left; exact (members_nil steps steps' S E)|right; now apply S]. }
  intros vars vars' steps steps' V S t n. split; apply X; [exact V|exact S|intro x; symmetry; apply V|intro x; symmetry; apply S].
Qed.
Lemma c89_calls_proof : forall calls calls', (forall c, In c calls <-> In c calls') -> asks_same calls calls'.
Proof. intros calls calls' H t n. unfold wants. split; intros (c & J & X); exists c; (split; [now apply H|exact X]). Qed.
Lemma c89_all_proof : forall steps, asks_same [([], steps)] [(all_layers, steps)].
Proof.
  intros steps t n. unfold wants. split; intros (c & [<-|[]] & Nm & W); cbn [fst snd] in *.
  - exists (all_layers, steps). split; [now left|]. split; [|exact W]. right. apply in_map. destruct t; cbn; tauto.
  - exists ([], steps). split; [now left|]. split; [now left|exact W].
Qed.
