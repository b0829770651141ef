From Coq Require Import Ascii String ZArith List Bool Lia.
From Verif Require Import Base GeoModel Par Text TextSpec TextFacts TextSpecProofs TileModel ChartModel ForecastModel ForecastSpec ForecastProofs FetchModel FetchSpec DwdModel DwdSpec DwdProofs
  SwissModel SwissSpec SwissProofs CliModel CliSpec CliProofs OverlapSpec OverlapProofs HistorySpec HistoryProofs SwissHistoryProofs RenderProofs ConfinedSpec.
Import ListNotations.
Open Scope Z_scope.

(** ** Slashes *)
Lemma no_slash s : contains "/" s = false <-> forall a b, s <> (a ++ "/" ++ b)%string.
Proof.
  split.
  - intros C a b ->. rewrite contains_app in C. cbn in C. rewrite orb_true_r in C. discriminate.
  - induction s as [|c s IH]; intro H; [reflexivity|]. cbn [contains]. destruct (Ascii.eqb_spec "/" c) as [<-|N].
    + destruct (H ""%string s). reflexivity.
    + apply IH. intros a b ->. apply (H (String c a) b). reflexivity.
Qed.
Lemma last_slash a b x y : contains "/" b = false -> contains "/" y = false -> (a ++ "/" ++ b = x ++ "/" ++ y)%string -> a = x /\ b = y.
Proof.
  intros B Y. revert x. induction a as [|c a IH]; intros [|d x] E; cbn [append] in E.
  - injection E as ->. auto.
  - injection E as _ ->. rewrite contains_app in B. cbn in B. rewrite orb_true_r in B. discriminate.
  - injection E as _ E. rewrite <- E in Y. rewrite contains_app in Y. cbn in Y. rewrite orb_true_r in Y. discriminate.
  - injection E as -> E. destruct (IH x E) as [-> ->]. auto.
Qed.
(** ** Dots *)
Fixpoint apart (after : bool) (s : string) : bool :=
  match s with EmptyString => true | String c r => negb (after && Ascii.eqb c ".") && apart (Ascii.eqb c ".") r end.
Fixpoint ends (after : bool) (s : string) : bool := match s with EmptyString => after | String c r => ends (Ascii.eqb c ".") r end.
Lemma apart_app a : forall after b, apart after (a ++ b) = apart after a && apart (ends after a) b.
Proof. induction a as [|c a IH]; intros after b; [reflexivity|]. cbn [append apart ends]. rewrite IH. apply andb_assoc. Qed.
Lemma apart_dots a : forall after b, apart after (a ++ ".." ++ b) = false.
Proof. intros after b. rewrite apart_app. destruct (apart after a); [|reflexivity]. cbn. destruct (ends after a); reflexivity. Qed.
Lemma digits_apart s : allc is_digit s = true -> apart false s = true /\ ends false s = false.
Proof.
  induction s as [|c s IH]; cbn [allc apart ends]; [auto|]. intro H. apply andb_true_iff in H. destruct H as [D H].
  destruct (Ascii.eqb_spec c ".") as [->|N]; [discriminate D|]. exact (IH H).
Qed.
(** ** Paths *)
Lemma padded_digits w s n : 0 <= n -> (0 < w)%nat -> padded w s n -> allc is_digit s = true.
Proof. intros N W P. apply padded_dec_pad in P; [|exact N|exact W]. subst s. apply dec_pad_spec. exact N. Qed.
(** A path, cut at its last slash. *)
Definition cut (m : fc_model) (p : string) : Prop := exists rest file, p = ("./output/" ++ model_dir m ++ "/" ++ rest ++ "/" ++ file)%string /\ contains "/" file = false /\ apart false p = true.
Lemma published_cut m p : published m p -> cut m p.
Proof.
  intros (run & n & f & hour & <- & V & H & Hh & N & Pf & (y & mo & d & st & file & Y & M & D & S & -> & F)). destruct (valid_date_bounds _ V) as (? & ? & ?).
  apply padded_digits in Y, M, D, H, S; try lia. apply digits_apart in Y, M, D, H, S.
  assert (X : exists r f', file = (r ++ "/" ++ f')%string /\ contains "/" f' = false /\ apart false file = true).
  { destruct f as [t zoom x y'|b].
    - destruct Pf as (_ & Zz & Zx & Zy). destruct F as (zs & xs & ys & Pz & Px & Py & ->). exists (layer_dir t ++ "/" ++ zs ++ "/" ++ xs)%string, (ys ++ ".png")%string. split; [rewrite !append_assoc; reflexivity|].
      pose proof (padded_digits 1 _ _ Zz ltac:(lia) Pz) as Dz. pose proof (padded_digits 1 _ _ Zx ltac:(lia) Px) as Dx. pose proof (padded_digits 1 _ _ Zy ltac:(lia) Py) as Dy. split.
      + rewrite contains_app. apply plain_dec in Py; [|exact Zy]. subst ys. rewrite dec_no_char by (assumption || apply slash_no_digit). reflexivity.
      + apply digits_apart in Dz, Dx, Dy. destruct Dz as [z1 z2], Dx as [x1 x2], Dy as [y1 y2].
        assert (E : apart false (layer_dir t) = true /\ ends false (layer_dir t) = false) by (destruct t; split; reflexivity). destruct E as [e1 e2].
        repeat (rewrite apart_app; rewrite ?e1, ?e2, ?z1, ?z2, ?x1, ?x2, ?y1, ?y2; cbn [apart ends andb negb append]; change (Ascii.eqb "/" ".") with false; cbn [andb negb]). reflexivity.
    - exists (layer_dir (bin_layer b)), (bin_file b). destruct b; subst file; repeat split; reflexivity. }
  destruct X as (r & f' & E & Nf & Af). destruct Y as [y1 y2], M as [m1 m2], D as [d1 d2], H as [h1 h2], S as [s1 s2].
  exists (y ++ mo ++ d ++ run_name run ++ "/" ++ st ++ "/" ++ r)%string, f'. split; [rewrite E, !append_assoc; reflexivity|]. split; [exact Nf|].
  assert (G : apart false (model_dir (run_model run)) = true /\ ends false (model_dir (run_model run)) = false) by (destruct (run_model run); split; reflexivity). destruct G as [g1 g2].
  rewrite apart_app. change (apart false "./output/") with true. change (ends false "./output/") with false. cbn [andb].
  rewrite apart_app, g1, g2. cbn [andb]. rewrite apart_app. change (apart false "/") with true. change (ends false "/") with false. cbn [andb].
  rewrite apart_app, y1, y2. cbn [andb]. rewrite apart_app, m1, m2. cbn [andb]. rewrite apart_app, d1, d2. cbn [andb]. rewrite apart_app, h1, h2. cbn [andb].
  rewrite apart_app. change (apart false "/") with true. change (ends false "/") with false. cbn [andb]. rewrite apart_app, s1, s2. cbn [andb].
  rewrite apart_app. change (apart false "/") with true. change (ends false "/") with false. exact Af.
Qed.
Lemma dir_cut m p : published_dir m p -> inside (model_dir m) p /\ apart false p = true.
Proof.
  intros (q & dir & file & Q & E & Nf & P). destruct (published_cut m q Q) as (rest & f' & E' & Nf' & A). apply no_slash in Nf.
  assert (X : (dir ++ "/" ++ file = ("./output/" ++ model_dir m ++ "/" ++ rest) ++ "/" ++ f')%string) by (rewrite <- E, E', !append_assoc; reflexivity).
  destruct (last_slash _ _ _ _ Nf Nf' X) as [Ed _]. rewrite E, apart_app in A. apply andb_true_iff in A. destruct A as [A1 A2].
  destruct P as [->| ->].
  - split; [exists rest; exact Ed|exact A1].
  - split; [exists (rest ++ "/")%string; rewrite Ed, !append_assoc; reflexivity|]. rewrite apart_app, A1. cbn [andb]. rewrite apart_app in A2. apply andb_true_iff in A2. exact (proj1 A2).
Qed.
Lemma c91_below_proof : forall m p, published m p \/ published_dir m p -> inside (model_dir m) p /\ forall a b, p <> (a ++ ".." ++ b)%string.
Proof.
  intros m p H. assert (X : inside (model_dir m) p /\ apart false p = true).
  { destruct H as [H|H]; [|exact (dir_cut m p H)]. destruct (published_cut m p H) as (rest & f & E & _ & A). split; [|exact A]. exists (rest ++ "/" ++ f)%string. exact E. }
  destruct X as [I A]. split; [exact I|]. intros a b E. rewrite E, apart_dots in A. discriminate.
Qed.
(** ** Effects *)
Definition hourly_run (run : fc_run) : Prop := valid_date (run_date run) /\ exists hour, padded 2 (run_name run) hour /\ 0 <= hour < 24.
Lemma file_published run n f : hourly_run run -> 0 <= n -> proper f -> published (run_model run) (file_path run n f).
Proof.
  intros (V & hour & H & B) N P. exists run, n, f, hour. split; [reflexivity|]. do 5 (split; [assumption|]). apply c47_layout_proof; [|exact N|exact P|reflexivity].
  split; [exact V|]. apply padded_dec_pad in H; [|lia|lia]. rewrite H. apply dec_pad_no_char; [lia|apply slash_no_digit].
Qed.
Lemma rightly_confined faulty (F : string -> content -> Prop) m e : (forall q c, F q c -> published m q) -> rightly faulty F e -> confined m e.
Proof.
  intros H R. destruct e as [s| |p|p d|p d|p|p b]; cbn [rightly confined] in *; auto.
  - destruct R as (q & c & file & Fq & N & [E|(dir & E & E')]).
    + exists q, p, file. split; [exact (H q c Fq)|]. split; [exact E|]. split; [apply no_slash; exact N|now left].
    + exists q, dir, file. split; [exact (H q c Fq)|]. split; [rewrite E', E, !append_assoc; reflexivity|]. split; [apply no_slash; exact N|now right].
  - exact (H _ _ R).
  - exact (H _ _ R).
  - destruct R as (b & R). exact (H _ _ R).
  - destruct R as (lost & R & _). exact (H _ _ R).
Qed.
Lemma proper_of chk m k run l f c : In k (kinds chk m) -> produces chk m k run l f c -> proper f.
Proof.
  intros J P. destruct f as [t z x y|b]; [|exact I]. destruct P as (-> & d & (e & make & E & Hz & C & _) & _). cbn [proper].
  pose proof (zooms_small run) as ZS. unfold zl, zh in ZS. destruct (covers_nonneg chk m e z x y ltac:(lia) C) as [X Y]. split; [|lia].
  destruct J as [<-|[<-|[<-|[<-|[<-|[]]]]]]; cbn in *; auto; discriminate.
Qed.
Lemma c91_dwd_proof : forall chk powi fetch m faulty head today today' model vars steps tr r e,
  dwd_model model -> valid_date today -> valid_date (prev_day today') ->
  dwd_render_latest chk powi fetch m faulty head today today' model vars steps tr r -> In e tr -> exists m', (m' = model \/ m' = IconD2) /\ confined m' e.
Proof.
  intros chk powi fetch m faulty head today today' model vars steps tr r e M V V' R J.
  destruct (c50_latest_proof head model today today' M) as (run & Fr & H).
  pose proof (dwd_right chk powi fetch m faulty head today today' model vars steps [(vars, steps)] run tr r M (or_introl eq_refl) R Fr) as A. rewrite Forall_forall in A. specialize (A e J).
  assert (Hr : hourly_run run /\ (run_model run = model \/ run_model run = IconD2)).
  { destruct H as [(name & later & -> & B & _)|[-> _]]; cbn [run_of run_model run_date run_name]; (split; [split|auto]); [exact V| |exact V'|].
    - destruct (hour_padded _ (before_in _ _ B)) as [H1 H2]. eexists. split; [exact H1|lia].
    - exists 21. split; [|lia]. apply padded_dec_pad; [lia|lia|reflexivity]. }
  destruct Hr as [Hr Em]. exists (run_model run). split; [exact Em|]. apply (rightly_confined faulty (belongs chk powi fetch m [(vars, steps)] run)); [|exact A]. clear A. destruct (kind_in chk m) as (K1 & K2 & K3 & K4 & K5).
  assert (W : forall t n, asked [(vars, steps)] run t n -> 0 <= n) by (intros t n (c & _ & _ & B & _); lia).
  intros q c B. inversion B; subst; apply file_published; try exact Hr; try (eapply W; eassumption).
  all: eapply proper_of; [|eassumption]; assumption.
Qed.
Lemma c91_swiss_proof : forall chk powi rfc3339 sv m faulty steps vars tr r e,
  dated rfc3339 sv -> swiss_render_latest chk powi rfc3339 sv m faulty steps vars tr r -> In e tr -> confined IconCh1 e.
Proof.
  intros chk powi rfc sv m faulty steps vars tr r e D R J.
  pose proof (swiss_right chk powi rfc sv m [(vars, steps)] faulty vars steps tr r D (or_introl eq_refl) R) as A. rewrite Forall_forall in A. specialize (A e J).
  destruct (kind_in chk m) as (K1 & K2 & K3 & K4 & K5).
  assert (W : forall u heights t n f, started chk powi rfc sv u heights t -> proper f -> published IconCh1 (file_path (swiss_run_of t) (Z.of_nat n) f)).
  { intros u heights t n f S P. pose proof (started_valid _ _ _ _ _ _ _ D S) as (Vd & Vh & _). apply (file_published (swiss_run_of t)); [|lia|exact P]. split; [exact Vd|]. exists (dt_hour t).
    split; [apply padded_dec_pad; [lia|lia|reflexivity]|exact Vh]. }
  apply (rightly_confined faulty (swiss_belongs chk powi rfc sv m [(vars, steps)])); [|exact A]. clear A.
  intros q c B. inversion B; subst; eapply W; try eassumption.
  all: eapply proper_of; [|eassumption]; assumption.
Qed.
Lemma main_confined w a tr printed code e : sane w -> main w a tr printed code -> In e tr -> exists m, may_write (ar_model a) (model_dir m) /\ confined m e.
Proof.
  intros (V & V' & D) M J. destruct a as [name variables steps]. unfold main in M. cbn [ar_model ar_variables ar_steps] in *.
  destruct (String.eqb_spec name "icon-ch1") as [->|N1].
  { destruct M as (r & M & _). exists IconCh1. split; [now left|]. exact (c91_swiss_proof _ _ _ _ _ _ _ _ _ _ _ D M J). }
  destruct (String.eqb_spec name "icon-d2") as [->|N2].
  { destruct M as (r & M & _). destruct (c91_dwd_proof _ _ _ _ _ _ _ _ _ _ _ _ _ _ (or_introl eq_refl) V V' M J) as (m & Em & C). exists m. split; [|exact C]. destruct Em as [->| ->]; now left. }
  destruct (String.eqb_spec name "icon-eu") as [->|N3].
  { destruct M as (r & M & _). destruct (c91_dwd_proof _ _ _ _ _ _ _ _ _ _ _ _ _ _ (or_intror eq_refl) V V' M J) as (m & Em & C). exists m. split; [|exact C]. destruct Em as [->| ->]; [now left|right; auto]. }
  destruct M as (-> & _). contradiction.
Qed.
Lemma c91_program_proof : forall calls tr e, Forall (fun c => sane (fst c)) calls -> happened calls tr -> In e tr ->
  exists w a m, In (w, a) calls /\ may_write (ar_model a) (model_dir m) /\ confined m e.
Proof.
  induction calls as [|[w a] calls IH]; intros tr e S H J; [cbn in H; subst tr; contradiction|]. inversion S as [|? ? S1 S2]; subst. cbn [fst] in S1.
  destruct H as (done & missed & printed & code & tr' & M & H & ->). apply in_app_or in J. destruct J as [J|J].
  - destruct (main_confined w a _ _ _ e S1 M (in_or_app _ _ _ (or_introl J))) as (m & W & C). exists w, a, m. split; [now left|auto].
  - destruct (IH tr' e S2 H J) as (w' & a' & m & Jc & X). exists w', a', m. split; [now right|exact X].
Qed.
