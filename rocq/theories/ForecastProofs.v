(** Proofs about forecasts and their rendering (C46-C48, C58). *)
From Coq Require Import Ascii String ZArith List Bool Lia Permutation.
From Verif Require Import Base F32 F32Facts GeoModel GeoSpec GeoProofs ImagingModel Par ParFacts TileModel TileSpec TileProofs ChartModel ChartSpec ChartProofs MetobinModel MetobinSpec MetobinProofs Text TextFacts TextSpec TextSpecProofs
  ForecastModel ForecastSpec.
Import ListNotations.
Open Scope Z_scope.

(** ** Paths *)
Lemma slash_no_digit : is_digit "/" = false.
Proof. reflexivity. Qed.
Lemma valid_date_range d : valid_date d -> 0 <= year d < 10 ^ 4 /\ 0 <= month d < 10 ^ 2 /\ 0 <= day d < 10 ^ 2.
Proof.
  intros (Y & M & D). assert (days_in_month (year d) (month d) <= 31).
  { unfold days_in_month. destruct (_ =? 2); [destruct (is_leap _); lia|]. destruct (_ || _); lia. }
  lia.
Qed.
Lemma date_text_inv d d' x y : valid_date d -> valid_date d' -> (date_text d ++ x = date_text d' ++ y)%string -> d = d' /\ x = y.
Proof.
  intros V V' H. apply valid_date_range in V, V'. destruct V as (Y & M & D). destruct V' as (Y' & M' & D').
  unfold date_text in H. rewrite ?append_assoc in H.
  apply append_inv_length in H; [|rewrite !dec_pad_length; lia]. destruct H as [E1 H].
  apply append_inv_length in H; [|rewrite !dec_pad_length; lia]. destruct H as [E2 H].
  apply append_inv_length in H; [|rewrite !dec_pad_length; lia]. destruct H as [E3 H].
  apply dec_pad_inj in E1, E2, E3; try lia. destruct d, d'. cbn in *. subst. auto.
Qed.
Lemma date_text_digits d : valid_date d -> allc is_digit (date_text d) = true.
Proof.
  intro V. apply valid_date_range in V. destruct V as (Y & M & D). unfold date_text. rewrite !allc_app.
  rewrite !(fun w n H => proj1 (dec_pad_spec w n H)) by lia. reflexivity.
Qed.
Lemma model_name_no_slash m : contains "/" (model_name m) = false.
Proof. destruct m; reflexivity. Qed.
Lemma model_name_inj m m' : model_name m = model_name m' -> m = m'.
Proof. destruct m, m'; cbn; congruence. Qed.
Lemma subdir_no_slash t : contains "/" (output_subdir t) = false.
Proof. destruct t; reflexivity. Qed.
Lemma output_path_inv run run' n n' t t' x y : valid_run run -> valid_run run' -> 0 <= n -> 0 <= n' ->
  (output_path run n t ++ x = output_path run' n' t' ++ y)%string -> run = run' /\ n = n' /\ output_subdir t = output_subdir t' /\ x = y.
Proof.
  intros [D R] [D' R'] N N' H. unfold output_path in H. rewrite ?append_assoc in H. apply append_inv_head in H.
  cbn [append] in H. apply sep_inv in H; try apply model_name_no_slash. destruct H as [Em H].
  cbn [append] in H. rewrite ?append_assoc in H. apply date_text_inv in H; try assumption. destruct H as [Ed H].
  cbn [append] in H. apply sep_inv in H; try assumption. destruct H as [En H].
  cbn [append] in H. rewrite ?append_assoc in H. cbn [append] in H.
  apply sep_inv in H; try (apply dec_pad_no_char; [assumption|apply slash_no_digit]). destruct H as [Es H].
  rewrite ?append_assoc in H. cbn [append] in H. apply sep_inv in H; try apply subdir_no_slash. destruct H as [Et H].
  apply dec_pad_inj in Es; try assumption. apply model_name_inj in Em. destruct run, run'; cbn in *. subst. auto.
Qed.
Lemma bin_path_no_tile b zoom r : 0 <= zoom -> (bin_file b <> dec zoom ++ r)%string.
Proof.
  intros Z H. destruct (dec_spec zoom Z) as (D & N & _). destruct (dec zoom) as [|c s]; [contradiction|]. cbn in D, H.
  apply andb_true_iff in D. destruct D as [D _]. destruct b; injection H as <- _; discriminate D.
Qed.
Lemma bin_file_inj b b' : bin_file b = bin_file b' -> b = b'.
Proof. destruct b, b'; cbn; congruence. Qed.
Lemma tile_path_inv zoom x y zoom' x' y' : 0 <= zoom -> 0 <= x -> 0 <= y -> 0 <= zoom' -> 0 <= x' -> 0 <= y' ->
  (dec zoom ++ "/" ++ dec x ++ "/" ++ dec y ++ ".png" = dec zoom' ++ "/" ++ dec x' ++ "/" ++ dec y' ++ ".png")%string ->
  zoom = zoom' /\ x = x' /\ y = y'.
Proof.
  intros. cbn [append] in *.
  match goal with H : _ = _ |- _ => apply dec_inv in H; [|assumption|assumption|reflexivity|reflexivity]; destruct H as [-> H]; injection H as H;
    apply dec_inv in H; [|assumption|assumption|reflexivity|reflexivity]; destruct H as [-> H]; injection H as H;
    apply dec_inv in H; [|assumption|assumption|reflexivity|reflexivity]; destruct H as [-> H] end. auto.
Qed.
Lemma c47_paths_proof : forall run run' n n' f f', valid_run run -> valid_run run' -> 0 <= n -> 0 <= n' -> proper f -> proper f' ->
  file_path run n f = file_path run' n' f' -> run = run' /\ n = n' /\ f = f'.
Proof.
  intros run run' n n' f f' R R' N N' P P' H.
  destruct f as [t z x y|b], f' as [t' z' x' y'|b']; cbn [file_path proper] in *;
    apply output_path_inv in H; try assumption; destruct H as (-> & -> & S & E); repeat split.
  - destruct P as (T & Z & X & Y), P' as (T' & Z' & X' & Y'). apply tile_path_inv in E; try assumption. destruct E as (-> & -> & ->).
    f_equal. destruct T as [->|[->| ->]], T' as [->|[->| ->]]; cbn in S; congruence.
  - symmetry in E. apply bin_path_no_tile in E; [contradiction|tauto].
  - apply bin_path_no_tile in E; [contradiction|tauto].
  - f_equal. apply bin_file_inj. exact E.
Qed.
(** ** Effects on one file *)
Definition touches (q : string) (e : effect) : bool :=
  match e with EPart p _ => String.eqb p q | EImage p _ => String.eqb p q | ECreate p => String.eqb p q | EWrite p _ => String.eqb p q | _ => false end.
Definition writes (q : string) (c : content) : list effect :=
  match c with Png d => [EPart q d; EImage q d] | Pieces _ => [] | Data b => [ECreate q; EWrite q b] end.
Lemma file_after_filter q tr : forall b0, file_after q b0 tr = file_after q b0 (filter (touches q) tr).
Proof.
  induction tr as [|e tr IH]; intro b0; [reflexivity|]. cbn [filter].
  destruct e; cbn [touches file_after]; try apply IH; destruct (String.eqb path q) eqn:E; cbn [file_after]; rewrite ?E; apply IH.
Qed.
Definition final (c : content) : Prop := match c with Pieces _ => False | _ => True end.
Lemma file_after_writes q b0 c : final c -> file_after q b0 (writes q c) = Some c.
Proof. destruct c; cbn; intro F; [|destruct F|]; rewrite !String.eqb_refl; reflexivity. Qed.

(** ** Interleavings *)
Lemma Forall2_cons_inv {A B} (R : A -> B -> Prop) a l k : Forall2 R (a :: l) k -> exists b k', k = b :: k' /\ R a b /\ Forall2 R l k'.
Proof. intro F. inversion F; subst; eauto. Qed.
Lemma interleaving_nil {E} (ts : list (list E)) tr : interleaving ts tr -> Forall (fun t => t = []) ts -> tr = [].
Proof.
  intros I F. apply interleaving_perm in I. assert (C : concat ts = []) by (clear I; induction F as [|? ? -> F IH]; [reflexivity|exact IH]).
  rewrite C in I. apply Permutation_sym, Permutation_nil in I. exact I.
Qed.
(** What comes before an effect in its own trace comes before it in the interleaving. *)
Lemma interleaving_before {E} (ts : list (list E)) tr : interleaving ts tr ->
  forall a e b, tr = a ++ e :: b -> exists t a' b', In t ts /\ t = a' ++ e :: b' /\ incl a' a.
Proof.
  induction 1 as [ts F|l1 x t l2 tr I IH]; intros a e b H; [destruct a; discriminate|].
  destruct a as [|y a]; injection H as -> H.
  - exists (e :: t), [], t. split; [apply in_elt|]. split; [reflexivity|]. intros ? [].
  - destruct (IH a e b H) as (s & a' & b' & J & -> & L). apply in_app_or in J. destruct J as [J|[->|J]].
    + exists (a' ++ e :: b'), a', b'. split; [apply in_or_app; now left|]. split; [reflexivity|]. now apply incl_tl.
    + exists (y :: a' ++ e :: b'), (y :: a'), b'. split; [apply in_elt|]. split; [reflexivity|]. intros z [->|J]; [now left|right; auto].
    + exists (a' ++ e :: b'), a', b'. split; [apply in_or_app; right; now right|]. split; [reflexivity|]. now apply incl_tl.
Qed.

(** ** Tiles with any function that saves them *)
Section Save.
  Context {T : Type} (chk : bool) (m : libm) (e : extent) (value : lat_lon -> outcome (option T)) (color_fn : T -> outcome color).
  Variable (save : drawable -> Z -> Z -> Z -> prog effect).
  Definition save_run (s : saved) (t : list effect) : Prop := save (s_content s) (s_zoom s) (s_x s) (s_y s) t (Ok tt).
  (** Runs of a loop whose bodies are observed. *)
  Definition seen (p : prog effect) (o : prog saved) : Prop := forall tr, p tr (Ok tt) ->
    exists l ts, o l (Ok tt) /\ Forall2 save_run l ts /\ Permutation tr (concat ts).
  Lemma seen_list {A} (p : A -> prog effect) (o : A -> prog saved) (l : list A) ts :
    (forall a, In a l -> seen (p a) (o a)) -> Forall2 (fun a t => p a t (Ok tt)) l ts ->
    exists ls us, Forall2 (fun a k => o a k (Ok tt)) l ls /\ Forall2 save_run (concat ls) us /\ Permutation (concat ts) (concat us).
  Proof.
    intros H F. induction F as [|a t l ts R F IH]; [exists [], []; repeat constructor|].
    destruct (H a (or_introl eq_refl) t R) as (k & vs & O & S & P). destruct IH as (ls & us & Fo & Fs & P'); [intros; apply H; now right|].
    exists (k :: ls), (vs ++ us). split; [now constructor|]. split; [cbn; now apply Forall2_app|].
    cbn [concat]. rewrite concat_app. now apply Permutation_app.
  Qed.
  Lemma seen_seq {A} (p : A -> prog effect) (o : A -> prog saved) (l : list A) :
    (forall a, In a l -> seen (p a) (o a)) -> seen (for_seq l p) (for_seq l o).
  Proof.
    intros H tr R. apply for_seq_ok in R. destruct R as (ts & F & ->). destruct (seen_list p o l ts H F) as (ls & us & Fo & Fs & P).
    exists (concat ls), us. split; [apply for_seq_ok; eauto|]. auto.
  Qed.
  Lemma seen_par {A} (p : A -> prog effect) (o : A -> prog saved) (l : list A) :
    (forall a, In a l -> seen (p a) (o a)) -> seen (for_par l p) (for_par l o).
  Proof.
    intros H tr R. apply for_par_ok in R. destruct R as (ts & F & I). destruct (seen_list p o l ts H F) as (ls & us & Fo & Fs & P).
    exists (concat ls), us. split; [apply for_par_ok; exists ls; split; [exact Fo|apply interleaving_concat]|]. split; [exact Fs|].
    rewrite (interleaving_perm _ _ I). exact P.
  Qed.
  Lemma seen_tile zoom x y : seen (render_tile chk m value color_fn save zoom x y) (render_tile chk m value color_fn observe zoom x y).
  Proof.
    intros tr R. unfold render_tile in *. destruct (create_single_tile _ _ _ _ _) as [d|?|]; [|destruct R; discriminate|destruct R; discriminate].
    exists [{| s_content := d; s_zoom := zoom; s_x := x; s_y := y |}], [tr]. split; [split; reflexivity|].
    split; [repeat constructor; exact R|]. cbn. rewrite app_nil_r. reflexivity.
  Qed.
  Lemma seen_all zooms : seen (create_all_tiles chk m e zooms value color_fn save) (create_all_tiles chk m e zooms value color_fn observe).
  Proof.
    apply seen_seq. intros zoom _. unfold render_zoom.
    destruct (from_position _ _ _ zoom) as [a|?|]; cbn [p_let]; try (intros tr [_ H]; discriminate).
    destruct (from_position _ _ _ zoom) as [b|?|]; cbn [p_let]; try (intros tr [_ H]; discriminate).
    apply seen_seq. intros x _. apply seen_par. intros y _. apply seen_tile.
  Qed.
  Lemma all_effects (P : effect -> Prop) zl zh : (forall d z x y, effects P (save d z x y)) -> effects P (create_all_tiles chk m e (zl, zh) value color_fn save).
  Proof.
    intro H. apply for_seq_effects. intros zoom _. unfold render_zoom.
    destruct (from_position _ _ _ zoom) as [a|?|]; cbn [p_let]; try (intros tr r [-> _]; constructor).
    destruct (from_position _ _ _ zoom) as [b|?|]; cbn [p_let]; try (intros tr r [-> _]; constructor).
    apply for_seq_effects. intros x _. apply for_par_effects. intros y _. unfold render_tile.
    destruct (create_single_tile _ _ _ _ _); try (intros tr r [-> _]; constructor). apply H.
  Qed.
  (** A failure of the whole is a panic, because a tile cannot be made or cannot be saved. *)
  Lemma all_fail zl zh tr r : zh < 32 -> (forall d z x y t o, save d z x y t (Err o) -> False) ->
    create_all_tiles chk m e (zl, zh) value color_fn save tr r -> r <> Ok tt ->
    r = Panic /\ exists z x y, zl <= z <= zh /\ covers chk m e z x y /\
      ((forall d, create_single_tile chk m value color_fn {| t_x := x; t_y := y; t_zoom := z |} <> Ok d) \/ exists d t, save d z x y t Panic).
  Proof.
    intros Z32 NE R N. unfold create_all_tiles in R. cbn [fst snd] in R. destruct (for_seq_fail _ _ r N tr R) as (l1 & z & l2 & ts & t & E & _ & B & _).
    assert (Iz : zl <= z <= zh) by (apply in_range; rewrite E; apply in_elt).
    unfold render_zoom in B. fold (corner1 e) (corner2 e) in B.
    destruct (from_position_cases chk m (corner1 e) z) as [(a & Ea)|(Ea & C)]; [|lia]. rewrite Ea in B; cbn [p_let] in B.
    destruct (from_position_cases chk m (corner2 e) z) as [(b & Eb)|(Eb & C)]; [|lia]. rewrite Eb in B; cbn [p_let] in B.
    destruct (for_seq_fail _ _ _ N _ B) as (k1 & x & k2 & us & u & Ek & _ & Bx & _).
    assert (Ix : In x (range (Z.min (t_x a) (t_x b)) (Z.max (t_x a) (t_x b)))) by (rewrite Ek; apply in_elt).
    destruct (for_par_fail _ _ _ _ N Bx) as (y & v & Iy & By). apply in_range in Ix, Iy.
    assert (C : covers chk m e z x y) by (exists a, b; unfold ImagingSpec.between; auto).
    unfold render_tile in By. destruct (create_single_tile _ _ _ _ _) as [d|?|] eqn:Ed.
    - destruct r as [[]|o|]; [contradiction|destruct (NE _ _ _ _ _ _ By)|]. split; [reflexivity|]. exists z, x, y. split; [exact Iz|].
      split; [exact C|]. right. eauto.
    - destruct By as [_ ->]. split; [reflexivity|]. exists z, x, y. split; [exact Iz|]. split; [exact C|]. left. congruence.
    - destruct By as [_ ->]. split; [reflexivity|]. exists z, x, y. split; [exact Iz|]. split; [exact C|]. left. congruence.
  Qed.
  Lemma all_run zl zh : (forall d z x y, exists t r, save d z x y t r) -> exists tr r, create_all_tiles chk m e (zl, zh) value color_fn save tr r.
  Proof.
    intro H. unfold create_all_tiles. apply for_seq_runs. intros z _. unfold render_zoom.
    destruct (from_position _ _ _ z) as [a|?|]; cbn [p_let]; [|eexists; eexists; split; reflexivity|eexists; eexists; split; reflexivity].
    destruct (from_position _ _ _ z) as [b|?|]; cbn [p_let]; [|eexists; eexists; split; reflexivity|eexists; eexists; split; reflexivity].
    apply for_seq_runs. intros x _. apply for_par_runs. intros y _. unfold render_tile.
    destruct (create_single_tile _ _ _ _ _) as [d|?|]; [apply H|eexists; eexists; split; reflexivity|eexists; eexists; split; reflexivity].
  Qed.
End Save.

(** ** Order of effects *)
Definition ordered (pre tr : list effect) : Prop := forall a e b, tr = a ++ e :: b -> prepared (pre ++ a) e.
Lemma prepared_incl a b e : incl a b -> prepared a e -> prepared b e.
Proof.
  intro I. assert (G : forall p, has_dir a p -> has_dir b p).
  { intros p (dir & file & E & C & d & J & D). exists dir, file. split; auto. split; auto. exists d. split; auto. }
  destruct e; cbn [prepared]; auto. intros [H J]. split; [exact (G _ H)|exact (I _ J)].
Qed.
Lemma ordered_nil pre : ordered pre [].
Proof. intros a e b H. destruct a; discriminate. Qed.
Lemma ordered_cons pre e tr : prepared pre e -> ordered (pre ++ [e]) tr -> ordered pre (e :: tr).
Proof.
  intros P O a x b H. destruct a as [|y a]; injection H as -> H; [rewrite app_nil_r; exact P|].
  specialize (O a x b H). rewrite <- app_assoc in O. exact O.
Qed.
Lemma ordered_app pre t1 t2 : ordered pre t1 -> ordered (pre ++ t1) t2 -> ordered pre (t1 ++ t2).
Proof.
  revert pre. induction t1 as [|e t1 IH]; intros pre O1 O2; [rewrite app_nil_r in O2; exact O2|]. cbn [app]. apply ordered_cons.
  - specialize (O1 [] e t1 eq_refl). rewrite app_nil_r in O1. exact O1.
  - apply IH.
    + intros a x b H. specialize (O1 (e :: a) x b). rewrite H in O1. specialize (O1 eq_refl). rewrite <- app_assoc. exact O1.
    + rewrite <- app_assoc. exact O2.
Qed.
Lemma ordered_more pre pre' tr : incl pre pre' -> ordered pre tr -> ordered pre' tr.
Proof. intros I O a e b H. apply (prepared_incl (pre ++ a)); [|exact (O a e b H)]. apply incl_app_app; [exact I|apply incl_refl]. Qed.
Lemma ordered_concat ts : Forall (ordered []) ts -> ordered [] (concat ts).
Proof.
  induction 1 as [|t ts O F IH]; [apply ordered_nil|]. cbn [concat]. apply ordered_app; [exact O|]. apply (ordered_more []); [intros ? []|exact IH].
Qed.
Lemma ordered_interleaving ts tr : interleaving ts tr -> Forall (ordered []) ts -> ordered [] tr.
Proof.
  intros I F a e b H. destruct (interleaving_before ts tr I a e b H) as (t & a' & b' & J & E & L).
  rewrite Forall_forall in F. apply (prepared_incl a'); [exact L|]. exact (F t J a' e b' E).
Qed.
Definition ord (pre : list effect) (p : prog effect) : Prop := forall tr r, p tr r -> ordered pre tr.
Lemma ord_end pre o : ord pre (p_end o).
Proof. intros tr r [-> _]. apply ordered_nil. Qed.
Lemma ord_ignore pre p : ord pre p -> ord pre (p_ignore p).
Proof. intros H tr r (r' & R & _). exact (H tr r' R). Qed.
Lemma ord_seq {A} (l : list A) body : (forall a, In a l -> ord [] (body a)) -> ord [] (for_seq l body).
Proof.
  induction l as [|a l IH]; intro H; [apply ord_end|]. intros tr r [[R _]|(t1 & t2 & -> & R1 & R2)]; [exact (H a (or_introl eq_refl) _ _ R)|].
  apply ordered_app; [exact (H a (or_introl eq_refl) _ _ R1)|]. apply (ordered_more []); [intros ? []|].
  exact (IH (fun b J => H b (or_intror J)) _ _ R2).
Qed.
Lemma ord_par {A} (l : list A) body : (forall a, In a l -> ord [] (body a)) -> ord [] (for_par l body).
Proof.
  intros H tr r R. destruct (for_par_any _ _ _ _ R) as (ts & I & F). apply (ordered_interleaving ts); [exact I|].
  clear I R. induction F as [|a t l ts X F IH]; constructor.
  - destruct X as [->|(r' & R)]; [apply ordered_nil|exact (H a (or_introl eq_refl) _ _ R)].
  - apply IH. intros; apply H; now right.
Qed.
Definition out_dir (run : fc_run) (n : Z) (ty : layer_type) : string :=
  ("./output/" ++ model_name (run_model run) ++ "/" ++ date_text (run_date run) ++ run_name run ++ "/" ++ dec_pad 3 n ++ "/" ++ output_subdir ty)%string.
Lemma out_dir_slash run n ty r : (output_path run n ty ++ r = out_dir run n ty ++ "/" ++ r)%string.
Proof. unfold output_path, out_dir. rewrite !append_assoc. reflexivity. Qed.
Lemma bin_file_no_slash b : contains "/" (bin_file b) = false.
Proof. destruct b; reflexivity. Qed.
Lemma has_dir_bin pre run n ty b sub : In (EDir (output_path run n ty ++ sub)%string) pre -> has_dir pre (output_path run n ty ++ bin_file b)%string.
Proof.
  intro I. exists (out_dir run n ty), (bin_file b). split; [apply out_dir_slash|]. split; [apply bin_file_no_slash|].
  eexists. split; [exact I|]. right. exists sub. apply out_dir_slash.
Qed.
Lemma ord_bin pre faulty bin ty b run n sub : In (EDir (output_path run n ty ++ sub)%string) pre -> ord pre (write_bin faulty bin ty b run n).
Proof.
  intro I. pose proof (has_dir_bin pre run n ty b sub I) as P. unfold write_bin. destruct bin as [data|o|]; cbn [p_let]; try apply ord_end.
  intros tr r [[(r' & [[-> ->]|(_ & -> & ->)] & ->) _]|(t1 & t2 & -> & (r1 & [[-> ->]|(_ & -> & ->)] & H1) & (r2 & H2 & ->))]; try discriminate H1; try apply ordered_nil.
  - apply ordered_cons; [exact P|apply ordered_nil].
  - cbn [app]. apply ordered_cons; [exact P|].
    destruct H2 as [[-> _]|(_ & k & -> & _)]; (apply ordered_cons; [apply in_or_app; right; now left|apply ordered_nil]).
Qed.
Lemma ord_vertical faulty bin ty b run n : ord [] (p_ignore (write_vertical_bin faulty bin ty b run n)).
Proof.
  apply ord_ignore. unfold write_vertical_bin. destruct bin as [data|o|]; cbn [p_let]; try apply ord_end.
  pose proof (ord_bin [EDir (output_path run n ty)] faulty (Ok data) ty b run n EmptyString) as B. rewrite append_nil in B. specialize (B (or_introl eq_refl)).
  pose proof (has_dir_bin [EDir (output_path run n ty)] run n ty b EmptyString) as P. rewrite append_nil in P. specialize (P (or_introl eq_refl)).
  intros tr r [[[[-> _]|(_ & -> & _)] _]|(t0 & t' & -> & [[-> _]|(_ & _ & H0)] & R)]; try discriminate H0; try apply ordered_nil.
  - apply ordered_cons; [exact I|apply ordered_nil].
  - cbn [app]. apply ordered_cons; [exact I|].
    destruct R as [[(r' & [[-> ->]|(_ & -> & ->)] & ->) _]|(t1 & t2 & -> & (r1 & [[-> ->]|(_ & -> & ->)] & H1) & H2)]; try discriminate H1; try apply ordered_nil.
    + apply ordered_cons; [exact P|apply ordered_nil].
    + cbn [app]. apply ordered_cons; [exact P|].
      destruct H2 as [[-> _]|(_ & k & -> & _)]; (apply ordered_cons; [apply in_or_app; right; now left|apply ordered_nil]).
Qed.
(** The runs of saving a tile: the directory cannot be created; the file cannot be created; the image is not completed; it is saved. *)
Lemma save_shape faulty dir q (d : drawable) tr r :
  p_then (p_unwrap (p_disk faulty (EDir dir))) (p_ignore (p_then (p_disk faulty (EPart q d)) (p_disk faulty (EImage q d)))) tr r ->
  (tr = [] /\ faulty = true /\ r = Panic) \/ (tr = [EDir dir] /\ faulty = true /\ r = Ok tt) \/ (tr = [EDir dir; EPart q d] /\ faulty = true /\ r = Ok tt) \/
  (tr = [EDir dir; EPart q d; EImage q d] /\ r = Ok tt).
Proof.
  intros [[(r' & [[-> ->]|(F & -> & ->)] & H) N]|(t1 & t2 & -> & (r1 & [[-> ->]|(F & -> & ->)] & H1) & (r2 & H2 & Hr))]; try discriminate H1.
  - subst r. destruct (N eq_refl).
  - left. auto.
  - right. destruct H2 as [[[[-> ->]|(F & -> & ->)] N]|(t3 & t4 & -> & [[-> _]|(F & -> & E)] & [[-> ->]|(F' & -> & ->)])]; try discriminate E.
    + destruct (N eq_refl).
    + left. auto.
    + right. right. auto.
    + right. left. auto.
Qed.
Lemma ord_save faulty ty run n d z x y : 0 <= y -> ord [] (save_tile_step faulty ty run n d z x y).
Proof.
  intro Y. unfold save_tile_step. set (dir := (output_path run n ty ++ dec z ++ "/" ++ dec x)%string).
  assert (P : has_dir [EDir dir] (dir ++ "/" ++ dec y ++ ".png")%string).
  { exists dir, (dec y ++ ".png")%string. split; [reflexivity|]. split; [rewrite contains_app, dec_no_char by (assumption || reflexivity); reflexivity|].
    exists dir. split; [now left|now left]. }
  assert (P' : forall pre p, has_dir [EDir dir] p -> has_dir (EDir dir :: pre) p).
  { intros pre p (dd & f & E & C & d' & [J|[]] & D). exists dd, f. split; [exact E|]. split; [exact C|]. exists d'. split; [now left|exact D]. }
  intros tr r R. destruct (save_shape _ _ _ _ _ _ R) as [[-> _]|[(-> & _)|[(-> & _)|(-> & _)]]].
  - apply ordered_nil.
  - apply ordered_cons; [exact I|apply ordered_nil].
  - apply ordered_cons; [exact I|]. apply ordered_cons; [exact P|apply ordered_nil].
  - apply ordered_cons; [exact I|]. apply ordered_cons; [exact P|]. apply ordered_cons; [|apply ordered_nil].
    split; [apply (P' [_]), P|right; now left].
Qed.
Lemma position_row chk m p z t : from_position chk m p z = Ok t -> 0 <= t_y t.
Proof.
  intro E. unfold from_position in E. destruct (pow2_u32 chk z); try discriminate. cbn [obind] in E. injection E as <-. cbn [t_y].
  unfold f_to_u32. match goal with |- context [f_to_int ?a ?b ?c] => pose proof (f_to_int_range a b c ltac:(lia)) end; lia.
Qed.
Lemma ord_tiles {T} chk m e (value : lat_lon -> outcome (option T)) color_fn zooms faulty ty run n :
  ord [] (create_all_tiles chk m e zooms value color_fn (save_tile_step faulty ty run n)).
Proof.
  apply ord_seq. intros z _. unfold render_zoom.
  destruct (from_position _ _ _ z) as [a|?|] eqn:Ea; cbn [p_let]; try apply ord_end.
  destruct (from_position chk m {| lat := lat (max_coord e); lon := lon (min_coord e) |} z) as [b|?|] eqn:Eb; cbn [p_let]; try apply ord_end.
  apply position_row in Ea, Eb. apply ord_seq. intros x _. apply ord_par. intros y J. apply in_range in J. unfold render_tile.
  destruct (create_single_tile _ _ _ _ _); try apply ord_end. apply ord_save. lia.
Qed.

Lemma first_of {A} (f : A -> bool) l x rest : filter f l = x :: rest -> exists u v, l = u ++ x :: v /\ filter f u = [].
Proof.
  induction l as [|a l IH]; [discriminate|]. cbn [filter]. destruct (f a) eqn:E.
  - intro H. injection H as -> _. exists [], l. auto.
  - intro H. destruct (IH H) as (u & v & -> & N). exists (a :: u), v. split; [reflexivity|]. cbn [filter]. now rewrite E.
Qed.

(** ** Pieces of the rendering of one step *)
Ltac fa := repeat (first [apply Forall_nil | apply Forall_cons]).
Section Pieces.
  Variables (faulty : bool) (run : fc_run) (n : Z) (ty : layer_type).
  (** The effect is about a path below the step's directory. *)
  Definition below (e : effect) : Prop := exists p rest, effect_path e = Some p /\ p = (output_path run n ty ++ rest)%string.
  (** The piece writes exactly the files [F], and can do so iff [C]. *)
  Record piece (p : prog effect) (F : string -> content -> Prop) (C : Prop) : Prop := {
    pc_effects : effects below p;
    pc_complete : forall tr, p tr (Ok tt) -> C;
    pc_noerr : forall tr o, ~ p tr (Err o);
    pc_files : faulty = false -> forall tr, p tr (Ok tt) -> forall q,
      (exists c, F q c /\ filter (touches q) tr = writes q c) \/ ((forall c, ~ F q c) /\ filter (touches q) tr = []);
    pc_panic : faulty = false -> forall tr, p tr Panic -> ~ C;
    pc_runs : exists tr r, p tr r }.
  Lemma piece_then p q F G C D : piece p F C -> piece q G D -> (forall x c c', F x c -> G x c' -> False) ->
    piece (p_then p q) (fun x c => F x c \/ G x c) (C /\ D).
  Proof.
    intros P Q X. constructor.
    - intros tr r [[R _]|(t1 & t2 & -> & R1 & R2)]; [exact (pc_effects _ _ _ P _ _ R)|].
      apply Forall_app. split; [exact (pc_effects _ _ _ P _ _ R1)|exact (pc_effects _ _ _ Q _ _ R2)].
    - intros tr R. apply p_then_ok in R. destruct R as (t1 & t2 & -> & R1 & R2).
      split; [exact (pc_complete _ _ _ P _ R1)|exact (pc_complete _ _ _ Q _ R2)].
    - intros tr o [[R _]|(t1 & t2 & -> & R1 & R2)]; [exact (pc_noerr _ _ _ P _ _ R)|exact (pc_noerr _ _ _ Q _ _ R2)].
    - intros NF tr R x. apply p_then_ok in R. destruct R as (t1 & t2 & -> & R1 & R2). rewrite filter_app.
      destruct (pc_files _ _ _ P NF _ R1 x) as [(c & Fc & ->)|[N ->]], (pc_files _ _ _ Q NF _ R2 x) as [(c' & Gc & ->)|[N' ->]].
      + destruct (X x c c' Fc Gc).
      + left. exists c. split; [now left|apply app_nil_r].
      + left. exists c'. split; [now right|reflexivity].
      + right. split; [intros c [H|H]; [exact (N c H)|exact (N' c H)]|reflexivity].
    - intros NF tr [[R _]|(t1 & t2 & -> & R1 & R2)] [HC HD]; [exact (pc_panic _ _ _ P NF _ R HC)|exact (pc_panic _ _ _ Q NF _ R2 HD)].
    - destruct (pc_runs _ _ _ P) as (t1 & r1 & R1). destruct (pc_runs _ _ _ Q) as (t2 & r2 & R2). destruct r1 as [[]|o|].
      + exists (t1 ++ t2), r2. right. eauto.
      + exists t1, (Err o). left. split; [exact R1|discriminate].
      + exists t1, Panic. left. split; [exact R1|discriminate].
  Qed.
  Lemma piece_iff p F G C D : piece p F C -> (forall x c, F x c <-> G x c) -> (C <-> D) -> piece p G D.
  Proof.
    intros P X Y. constructor; try apply P.
    - intros tr R. apply Y. exact (pc_complete _ _ _ P _ R).
    - intros NF tr R x. destruct (pc_files _ _ _ P NF _ R x) as [(c & Fc & E)|[N E]]; [left; exists c; rewrite <- X; auto|right].
      split; [|exact E]. intros c H. apply (N c), X, H.
    - intros NF tr R H. apply (pc_panic _ _ _ P NF _ R), Y, H.
  Qed.

  (** A meteobin file. *)
  Definition no_error {A} (o : outcome A) : Prop := forall e, o <> Err e.
  Definition bin_ok {A} (o : outcome A) : Prop := exists a, o = Ok a.
  Definition bin_out (b : bin_type) (bin : outcome bytes) (q : string) (c : content) : Prop :=
    q = (output_path run n ty ++ bin_file b)%string /\ exists data, bin = Ok data /\ c = Data data.
  Lemma filter_bin b data q : filter (touches q) [ECreate b; EWrite b data] = (if String.eqb b q then [ECreate b; EWrite b data] else []).
  Proof. cbn. destruct (String.eqb b q); reflexivity. Qed.
  Lemma bin_out_dec b data q : let p := (output_path run n ty ++ bin_file b)%string in
    (exists c, bin_out b (Ok data) q c /\ filter (touches q) [ECreate p; EWrite p data] = writes q c) \/
    ((forall c, ~ bin_out b (Ok data) q c) /\ filter (touches q) [ECreate p; EWrite p data] = []).
  Proof.
    intro p. rewrite filter_bin. destruct (String.eqb p q) eqn:E.
    - apply String.eqb_eq in E. left. exists (Data data). subst q. split; [split; [reflexivity|eauto]|reflexivity].
    - right. split; [|reflexivity]. intros c [H _]. subst q. fold p in E. rewrite String.eqb_refl in E. discriminate.
  Qed.
  Lemma piece_bin b bin : no_error bin -> piece (write_bin faulty bin ty b run n) (bin_out b bin) (bin_ok bin).
  Proof.
    intro NE. unfold write_bin. destruct bin as [data|e|]; cbn [p_let]; [|destruct (NE e eq_refl)|].
    - set (p := (output_path run n ty ++ bin_file b)%string).
      assert (Bl : forall e', effect_path e' = Some p -> below e') by (intros e' H; exists p, (bin_file b); auto).
      constructor.
      + intros tr r [[(r' & [[-> ->]|(_ & -> & ->)] & ->) _]|(t1 & t2 & -> & (r1 & [[-> ->]|(_ & -> & ->)] & H1) & (r2 & H2 & ->))]; try discriminate H1;
          fa; try (apply Bl; reflexivity).
        destruct H2 as [[-> _]|(_ & k & -> & _)]; fa; apply Bl; reflexivity.
      + intros. exists data. reflexivity.
      + intros tr o [[(r' & [[-> ->]|(_ & -> & ->)] & H) _]|(t1 & t2 & -> & _ & (r2 & [[-> ->]|(_ & k & -> & [->| ->])] & H2))]; discriminate.
      + intros NF tr R q. apply p_then_ok in R. destruct R as (t1 & t2 & -> & (r1 & [[-> ->]|(H & _)] & _) & (r2 & [[-> ->]|(H2 & _)] & _)); try congruence.
        apply bin_out_dec.
      + intros NF tr [[(r' & [[-> ->]|(H & _)] & H') _]|(t1 & t2 & -> & _ & (r2 & [[-> ->]|(H & _)] & H'))]; congruence.
      + exists ([ECreate p] ++ [EWrite p data]), (Ok tt). right. exists [ECreate p], [EWrite p data]. split; [reflexivity|].
        split; [exists (Ok tt); split; [left; auto|reflexivity]|]. exists (Ok tt). split; [left; auto|reflexivity].
    - constructor; try (intros tr [_ H]; discriminate).
      + intros tr r [-> _]. constructor.
      + intros tr o [_ H]. discriminate.
      + intros _ tr [_ H]. discriminate.
      + intros _ tr _ (d & H). discriminate.
      + exists [], Panic. split; reflexivity.
  Qed.
  Lemma piece_vertical b bin : no_error bin -> piece (p_ignore (write_vertical_bin faulty bin ty b run n)) (bin_out b bin) (bin_ok bin).
  Proof.
    intro NE. unfold write_vertical_bin. destruct bin as [data|e|]; cbn [p_let]; [|destruct (NE e eq_refl)|].
    - set (p := (output_path run n ty ++ bin_file b)%string). set (dir := output_path run n ty).
      assert (Bl : forall e', effect_path e' = Some p -> below e') by (intros e' H; exists p, (bin_file b); auto).
      assert (Bd : below (EDir dir)) by (exists dir, EmptyString; rewrite append_nil; auto).
      constructor.
      + intros tr r (r0 & R & _). destruct R as [[[[-> _]|(_ & -> & _)] _]|(t0 & t' & -> & [[-> _]|(_ & _ & H0)] & R)]; try discriminate H0; fa; try exact Bd.
        destruct R as [[(r' & [[-> ->]|(_ & -> & ->)] & ->) _]|(t1 & t2 & -> & (r1 & [[-> ->]|(_ & -> & ->)] & H1) & H2)]; try discriminate H1;
          fa; try (apply Bl; reflexivity).
        destruct H2 as [[-> _]|(_ & k & -> & _)]; fa; apply Bl; reflexivity.
      + intros. exists data. reflexivity.
      + intros tr o (r0 & _ & H). destruct r0; discriminate.
      + intros NF tr (r0 & R & H) q. subst faulty.
        destruct R as [[[[_ ->]|(X & _)] X0]|(t0 & t' & -> & [[-> _]|(X & _)] & R)]; try congruence.
        destruct R as [[(r' & [[-> ->]|(X & _)] & ->) N]|(t1 & t2 & -> & (r1 & [[-> ->]|(X & _)] & H1) & [[-> _]|(X2 & _)])]; try congruence.
        cbn [app]. change (filter (touches q) (EDir dir :: [ECreate p; EWrite p data])) with (filter (touches q) [ECreate p; EWrite p data]).
        apply bin_out_dec.
      + intros NF tr (r0 & R & H). subst faulty. destruct r0 as [[]|?|]; try discriminate. exfalso.
        destruct R as [[[[_ X]|(X & _)] _]|(t0 & t' & -> & [[-> _]|(X & _)] & R)]; try congruence.
        destruct R as [[(r' & [[-> ->]|(X & _)] & X') N]|(t1 & t2 & -> & (r1 & [[-> ->]|(X & _)] & H1) & [[_ X3]|(X2 & _)])]; try congruence.
      + exists [EDir dir; ECreate p; EWrite p data], (Ok tt), (Ok tt). split; [|reflexivity]. right. exists [EDir dir], [ECreate p; EWrite p data].
        split; [reflexivity|]. split; [left; auto|]. right. exists [ECreate p], [EWrite p data]. split; [reflexivity|].
        split; [exists (Ok tt); split; [left; auto|reflexivity]|]. left; auto.
    - constructor.
      + intros tr r (r0 & [-> _] & _). constructor.
      + intros tr (r0 & [_ ->] & H). discriminate.
      + intros tr o (r0 & [_ ->] & H). discriminate.
      + intros _ tr (r0 & [_ ->] & H). discriminate.
      + intros _ tr _ (d & H). discriminate.
      + exists [], Panic, Panic. split; [split; reflexivity|reflexivity].
  Qed.

  (** The map tiles. *)
  Lemma covers_nonneg chk m e z x y : z < 32 -> covers chk m e z x y -> 0 <= x /\ 0 <= y.
  Proof.
    intros Hz (a & b & Ea & Eb & X & Y).
    assert (G : forall p t, from_position chk m p z = Ok t -> 0 <= t_x t /\ 0 <= t_y t).
    { intros p t E. unfold from_position in E. destruct (pow2_u32 chk z); try discriminate. cbn [obind] in E. injection E as <-. cbn [t_x t_y].
      unfold f_to_u32. split; match goal with |- context [f_to_int ?a ?b ?c] => pose proof (f_to_int_range a b c ltac:(lia)) end; lia. }
    destruct (G _ _ Ea), (G _ _ Eb). unfold ImagingSpec.between in *. lia.
  Qed.
  Definition zl : Z := 0.
  Definition zh : Z := last_zoom (run_model run).
  Lemma zooms_small : 0 <= zl /\ zl <= zh /\ zh < 32.
  Proof. unfold zl, zh. destruct (run_model run); cbn; lia. Qed.
  Definition tile_out (chk : bool) (m : libm) (e : extent) (make : tile -> outcome drawable) (q : string) (c : content) : Prop :=
    exists z x y d, zl <= z <= zh /\ covers chk m e z x y /\ make {| t_x := x; t_y := y; t_zoom := z |} = Ok d /\
      q = file_path run n (TileFile ty z x y) /\ c = Png d.
  Definition tiles_ok (chk : bool) (m : libm) (e : extent) (make : tile -> outcome drawable) : Prop :=
    forall z x y, zl <= z <= zh -> covers chk m e z x y -> exists d, make {| t_x := x; t_y := y; t_zoom := z |} = Ok d.
  Lemma save_path z x y : ((output_path run n ty ++ dec z ++ "/" ++ dec x) ++ "/" ++ dec y ++ ".png")%string = file_path run n (TileFile ty z x y).
  Proof. cbn [file_path]. rewrite !append_assoc. reflexivity. Qed.
  Lemma save_effects d z x y : effects below (save_tile_step faulty ty run n d z x y).
  Proof.
    unfold save_tile_step. rewrite save_path.
    assert (B1 : below (EDir (output_path run n ty ++ dec z ++ "/" ++ dec x)%string)) by (eexists; eexists; split; reflexivity).
    assert (B2 : below (EPart (file_path run n (TileFile ty z x y)) d)) by (eexists; eexists; split; reflexivity).
    assert (B3 : below (EImage (file_path run n (TileFile ty z x y)) d)) by (eexists; eexists; split; reflexivity).
    intros tr r R. destruct (save_shape _ _ _ _ _ _ R) as [[-> _]|[[-> _]|[[-> _]|[-> _]]]]; fa; assumption.
  Qed.
  Lemma save_ok d z x y tr : save_tile_step faulty ty run n d z x y tr (Ok tt) ->
    In (EDir (output_path run n ty ++ dec z ++ "/" ++ dec x)%string) tr /\
    (faulty = false -> tr = [EDir (output_path run n ty ++ dec z ++ "/" ++ dec x)%string; EPart (file_path run n (TileFile ty z x y)) d; EImage (file_path run n (TileFile ty z x y)) d]).
  Proof.
    unfold save_tile_step. rewrite save_path. intro R. destruct (save_shape _ _ _ _ _ _ R) as [(_ & _ & H)|[(-> & F & _)|[(-> & F & _)|[-> _]]]]; [discriminate H|..];
      (split; [now left|congruence]).
  Qed.
  Lemma save_noerr d z x y tr o : save_tile_step faulty ty run n d z x y tr (Err o) -> False.
  Proof. intro R. destruct (save_shape _ _ _ _ _ _ R) as [(_ & _ & H)|[(_ & _ & H)|[(_ & _ & H)|[_ H]]]]; discriminate H. Qed.
  Lemma save_panic d z x y tr : save_tile_step faulty ty run n d z x y tr Panic -> faulty = true.
  Proof. intro R. destruct (save_shape _ _ _ _ _ _ R) as [(_ & F & _)|[(_ & _ & H)|[(_ & _ & H)|[_ H]]]]; [exact F|discriminate H..]. Qed.
  Lemma save_run_exists d z x y : exists t r, save_tile_step faulty ty run n d z x y t r.
  Proof.
    set (q := ((output_path run n ty ++ dec z ++ "/" ++ dec x) ++ "/" ++ dec y ++ ".png")%string).
    exists ([EDir (output_path run n ty ++ dec z ++ "/" ++ dec x)%string] ++ [EPart q d] ++ [EImage q d]), (Ok tt).
    unfold save_tile_step. right. eexists; eexists. split; [reflexivity|]. split; exists (Ok tt); (split; [|reflexivity]); [left; auto|].
    right. exists [EPart q d], [EImage q d]. split; [reflexivity|]. split; left; auto.
  Qed.
  Lemma filter_other q l ts : Forall2 (save_run (save_tile_step false ty run n)) l ts -> faulty = false ->
    (forall s, In s l -> file_path run n (TileFile ty (s_zoom s) (s_x s) (s_y s)) <> q) -> filter (touches q) (concat ts) = [].
  Proof.
    intros F NF. rewrite <- NF in F. induction F as [|s t l ts R F IH]; intro H; [reflexivity|]. cbn [concat]. rewrite filter_app, IH by (intros; apply H; now right).
    destruct (save_ok _ _ _ _ _ R) as [_ E]. rewrite (E NF). cbn [filter touches].
    destruct (String.eqb _ q) eqn:Q; [|reflexivity]. apply String.eqb_eq in Q. destruct (H s (or_introl eq_refl) Q).
  Qed.
  Lemma piece_tiles {T} chk m e (value : lat_lon -> outcome (option T)) color_fn : valid_run run -> 0 <= n ->
    piece (p_ignore (create_all_tiles chk m e (zoom_range (run_model run)) value color_fn (save_tile_step faulty ty run n)))
      (tile_out chk m e (create_single_tile chk m value color_fn)) (tiles_ok chk m e (create_single_tile chk m value color_fn)).
  Proof.
    intros VR N0. assert (ZZ : zoom_range (run_model run) = (zl, zh)) by (unfold zl, zh; destruct (run_model run); reflexivity). rewrite ZZ.
    pose proof zooms_small as ZS.
    assert (OK : forall tr r, create_all_tiles chk m e (zl, zh) value color_fn (save_tile_step faulty ty run n) tr r -> r = Ok tt \/ r = Panic).
    { intros tr r R. destruct r as [[]|o|]; auto. destruct (all_fail chk m e value color_fn _ zl zh tr (Err o) ltac:(lia) save_noerr R ltac:(discriminate)) as [H _]. discriminate. }
    assert (TK : forall l, create_all_tiles chk m e (zl, zh) value color_fn observe l (Ok tt) -> tiles_ok chk m e (create_single_tile chk m value color_fn)).
    { intros l R z x y Hz C. destruct (c32_complete_proof _ _ _ _ _ _ _ _ _ R) as (_ & I & F). assert (J : In (z, x, y) (map place l)) by (apply I; auto).
      apply in_map_iff in J. destruct J as (s & E & J). rewrite Forall_forall in F. specialize (F s J). injection E as <- <- <-. eauto. }
    constructor.
    - intros tr r (r0 & R & _). exact (all_effects chk m e value color_fn _ below zl zh save_effects tr r0 R).
    - intros tr (r0 & R & H). destruct (OK _ _ R) as [->| ->]; [|discriminate].
      destruct (seen_all chk m e value color_fn _ _ _ R) as (l & ts & O & _). exact (TK l O).
    - intros tr o (r0 & R & H). destruct (OK _ _ R) as [->| ->]; discriminate.
    - intros NF tr (r0 & R & H) q. destruct (OK _ _ R) as [->| ->]; [|discriminate].
      destruct (seen_all chk m e value color_fn _ _ _ R) as (l & ts & O & F & P). rewrite NF in F.
      destruct (c32_complete_proof _ _ _ _ _ _ _ _ _ O) as (ND & I & FC).
      assert (Pq : Permutation (filter (touches q) tr) (filter (touches q) (concat ts))).
      { clear -P. induction P; cbn [filter]; auto.
        - destruct (touches q x); [now constructor|assumption].
        - destruct (touches q x), (touches q y); try constructor; reflexivity.
        - etransitivity; eassumption. }
      assert (PR : forall s, In s l -> 0 <= s_zoom s /\ 0 <= s_x s /\ 0 <= s_y s).
      { intros s J. assert (K : In (place s) (map place l)) by (now apply in_map). apply I in K. destruct K as [K1 K2].
        apply covers_nonneg in K2; lia. }
      destruct (in_dec string_dec q (map (fun s => file_path run n (TileFile ty (s_zoom s) (s_x s) (s_y s))) l)) as [J|J].
      + left. apply in_map_iff in J. destruct J as (s & Eq & J). exists (Png (s_content s)). split.
        * assert (K : In (place s) (map place l)) by (now apply in_map). apply I in K. destruct K as [K1 K2].
          exists (s_zoom s), (s_x s), (s_y s), (s_content s). split; [exact K1|]. split; [exact K2|]. rewrite Forall_forall in FC. split; [apply FC, J|]. auto.
        * destruct (in_split _ _ J) as (l1 & l2 & ->). apply Forall2_app_inv_l in F. destruct F as (ts1 & ts2 & F1 & F2 & ->).
          apply Forall2_cons_inv in F2. destruct F2 as (t & ts2' & -> & R2 & F2').
          rewrite concat_app in Pq. cbn [concat] in Pq. rewrite !filter_app in Pq.
          assert (OT : forall s', In s' l1 \/ In s' l2 -> file_path run n (TileFile ty (s_zoom s') (s_x s') (s_y s')) <> q).
          { intros s' J' E'. rewrite <- Eq in E'. cbn [file_path] in E'. apply append_inv_head in E'.
            destruct (PR s J) as (A1 & A2 & A3). destruct (PR s') as (A1' & A2' & A3'); [apply in_or_app; destruct J'; [now left|right; now right]|].
            apply tile_path_inv in E'; try assumption. destruct E' as (E1 & E2 & E3).
            assert (PL : place s' = place s) by (unfold place; congruence).
            rewrite map_app in ND. cbn [map] in ND. apply NoDup_remove_2 in ND. apply ND. rewrite <- PL. apply in_or_app.
            destruct J' as [J'|J']; [left|right]; now apply in_map. }
          rewrite (filter_other q l1 ts1 F1 NF), (filter_other q l2 ts2' F2' NF) in Pq by (intros; apply OT; auto).
          rewrite app_nil_r in Pq. cbn [app] in Pq. red in R2. rewrite <- NF in R2. destruct (save_ok _ _ _ _ _ R2) as [_ E2]. rewrite (E2 NF) in Pq. cbn [filter touches] in Pq.
          rewrite Eq, String.eqb_refl in Pq. apply Permutation_sym, Permutation_length_2_inv in Pq. destruct Pq as [Pq|Pq]; [exact Pq|].
          destruct (first_of (touches q) tr _ _ Pq) as (u & v & Etr & Nu).
          pose proof (ord_tiles chk m e value color_fn (zl, zh) faulty ty run n tr _ R u _ v Etr) as [_ J2]. cbn [app] in J2.
          assert (J3 : In (EPart q (s_content s)) (filter (touches q) u)) by (apply filter_In; split; [exact J2|cbn; apply String.eqb_refl]). rewrite Nu in J3. destruct J3.
      + right. split.
        * intros c (z & x & y & d & Hz & C & _ & -> & _). apply J. assert (K : In (z, x, y) (map place l)) by (apply I; auto).
          apply in_map_iff in K. destruct K as (s & E & K). apply in_map_iff. exists s. injection E as -> -> ->. auto.
        * rewrite (filter_other q l ts F NF) in Pq; [apply Permutation_sym, Permutation_nil in Pq; exact Pq|].
          intros s K E. apply J. apply in_map_iff. eauto.
    - intros NF tr (r0 & R & H) TO. destruct r0 as [[]|?|]; try discriminate.
      destruct (all_fail chk m e value color_fn _ zl zh tr Panic ltac:(lia) save_noerr R ltac:(discriminate)) as (_ & z & x & y & Hz & C & [K|(d & t & K)]).
      + destruct (TO z x y Hz C) as (d & E). exact (K d E).
      + apply save_panic in K. congruence.
    - destruct (all_run chk m e value color_fn _ zl zh save_run_exists) as (tr & r & R). exists tr, (match r with Panic => Panic | _ => Ok tt end), r. auto.
  Qed.
  (** A directory for the step is made when the tiles are. *)
  Lemma tiles_make_dir {T} chk m e (value : lat_lon -> outcome (option T)) color_fn tr :
    p_ignore (create_all_tiles chk m e (zoom_range (run_model run)) value color_fn (save_tile_step faulty ty run n)) tr (Ok tt) ->
    exists rest, In (EDir (output_path run n ty ++ rest)%string) tr.
  Proof.
    assert (ZZ : zoom_range (run_model run) = (zl, zh)) by (unfold zl, zh; destruct (run_model run); reflexivity). rewrite ZZ.
    pose proof zooms_small as ZS. intros (r0 & R & H). destruct r0 as [[]|o|]; [| |discriminate].
    2: { destruct (all_fail chk m e value color_fn _ zl zh tr (Err o) ltac:(lia) save_noerr R ltac:(discriminate)) as [X _]. discriminate. }
    destruct (seen_all chk m e value color_fn _ _ _ R) as (l & ts & O & F & P).
    destruct (c32_complete_proof _ _ _ _ _ _ _ _ _ O) as (_ & I & _).
    destruct (from_position_col chk m (corner1 e) zl ltac:(lia)) as (a & Ea & _). destruct (from_position_col chk m (corner2 e) zl ltac:(lia)) as (b & Eb & _).
    assert (J : In (zl, t_x a, t_y a) (map place l)).
    { apply I. split; [lia|]. exists a, b. unfold ImagingSpec.between. repeat split; try assumption; lia. }
    apply in_map_iff in J. destruct J as (s & _ & J). destruct (in_split _ _ J) as (l1 & l2 & ->).
    apply Forall2_app_inv_l in F. destruct F as (ts1 & ts2 & F1 & F2 & ->). apply Forall2_cons_inv in F2. destruct F2 as (t & ts2' & -> & R2 & F2').
    destruct (save_ok _ _ _ _ _ R2) as [D _]. eexists. rewrite P, concat_app. cbn [concat]. apply in_or_app. right. apply in_or_app. left. exact D.
  Qed.
End Pieces.

(** ** The computed bytes are never an error *)
Lemma ne_ok {A} (a : A) : no_error (Ok a).
Proof. intro. discriminate. Qed.
Lemma ne_bind {A B} (o : outcome A) (f : A -> outcome B) : no_error o -> (forall a, no_error (f a)) -> no_error (obind o f).
Proof. intros H G e. destruct o; cbn; [apply G|intro X; injection X as ->; exact (H e eq_refl)|discriminate]. Qed.
Lemma ne_map {A B} (f : A -> B) (o : outcome A) : no_error o -> no_error (omap f o).
Proof. intros H e. destruct o; cbn; [discriminate|intro X; injection X as ->; exact (H e eq_refl)|discriminate]. Qed.
Lemma ne_push body l : (forall i, no_error (body i)) -> no_error (push_all body l).
Proof. intro H. induction l as [|i l IH]; cbn [push_all]; [apply ne_ok|]. apply ne_bind; [apply H|]. intro. apply ne_map. exact IH. Qed.
Lemma ne_index {A} (l : list A) i : no_error (index_vec l i).
Proof. intro e. unfold index_vec. destruct (nth_error l _); discriminate. Qed.
Lemma ne_xy V g x y : no_error (value_by_xy V g x y).
Proof. unfold value_by_xy. destruct (index_by_xy _ _ _); [apply ne_map, ne_index|apply ne_ok]. Qed.
Lemma ne_weather v : no_error (weather_from_value v).
Proof. intro e. unfold weather_from_value. repeat (match goal with |- match ?x with _ => _ end <> _ => destruct x end; try discriminate). Qed.
Lemma ne_level gs x y i : no_error (level_value gs x y i).
Proof. apply ne_bind; [apply ne_index|]. intro. exact (ne_xy u8_type _ x y). Qed.
Ltac ne32 := match goal with |- no_error (value_by_xy ?V ?g ?x ?y) => exact (ne_xy V g x y) | |- no_error (temp_by_xy ?l ?x ?y) => exact (ne_xy f32_type l x y) | |- no_error (clct_by_xy ?l ?x ?y) => exact (ne_xy f32_type (we_clct l) x y) | |- no_error (ceiling_by_xy ?l ?x ?y) => exact (ne_xy f32_type (we_ceiling l) x y) end.
Lemma ne_precip l : no_error (precip_bin l).
Proof.
  apply ne_push. intro y. apply ne_push. intro x. apply ne_map. apply ne_bind; [ne32|]. intro. apply ne_bind; [ne32|]. intro.
  apply ne_bind; [ne32|]. intro. apply ne_ok.
Qed.
Lemma ne_temp l : no_error (temp_bin l).
Proof. apply ne_push. intro y. apply ne_push. intro x. apply ne_map; ne32. Qed.
Lemma ne_wind l : no_error (wind_bin l).
Proof.
  apply ne_push. intro y. apply ne_push. intro x. apply ne_bind; [apply ne_bind; [ne32|]; intro; apply ne_bind; [ne32|]; intro; apply ne_ok|].
  intro. apply ne_map. unfold gusts_by_xy, gusts. destruct (wl_gusts l); [ne32|apply ne_ok].
Qed.
Lemma ne_weather_bin l : no_error (weather_bin l).
Proof.
  apply ne_push. intro y. apply ne_push. intro x. apply ne_bind.
  - unfold ww_by_xy. destruct (we_ww l); [|apply ne_ok]. apply ne_bind; [ne32|]. intros [v'|]; [apply ne_map, ne_weather|apply ne_ok].
  - intro. apply ne_bind; [ne32|]. intro. apply ne_bind; [ne32|]. intro. apply ne_ok.
Qed.
Lemma ne_vertical_cloud l : no_error (vertical_cloud_bin l).
Proof.
  apply ne_bind; [apply ne_map, ne_index|]. intros [[w h] k]. apply ne_push. intro y. apply ne_push. intro x. apply ne_push. intro i.
  apply ne_bind; [apply ne_level|]. intro. apply ne_bind; [apply ne_level|]. intro. apply ne_ok.
Qed.
Lemma ne_vertical_wind l : no_error (vertical_wind_bin l).
Proof.
  apply ne_bind; [apply ne_map, ne_index|]. intros [[w h] k]. apply ne_push. intro y. apply ne_push. intro x. apply ne_push. intro i.
  apply ne_bind; [apply ne_level|]. intro. apply ne_bind; [|intro; apply ne_ok].
  apply ne_bind; [apply ne_level|]. intro. apply ne_bind; [apply ne_level|]. intro. apply ne_ok.
Qed.

(** ** The five kinds *)
Section Body.
  Variables (chk : bool) (m : libm).
  Definition files_of (k : kind) (run : fc_run) (s : fc_step) (l : k_data k) (q : string) (c : content) : Prop :=
    exists f, q = file_path run (st_nr s) f /\ produces chk m k run l f c.
  Definition good_body (k : kind) (body : bool -> fc_run -> k_data k -> fc_step -> prog effect) : Prop :=
    (forall faulty run steps filter read, k_render k faulty run steps filter read = render_steps filter steps read (body faulty run)) /\
    (forall faulty run l s, valid_run run -> 0 <= st_nr s ->
       piece faulty run (st_nr s) (k_type k) (body faulty run l s) (files_of k run s l) (computable chk m k run l)) /\
    (forall faulty run l s, ord [] (body faulty run l s)).
  Lemma tile_bin_disjoint run n ty e make b bin q c c' : valid_run run -> 0 <= n -> tile_out run n ty chk m e make q c -> bin_out run n ty b bin q c' -> False.
  Proof.
    intros V N (z & x & y & d & Hz & C & _ & -> & _) (E & _). cbn [file_path] in E. apply append_inv_head in E. symmetry in E.
    apply bin_path_no_tile in E; [contradiction|]. pose proof (zooms_small run). lia.
  Qed.
  Lemma tiles_body {T} faulty run n ty e (value : lat_lon -> outcome (option T)) color_fn (b : bin_type) (bin : outcome bytes) : valid_run run -> 0 <= n -> no_error bin ->
    piece faulty run n ty (p_then (p_ignore (create_all_tiles chk m e (zoom_range (run_model run)) value color_fn (save_tile_step faulty ty run n)))
                             (write_bin faulty bin ty b run n))
      (fun q c => tile_out run n ty chk m e (create_single_tile chk m value color_fn) q c \/ bin_out run n ty b bin q c)
      (tiles_ok run chk m e (create_single_tile chk m value color_fn) /\ bin_ok bin).
  Proof.
    intros V N NE. apply piece_then; [now apply piece_tiles|now apply piece_bin|]. intros x c c'. now apply tile_bin_disjoint.
  Qed.
  Lemma tiles_body_ord {T} faulty run n ty e (value : lat_lon -> outcome (option T)) color_fn p :
    (forall pre sub, In (EDir (output_path run n ty ++ sub)%string) pre -> ord pre p) ->
    ord [] (p_then (p_ignore (create_all_tiles chk m e (zoom_range (run_model run)) value color_fn (save_tile_step faulty ty run n))) p).
  Proof.
    intros H tr r [[R _]|(t1 & t2 & -> & R1 & R2)].
    - exact (ord_ignore _ _ (ord_tiles _ _ _ _ _ _ _ _ _ _) _ _ R).
    - apply ordered_app; [exact (ord_ignore _ _ (ord_tiles _ _ _ _ _ _ _ _ _ _) _ _ R1)|].
      destruct (tiles_make_dir _ _ _ _ _ _ _ _ _ _ R1) as (sub & D). exact (H t1 sub D _ _ R2).
  Qed.
  Lemma one_tiled k run s (l : k_data k) e make b bin :
    k_tiles k l = Some (e, make) -> k_bins k l = [(b, bin)] -> bin_layer b = k_type k ->
    (forall q c, (tile_out run (st_nr s) (k_type k) chk m e make q c \/ bin_out run (st_nr s) (k_type k) b bin q c) <-> files_of k run s l q c) /\
    ((tiles_ok run chk m e make /\ bin_ok bin) <-> computable chk m k run l).
  Proof.
    intros Et Eb El. split.
    - intros q c. split.
      + intros [(z & x & y & d & Hz & C & M & Eq & Ec)|(Eq & data & Ed & Ec)].
        * exists (TileFile (k_type k) z x y). split; [exact Eq|]. split; [reflexivity|]. exists d. split; [|exact Ec]. exists e, make. auto.
        * exists (BinFile b). cbn [file_path]. rewrite El. split; [exact Eq|]. exists data. rewrite Eb, Ed. split; [now left|exact Ec].
      + intros ([t z x y|b'] & Eq & P); cbn [produces] in P.
        * destruct P as (-> & d & (e' & make' & E' & Hz & C & M) & Ec). left. rewrite Et in E'. injection E' as <- <-. exists z, x, y, d. auto.
        * destruct P as (data & I & Ec). rewrite Eb in I. destruct I as [I|[]]. injection I as <- Ed. right. cbn [file_path] in Eq. rewrite El in Eq.
          split; [exact Eq|]. exists data. auto.
    - unfold computable. split.
      + intros [TO (data & BO)]. split.
        * intros z x y o (e' & make' & E' & Hz & C & ->). rewrite Et in E'. injection E' as <- <-. exact (TO z x y Hz C).
        * intros b' o I. rewrite Eb in I. destruct I as [I|[]]. injection I as <- <-. eauto.
      + intros [TO BO]. split.
        * intros z x y Hz C. apply (TO z x y). exists e, make. auto.
        * apply (BO b). rewrite Eb. now left.
  Qed.
  Lemma one_vertical k run s (l : k_data k) b bin : k_tiles k l = None -> k_bins k l = [(b, bin)] -> bin_layer b = k_type k ->
    (forall q c, bin_out run (st_nr s) (k_type k) b bin q c <-> files_of k run s l q c) /\ (bin_ok bin <-> computable chk m k run l).
  Proof.
    intros Et Eb El. split.
    - intros q c. split.
      + intros (Eq & data & Ed & Ec). exists (BinFile b). cbn [file_path]. rewrite El. split; [exact Eq|]. exists data. rewrite Eb, Ed. split; [now left|exact Ec].
      + intros ([t z x y|b'] & Eq & P); cbn [produces] in P.
        * destruct P as (-> & d & (e' & make' & E' & _) & Ec). congruence.
        * destruct P as (data & I & Ec). rewrite Eb in I. destruct I as [I|[]]. injection I as <- Ed. cbn [file_path] in Eq. rewrite El in Eq.
          split; [exact Eq|]. exists data. auto.
    - unfold computable. split.
      + intros (data & BO). split.
        * intros z x y o (e' & make' & E' & _). congruence.
        * intros b' o I. rewrite Eb in I. destruct I as [I|[]]. injection I as <- <-. eauto.
      + intros [_ BO]. apply (BO b). rewrite Eb. now left.
  Qed.
  Lemma kind_body k : In k (kinds chk m) -> exists body, good_body k body.
  Proof.
    intros [<-|[<-|[<-|[<-|[<-|[]]]]]].
    - eexists. split; [reflexivity|]. split.
      + intros faulty run l s V N. cbn [k_type cloud_precip_kind].
        set (e := layer_extent (cp_cloud (fst l))).
        set (make := create_single_tile chk m (cloud_and_precip_by_lat_lon (fst l)) (cloud_precip_color chk)).
        apply piece_iff with (F := fun q c => tile_out run (st_nr s) CloudPrecip chk m e make q c \/
            (bin_out run (st_nr s) CloudPrecip BinPrecip (precip_bin (fst l)) q c \/ bin_out run (st_nr s) CloudPrecip BinWeather (weather_bin (snd l)) q c))
          (C := tiles_ok run chk m e make /\ (bin_ok (precip_bin (fst l)) /\ bin_ok (weather_bin (snd l)))).
        * apply piece_then; [now apply piece_tiles| |].
          -- apply piece_then; [apply piece_bin, ne_precip|apply (piece_bin faulty run (st_nr s) CloudPrecip BinWeather), ne_weather_bin|].
             intros x c c' (E1 & _) (E2 & _). rewrite E2 in E1. apply append_inv_head in E1. discriminate.
          -- intros x c c' H [H'|H']; revert H H'; now apply tile_bin_disjoint.
        * intros q c. split.
          -- intros [(z & x & y & d & Hz & C & M & Eq & Ec)|[(Eq & data & Ed & Ec)|(Eq & data & Ed & Ec)]].
             ++ exists (TileFile CloudPrecip z x y). split; [exact Eq|]. split; [reflexivity|]. exists d. split; [|exact Ec]. exists e, make. auto.
             ++ exists (BinFile BinPrecip). split; [exact Eq|]. exists data. cbn [k_bins cloud_precip_kind]. rewrite Ed. split; [now left|exact Ec].
             ++ exists (BinFile BinWeather). split; [exact Eq|]. exists data. cbn [k_bins cloud_precip_kind]. rewrite Ed. split; [right; now left|exact Ec].
          -- intros ([t z x y|b'] & Eq & P); cbn [produces] in P.
             ++ destruct P as (-> & d & (e' & make' & E' & Hz & C & M) & Ec). left. cbn [k_tiles cloud_precip_kind] in E'. injection E' as <- <-. exists z, x, y, d. auto.
             ++ destruct P as (data & I & Ec). cbn [k_bins cloud_precip_kind] in I. destruct I as [I|[I|[]]]; injection I as <- Ed; right; [left|right]; (split; [exact Eq|]; exists data; auto).
        * unfold computable. split.
          -- intros [TO ((d1 & B1) & (d2 & B2))]. split.
             ++ intros z x y o (e' & make' & E' & Hz & C & ->). cbn [k_tiles cloud_precip_kind] in E'. injection E' as <- <-. exact (TO z x y Hz C).
             ++ intros b' o I. destruct I as [I|[I|[]]]; injection I as <- <-; eauto.
          -- intros [TO BO]. split; [|split].
             ++ intros z x y Hz C. apply (TO z x y). exists e, make. auto.
             ++ apply (BO BinPrecip). now left.
             ++ apply (BO BinWeather). right. now left.
      + intros faulty run l s. apply tiles_body_ord. intros pre sub D tr r [[R _]|(t1 & t2 & -> & R1 & R2)].
        * exact (ord_bin _ _ _ _ _ _ _ _ D _ _ R).
        * apply ordered_app; [exact (ord_bin _ _ _ _ _ _ _ _ D _ _ R1)|]. refine (ord_bin (pre ++ t1) _ _ Weather _ _ _ sub _ _ _ R2). apply in_or_app. left. exact D.
    - eexists. split; [reflexivity|]. split.
      + intros faulty run l s V N. destruct (one_tiled (wind_kind chk m) run s l _ _ _ _ eq_refl eq_refl eq_refl) as [X Y].
        refine (piece_iff _ _ _ _ _ _ _ _ _ _ X Y). apply tiles_body; [exact V|exact N|apply ne_wind].
      + intros faulty run l s. apply tiles_body_ord. intros pre sub D. exact (ord_bin _ _ _ _ _ _ _ _ D).
    - eexists. split; [reflexivity|]. split.
      + intros faulty run l s V N. destruct (one_tiled (temp_kind chk m) run s l _ _ _ _ eq_refl eq_refl eq_refl) as [X Y].
        refine (piece_iff _ _ _ _ _ _ _ _ _ _ X Y). apply tiles_body; [exact V|exact N|apply ne_temp].
      + intros faulty run l s. apply tiles_body_ord. intros pre sub D. exact (ord_bin _ _ _ _ _ _ _ _ D).
    - eexists. split; [reflexivity|]. split.
      + intros faulty run l s V N. destruct (one_vertical vertical_cloud_kind run s l _ _ eq_refl eq_refl eq_refl) as [X Y].
        refine (piece_iff _ _ _ _ _ _ _ _ _ _ X Y). apply piece_vertical, ne_vertical_cloud.
      + intros faulty run l s. apply ord_vertical.
    - eexists. split; [reflexivity|]. split.
      + intros faulty run l s V N. destruct (one_vertical vertical_wind_kind run s l _ _ eq_refl eq_refl eq_refl) as [X Y].
        refine (piece_iff _ _ _ _ _ _ _ _ _ _ X Y). apply piece_vertical, ne_vertical_wind.
      + intros faulty run l s. apply ord_vertical.
  Qed.
End Body.

(** ** The rendering of the steps *)
Lemma skipped_wanted filter s : skipped filter s = false <-> wanted filter s.
Proof.
  unfold skipped, wanted. destruct filter as [|z f]; cbn [negb andb]; [split; auto|].
  rewrite negb_false_iff, existsb_exists. split.
  - intros (x & I & E). apply Z.eqb_eq in E. subst. auto.
  - intros [H|I]; [discriminate|]. exists (st_nr s). split; [exact I|apply Z.eqb_refl].
Qed.
Lemma reads_app a b : reads (a ++ b) = reads a ++ reads b.
Proof. unfold reads. apply flat_map_app. Qed.
Lemma reads_perm a b : Permutation a b -> Permutation (reads a) (reads b).
Proof. intro P. unfold reads. apply Permutation_flat_map. exact P. Qed.
Lemma reads_below run n ty tr : Forall (below run n ty) tr -> reads tr = [].
Proof. induction 1 as [|e tr (p & r & E & _) F IH]; [reflexivity|]. destruct e; try discriminate; exact IH. Qed.
Lemma below_path run n ty e p : below run n ty e -> effect_path e = Some p -> exists rest, p = (output_path run n ty ++ rest)%string.
Proof. intros (p' & rest & E & E1) E'. exists rest. congruence. Qed.

Lemma produces_final chk m k run l f c : produces chk m k run l f c -> final c.
Proof. destruct f; cbn [produces]; [intros (_ & d & _ & ->)|intros (data & _ & ->)]; exact I. Qed.
Section Steps.
  Variables (chk : bool) (m : libm) (k : kind) (body : bool -> fc_run -> k_data k -> fc_step -> prog effect).
  Hypothesis (GB : good_body chk m k body).
  Variables (faulty : bool) (run : fc_run) (fl : list Z) (read : fc_step -> outcome (k_data k) -> Prop).
  Hypothesis (VR : valid_run run).
  Definition elem (s : fc_step) : prog effect :=
    if skipped fl s then p_end (Ok tt) else p_then (p_emit (ERead s)) (p_call (read s) (fun l => body faulty run l s)).
  Lemma elem_skip s tr r : ~ wanted fl s -> elem s tr r -> tr = [] /\ r = Ok tt.
  Proof.
    intros W R. unfold elem in R. destruct (skipped fl s) eqn:E; [exact R|]. apply skipped_wanted in E. contradiction.
  Qed.
  Lemma elem_run s tr r : wanted fl s -> elem s tr r -> exists o t, tr = ERead s :: t /\ read s o /\
    match o with Ok l => body faulty run l s t r | Err e => t = [] /\ r = Err e | Panic => t = [] /\ r = Panic end.
  Proof.
    intros W R. apply skipped_wanted in W. unfold elem in R. rewrite W in R.
    destruct R as [[[-> ->] N]|(t1 & t2 & -> & [-> _] & (o & Ro & P))]; [contradiction|]. exists o, t2. split; [reflexivity|]. split; [exact Ro|].
    destruct o; exact P.
  Qed.
  Lemma elem_dec s : wanted fl s \/ ~ wanted fl s.
  Proof. rewrite <- skipped_wanted. destruct (skipped fl s); [right; discriminate|left; reflexivity]. Qed.
  Definition own (s : fc_step) (e : effect) : Prop := e = ERead s \/ below run (st_nr s) (k_type k) e.
  Lemma elem_effects s tr r : 0 <= st_nr s -> elem s tr r -> (tr = [] /\ (wanted fl s -> False) /\ r = Ok tt) \/
    (wanted fl s /\ reads tr = [s] /\ Forall (own s) tr).
  Proof.
    intros N R. destruct GB as (_ & B & _). destruct (elem_dec s) as [W|W].
    - right. destruct (elem_run s tr r W R) as (o & t & -> & Ro & P). split; [exact W|].
      assert (F : Forall (below run (st_nr s) (k_type k)) t).
      { destruct o as [l|?|]; [|destruct P as [-> _]; constructor|destruct P as [-> _]; constructor].
        exact (pc_effects _ _ _ _ _ _ _ (B faulty run l s VR N) t r P). }
      split; [cbn [reads flat_map app]; f_equal; exact (reads_below _ _ _ _ F)|]. constructor; [now left|].
      eapply Forall_impl; [|exact F]. intros e H. now right.
    - left. destruct (elem_skip s tr r W R) as [-> ->]. auto.
  Qed.

  Variable (steps : list fc_step).
  Hypothesis (NN : forall s, In s steps -> 0 <= st_nr s).

  Lemma steps_success tr : for_par steps elem tr (Ok tt) ->
    (exists rest, Permutation (reads tr ++ rest) steps /\ Forall (wanted fl) (reads tr) /\ Forall (fun s => ~ wanted fl s) rest) /\
    (forall s, In s steps -> wanted fl s -> exists l, read s (Ok l) /\ computable chk m k run l).
  Proof.
    intro R. apply for_par_ok in R. destruct R as (ts & F & I). apply interleaving_perm in I. split.
    - assert (G : exists rest, Permutation (reads (concat ts) ++ rest) steps /\ Forall (wanted fl) (reads (concat ts)) /\ Forall (fun s => ~ wanted fl s) rest).
      { clear I. revert NN. induction F as [|s t l ts R F IH]; intro NN'; [exists []; repeat constructor|]. cbn [concat]. rewrite reads_app.
        destruct IH as (rest & P & W & NW); [intros; apply NN'; now right|].
        destruct (elem_effects s t (Ok tt) (NN' s (or_introl eq_refl)) R) as [(-> & X & _)|(X & E & _)].
        - exists (s :: rest). cbn [reads flat_map app]. split; [|split; [exact W|constructor; [exact X|exact NW]]].
          rewrite <- P. symmetry. apply Permutation_middle.
        - exists rest. rewrite E. cbn [app]. split; [now constructor|]. split; [now constructor|exact NW]. }
      destruct G as (rest & P & W & NW). exists rest. rewrite <- (reads_perm _ _ I) in P. split; [exact P|]. split; [|exact NW].
      apply (Permutation_Forall (Permutation_sym (reads_perm _ _ I))). exact W.
    - intros s J W. destruct (in_split _ _ J) as (l1 & l2 & E). rewrite E in F. apply Forall2_app_inv_l in F. destruct F as (u1 & u2 & _ & F & _).
      apply Forall2_cons_inv in F. destruct F as (t & _ & _ & R & _). destruct (elem_run s t _ W R) as (o & t' & _ & Ro & P).
      destruct o as [l|?|]; [|destruct P; discriminate|destruct P; discriminate]. exists l. split; [exact Ro|].
      destruct GB as (_ & B & _). exact (pc_complete _ _ _ _ _ _ _ (B faulty run l s VR (NN s J)) _ P).
  Qed.
  Lemma steps_any tr r : for_par steps elem tr r ->
    (exists rest, Permutation (reads tr ++ rest) steps /\ Forall (wanted fl) (reads tr)) /\
    (forall e, In e tr -> e <> EHeights) /\
    (forall e p, In e tr -> effect_path e = Some p -> exists s rest, In s (reads tr) /\ p = (output_path run (st_nr s) (k_type k) ++ rest)%string).
  Proof.
    intro R. destruct (for_par_any _ _ _ _ R) as (ts & I & F). apply interleaving_perm in I.
    assert (G : (exists rest, Permutation (reads (concat ts) ++ rest) steps /\ Forall (wanted fl) (reads (concat ts))) /\
      Forall (fun e => exists s, In s (reads (concat ts)) /\ own s e) (concat ts)).
    { clear I R. revert NN. induction F as [|s t l ts R F IH]; intro NN'; [split; [exists []; repeat constructor|constructor]|]. cbn [concat]. rewrite reads_app.
      destruct IH as [(rest & P & W) O]; [intros; apply NN'; now right|].
      assert (X : t = [] \/ (wanted fl s /\ reads t = [s] /\ Forall (own s) t)).
      { destruct R as [->|(r' & R)]; [now left|]. destruct (elem_effects s t r' (NN' s (or_introl eq_refl)) R) as [(-> & _)|X]; auto. }
      destruct X as [->|(X & E & OW)].
      - split; [|exact O]. exists (s :: rest). cbn [reads flat_map app]. split; [|exact W].
        rewrite <- P. symmetry. apply Permutation_middle.
      - split.
        + exists rest. rewrite E. cbn [app]. split; now constructor.
        + apply Forall_app. split.
          * eapply Forall_impl; [|exact OW]. intros e H. exists s. split; [rewrite E; now left|exact H].
          * eapply Forall_impl; [|exact O]. intros e (s' & J & H). exists s'. split; [apply in_or_app; now right|exact H]. }
    destruct G as [(rest & P & W) O].
    assert (O' : forall e, In e tr -> exists s, In s (reads tr) /\ own s e).
    { intros e J. rewrite Forall_forall in O. destruct (O e) as (s & K & H); [rewrite <- I; exact J|]. exists s. split; [rewrite (reads_perm _ _ I); exact K|exact H]. }
    split; [|split].
    - exists rest. rewrite <- (reads_perm _ _ I) in P. split; [exact P|]. apply (Permutation_Forall (Permutation_sym (reads_perm _ _ I))). exact W.
    - intros e J ->. destruct (O' _ J) as (s & _ & [H|(p & r' & H & _)]); discriminate.
    - intros e p J E. destruct (O' _ J) as (s & K & [->|H]); [discriminate|]. destruct (below_path _ _ _ _ _ H E) as (r' & ->). eauto.
  Qed.
  Lemma steps_fail tr r : for_par steps elem tr r -> r <> Ok tt -> exists s, In s steps /\ wanted fl s /\
    match r with
    | Err e => read s (Err e)
    | Panic => read s Panic \/ exists l, read s (Ok l) /\ (faulty = false -> ~ computable chk m k run l)
    | Ok _ => False
    end.
  Proof.
    intros R N. destruct (for_par_fail _ _ _ _ N R) as (s & t & J & E). exists s. split; [exact J|].
    destruct (elem_dec s) as [W|W]; [|destruct (elem_skip s t r W E) as [_ ->]; contradiction]. split; [exact W|].
    destruct (elem_run s t r W E) as (o & t' & _ & Ro & P). destruct GB as (_ & B & _). destruct o as [l|e|].
    - specialize (B faulty run l s VR (NN s J)). destruct r as [[]|e|]; [contradiction|destruct (pc_noerr _ _ _ _ _ _ _ B _ _ P)|].
      right. exists l. split; [exact Ro|]. intros NF. exact (pc_panic _ _ _ _ _ _ _ B NF _ P).
    - destruct P as [_ ->]. exact Ro.
    - destruct P as [_ ->]. now left.
  Qed.
  Lemma steps_runs : (forall s, In s steps -> exists o, read s o) -> exists tr r, for_par steps elem tr r.
  Proof.
    intro H. apply for_par_runs. intros s J. unfold elem. destruct (skipped fl s); [exists [], (Ok tt); split; reflexivity|].
    destruct (H s J) as (o & Ro). destruct GB as (_ & B & _). destruct o as [l|e|].
    - destruct (pc_runs _ _ _ _ _ _ _ (B faulty run l s VR (NN s J))) as (t & r & R). exists ([ERead s] ++ t), r. right. exists [ERead s], t.
      split; [reflexivity|]. split; [split; reflexivity|]. exists (Ok l). auto.
    - exists ([ERead s] ++ []), (Err e). right. exists [ERead s], []. split; [reflexivity|]. split; [split; reflexivity|]. exists (Err e). split; [exact Ro|split; reflexivity].
    - exists ([ERead s] ++ []), Panic. right. exists [ERead s], []. split; [reflexivity|]. split; [split; reflexivity|]. exists Panic. split; [exact Ro|split; reflexivity].
  Qed.
  Lemma steps_ordered tr r : for_par steps elem tr r -> ordered [] tr.
  Proof.
    apply ord_par. intros s J t r' R. destruct (elem_dec s) as [W|W]; [|destruct (elem_skip s t r' W R) as [-> _]; apply ordered_nil].
    destruct (elem_run s t r' W R) as (o & t' & -> & _ & P). apply ordered_cons; [exact I|]. apply (ordered_more []); [intros ? []|].
    destruct GB as (_ & _ & O). destruct o as [l|?|]; [exact (O faulty run l s _ _ P)|destruct P as [-> _]; apply ordered_nil|destruct P as [-> _]; apply ordered_nil].
  Qed.

  (** *** Files *)
  Hypothesis (NF : faulty = false).
  Hypothesis (ND : NoDup (map st_nr steps)).
  Lemma produces_proper l f c : produces chk m k run l f c -> In k (kinds chk m) -> proper f.
  Proof.
    intros P J. destruct f as [t z x y|b]; [|exact I]. destruct P as (-> & d & (e & make & E & Hz & C & _) & _). cbn [proper].
    pose proof (zooms_small run) as ZS. unfold zl, zh in ZS. destruct (covers_nonneg chk m e z x y ltac:(lia) C) as [X Y]. split; [|lia].
    destruct J as [<-|[<-|[<-|[<-|[<-|[]]]]]]; cbn in *; auto; discriminate.
  Qed.
  Lemma elem_files s t : In s steps -> elem s t (Ok tt) -> forall q,
    (exists l f c, wanted fl s /\ read s (Ok l) /\ q = file_path run (st_nr s) f /\ produces chk m k run l f c /\ filter (touches q) t = writes q c) \/
    (filter (touches q) t = [] /\ forall l f c, wanted fl s -> stable read -> read s (Ok l) -> produces chk m k run l f c -> q <> file_path run (st_nr s) f).
  Proof.
    intros J R q. destruct (elem_dec s) as [W|W]; [|destruct (elem_skip s t _ W R) as [-> _]; right; split; [reflexivity|]; intros; contradiction].
    destruct (elem_run s t _ W R) as (o & t' & -> & Ro & P). destruct o as [l|?|]; [|destruct P; discriminate|destruct P; discriminate].
    destruct GB as (_ & B & _). destruct (pc_files _ _ _ _ _ _ _ (B faulty run l s VR (NN s J)) NF _ P q) as [(c & (f & Eq & Pf) & E)|[X E]].
    - left. exists l, f, c. repeat split; try assumption.
    - right. split; [exact E|]. intros l' f c _ St Rl Pf ->. rewrite (St s l' l Rl Ro) in Pf. apply (X c). exists f. auto.
  Qed.
  Lemma steps_files : In k (kinds chk m) -> stable read -> forall tr, for_par steps elem tr (Ok tt) -> forall q before,
    (exists s l f c, In s steps /\ wanted fl s /\ read s (Ok l) /\ q = file_path run (st_nr s) f /\ produces chk m k run l f c /\ file_after q before tr = Some c) \/
    (file_after q before tr = before /\ forall s l f c, In s steps -> wanted fl s -> read s (Ok l) -> produces chk m k run l f c -> q <> file_path run (st_nr s) f).
  Proof.
    intros K St tr R q b0. apply for_par_ok in R. destruct R as (ts & F & I). apply (interleaving_filter (touches q)) in I.
    assert (D : (exists s l f c l1 l2 u1 u2 t, steps = l1 ++ s :: l2 /\ ts = u1 ++ t :: u2 /\ Forall2 (fun s t => elem s t (Ok tt)) l1 u1 /\ Forall2 (fun s t => elem s t (Ok tt)) l2 u2 /\
        wanted fl s /\ read s (Ok l) /\ q = file_path run (st_nr s) f /\ produces chk m k run l f c /\ filter (touches q) t = writes q c) \/
      (Forall (fun t => filter (touches q) t = []) ts /\ forall s l f c, In s steps -> wanted fl s -> read s (Ok l) -> produces chk m k run l f c -> q <> file_path run (st_nr s) f)).
    { pose proof elem_files as EF. clear I ND. revert EF. induction F as [|s t sl ts R F IH]; intro EF; [right; split; [constructor|intros ? ? ? ? []]|].
      destruct (EF s t (or_introl eq_refl) R q) as [(l & f & c & W & Rl & Eq & Pf & E)|[E X]].
      - left. exists s, l, f, c, [], sl, [], ts, t. repeat split; auto.
      - destruct (IH (fun s' H => NN s' (or_intror H)) (fun s' t' J => EF s' t' (or_intror J))) as [(s' & l & f & c & l1 & l2 & u1 & u2 & t' & -> & -> & F1 & F2 & G)|[A Y]].
        + left. exists s', l, f, c, (s :: l1), l2, (t :: u1), u2, t'. split; [reflexivity|]. split; [reflexivity|]. split; [now constructor|]. split; [exact F2|exact G].
        + right. split; [now constructor|]. intros s' l f c [<-|J] W Rl Pf; [exact (X l f c W St Rl Pf)|exact (Y s' l f c J W Rl Pf)]. }
    rewrite file_after_filter. destruct D as [(s & l & f & c & l1 & l2 & u1 & u2 & t & E1 & -> & F1 & F2 & W & Rl & Eq & Pf & Et)|[A Y]].
    - left. exists s, l, f, c. assert (J : In s steps) by (rewrite E1; apply in_elt). repeat split; auto.
      assert (OT : forall s', In s' l1 \/ In s' l2 -> In s' steps /\ st_nr s' <> st_nr s).
      { intros s' J'. split; [rewrite E1; apply in_or_app; destruct J'; [now left|right; now right]|]. intro En.
        rewrite E1, map_app in ND. cbn [map] in ND. apply NoDup_remove_2 in ND. apply ND. rewrite <- En. apply in_or_app.
        destruct J' as [J'|J']; [left|right]; now apply in_map. }
      assert (NIL : forall l0 u0, Forall2 (fun s t => elem s t (Ok tt)) l0 u0 -> (forall s', In s' l0 -> In s' l1 \/ In s' l2) -> Forall (fun t => t = []) (map (filter (touches q)) u0)).
      { intros l0 u0 F0. induction F0 as [|s' t' l0 u0 R0 F0 IH]; intro S0; cbn [map]; constructor.
        - destruct (OT s' (S0 s' (or_introl eq_refl))) as [J' Ne].
          destruct (elem_files s' t' J' R0 q) as [(l' & f' & c' & W' & Rl' & Eq' & Pf' & _)|[E' _]]; [|exact E'].
          exfalso. rewrite Eq in Eq'. apply c47_paths_proof in Eq'; [|exact VR|exact VR|exact (NN s J)|exact (NN s' J')|exact (produces_proper _ _ _ Pf K)|exact (produces_proper _ _ _ Pf' K)].
          destruct Eq' as (_ & H & _). congruence.
        - apply IH. intros; apply S0; now right. }
      rewrite map_app in I. cbn [map] in I. rewrite Et in I.
      apply interleaving_single in I; [rewrite I; apply file_after_writes, (produces_final _ _ _ _ _ _ _ Pf)|apply (NIL l1); auto|apply (NIL l2); auto].
    - right. split; [|exact Y]. apply interleaving_nil in I; [rewrite I; reflexivity|]. clear -A. induction A; cbn; constructor; auto.
  Qed.
End Steps.

(** ** C46 *)
Lemma c46_success_proof : forall chk m k, In k (kinds chk m) -> forall faulty run steps filter read tr,
  valid_run run -> Forall (fun s => 0 <= st_nr s) steps -> k_render k faulty run steps filter read tr (Ok tt) ->
  (exists rest, Permutation (reads tr ++ rest) steps /\ Forall (wanted filter) (reads tr) /\ Forall (fun s => ~ wanted filter s) rest) /\
  (forall s, In s steps -> wanted filter s -> exists l, read s (Ok l) /\ computable chk m k run l).
Proof.
  intros chk m k K faulty run steps filter read tr V NN R. rewrite Forall_forall in NN. destruct (kind_body chk m k K) as (body & GB).
  rewrite (proj1 GB) in R. exact (steps_success chk m k body GB faulty run filter read V steps NN tr R).
Qed.
Lemma c46_any_end_proof : forall chk m k, In k (kinds chk m) -> forall faulty run steps filter read tr r,
  valid_run run -> Forall (fun s => 0 <= st_nr s) steps -> k_render k faulty run steps filter read tr r ->
  (exists rest, Permutation (reads tr ++ rest) steps /\ Forall (wanted filter) (reads tr)) /\
  (forall e p, In e tr -> effect_path e = Some p -> exists s rest, In s (reads tr) /\ p = (output_path run (st_nr s) (k_type k) ++ rest)%string).
Proof.
  intros chk m k K faulty run steps filter read tr r V NN R. rewrite Forall_forall in NN. destruct (kind_body chk m k K) as (body & GB).
  rewrite (proj1 GB) in R. destruct (steps_any chk m k body GB faulty run filter read V steps NN tr r R) as (A & _ & B). auto.
Qed.
Lemma c46_failure_proof : forall chk m k, In k (kinds chk m) -> forall faulty run steps filter read tr r,
  valid_run run -> Forall (fun s => 0 <= st_nr s) steps -> k_render k faulty run steps filter read tr r -> r <> Ok tt ->
  exists s, In s steps /\ wanted filter s /\
    match r with
    | Err e => read s (Err e)
    | Panic => read s Panic \/ exists l, read s (Ok l) /\ (faulty = false -> ~ computable chk m k run l)
    | Ok _ => False
    end.
Proof.
  intros chk m k K faulty run steps filter read tr r V NN R. rewrite Forall_forall in NN. destruct (kind_body chk m k K) as (body & GB).
  rewrite (proj1 GB) in R. exact (steps_fail chk m k body GB faulty run filter read V steps NN tr r R).
Qed.
Lemma c46_runs_proof : forall chk m k, In k (kinds chk m) -> forall run steps filter read,
  valid_run run -> Forall (fun s => 0 <= st_nr s) steps -> (forall s, In s steps -> exists o, read s o) ->
  exists tr r, k_render k false run steps filter read tr r.
Proof.
  intros chk m k K run steps filter read V NN H. rewrite Forall_forall in NN. destruct (kind_body chk m k K) as (body & GB). rewrite (proj1 GB).
  exact (steps_runs chk m k body GB false run filter read V steps NN H).
Qed.
Lemma c46_succeeds_proof : forall chk m k, In k (kinds chk m) -> forall run steps filter read,
  valid_run run -> Forall (fun s => 0 <= st_nr s) steps ->
  (forall s, In s steps -> exists o, read s o) ->
  (forall s o, In s steps -> wanted filter s -> read s o -> exists l, o = Ok l /\ computable chk m k run l) ->
  (exists tr r, k_render k false run steps filter read tr r) /\
  forall tr r, k_render k false run steps filter read tr r -> r = Ok tt.
Proof.
  intros chk m k K run steps filter read V NN H C. rewrite Forall_forall in NN. destruct (kind_body chk m k K) as (body & GB). rewrite (proj1 GB). split.
  - exact (steps_runs chk m k body GB false run filter read V steps NN H).
  - intros tr r R. assert (D : r = Ok tt \/ r <> Ok tt) by (destruct r as [[]|?|]; [now left|right; discriminate|right; discriminate]).
    destruct D as [D|D]; [exact D|].
    destruct (steps_fail chk m k body GB false run filter read V steps NN tr r R D) as (s & J & W & X). exfalso. destruct r as [?|e|]; [exact X| |].
    + destruct (C s _ J W X) as (l & E & _). discriminate.
    + destruct X as [X|(l & X & N)].
      * destruct (C s _ J W X) as (l & E & _). discriminate.
      * destruct (C s _ J W X) as (l' & E & Q). injection E as <-. exact (N eq_refl Q).
Qed.

(** ** C47 *)
(** The path written out. *)
Lemma valid_date_bounds d : valid_date d -> 0 <= year d /\ 0 <= month d /\ 0 <= day d.
Proof. unfold valid_date. lia. Qed.
Lemma date_text_padded d y mo da : valid_date d -> padded 4 y (year d) -> padded 2 mo (month d) -> padded 2 da (day d) -> (y ++ mo ++ da)%string = date_text d.
Proof.
  intros V Y M D. destruct (valid_date_bounds d V) as (? & ? & ?). apply padded_dec_pad in Y, M, D; try lia. subst. reflexivity.
Qed.
Lemma date_text_exists d : valid_date d -> exists y mo da, padded 4 y (year d) /\ padded 2 mo (month d) /\ padded 2 da (day d).
Proof.
  intro V. destruct (valid_date_bounds d V) as (? & ? & ?). exists (dec_pad 4 (year d)), (dec_pad 2 (month d)), (dec_pad 2 (day d)).
  rewrite !padded_dec_pad by lia. auto.
Qed.
Lemma c47_layout_proof : forall run n f p, valid_run run -> 0 <= n -> proper f -> (p = file_path run n f <-> layout run n f p).
Proof.
  intros run n f p [V _] N P. assert (Md : model_dir (run_model run) = model_name (run_model run)) by (destruct (run_model run); reflexivity).
  assert (Ld : forall t, layer_dir t = output_subdir t) by (destruct t; reflexivity). split.
  - intros ->. destruct (date_text_exists _ V) as (y & mo & d & Y & M & D).
    exists y, mo, d, (dec_pad 3 n), (match f with
      | TileFile t zoom x y => output_subdir t ++ "/" ++ dec zoom ++ "/" ++ dec x ++ "/" ++ dec y ++ ".png"
      | BinFile b => output_subdir (bin_layer b) ++ "/" ++ bin_file b end)%string.
    rewrite (padded_dec_pad 3 n) by lia. do 4 (split; [auto|]). split.
    + pose proof (date_text_padded _ _ _ _ V Y M D) as T. rewrite Md. unfold file_path, output_path. rewrite <- T.
      destruct f; rewrite !append_assoc; reflexivity.
    + destruct f as [t zoom x y'|b]; [|destruct b; reflexivity]. destruct P as (_ & ? & ? & ?).
      exists (dec zoom), (dec x), (dec y'). rewrite !plain_dec by lia. rewrite <- (Ld t). auto.
  - intros (y & mo & d & st & file & Y & M & D & S & -> & F). apply padded_dec_pad in S; try lia. subst st. rewrite Md.
    pose proof (date_text_padded _ _ _ _ V Y M D) as T. unfold file_path, output_path. rewrite <- T.
    destruct f as [t zoom x y'|b].
    + destruct P as (_ & ? & ? & ?). destruct F as (zs & xs & ys & Z1 & X1 & Y1 & ->). apply plain_dec in Z1, X1, Y1; try lia. subst zs xs ys.
      rewrite (Ld t), !append_assoc. reflexivity.
    + destruct b; subst file; rewrite !append_assoc; reflexivity.
Qed.
Lemma c47_files_proof : forall chk m k, In k (kinds chk m) -> forall run steps filter read tr,
  valid_run run -> Forall (fun s => 0 <= st_nr s) steps -> NoDup (map st_nr steps) -> stable read ->
  k_render k false run steps filter read tr (Ok tt) ->
  (forall s l f c, In s steps -> wanted filter s -> read s (Ok l) -> produces chk m k run l f c ->
     forall before, file_after (file_path run (st_nr s) f) before tr = Some c) /\
  (forall q, (forall s l f c, In s steps -> wanted filter s -> read s (Ok l) -> produces chk m k run l f c -> q <> file_path run (st_nr s) f) ->
     forall before, file_after q before tr = before).
Proof.
  intros chk m k K run steps filter read tr V NN ND St R. rewrite Forall_forall in NN. destruct (kind_body chk m k K) as (body & GB). rewrite (proj1 GB) in R.
  pose proof (steps_files chk m k body GB false run filter read V steps NN eq_refl ND K St tr R) as F. split.
  - intros s l f c J W Rl P b0. destruct (F (file_path run (st_nr s) f) b0) as [(s' & l' & f' & c' & J' & W' & Rl' & Eq & P' & E)|[_ X]].
    + rewrite E. f_equal. assert (Q : proper f) by (eapply produces_proper; eassumption). assert (Q' : proper f') by (eapply produces_proper; eassumption).
      apply c47_paths_proof in Eq; auto. destruct Eq as (_ & En & <-).
      assert (s' = s).
      { destruct (in_split _ _ J) as (l1 & l2 & ->). rewrite map_app in ND. cbn [map] in ND. apply NoDup_remove_2 in ND.
        apply in_app_or in J'. destruct J' as [J'|[J'|J']]; [|congruence|]; exfalso; apply ND; rewrite En; apply in_or_app; [left|right]; now apply in_map. }
      subst s'. rewrite (St s l' l Rl' Rl) in P'. destruct f as [t z x y|b]; cbn [produces] in P, P'.
      * destruct P as (_ & d & (e & make & Ek & _ & _ & E1) & ->), P' as (_ & d' & (e' & make' & Ek' & _ & _ & E1') & ->). congruence.
      * destruct P as (d & I1 & ->), P' as (d' & I2 & ->). destruct K as [<-|[<-|[<-|[<-|[<-|[]]]]]]; cbn in I1, I2;
          repeat match goal with H : _ \/ _ |- _ => destruct H end; try contradiction; congruence.
    + destruct (X s l f c J W Rl P eq_refl).
  - intros q X b0. destruct (F q b0) as [(s & l & f & c & J & W & Rl & Eq & P & _)|[E _]]; [|exact E]. destruct (X s l f c J W Rl P Eq).
Qed.
Lemma c47_schedule_proof : forall chk m k, In k (kinds chk m) -> forall run steps filter read tr tr',
  valid_run run -> Forall (fun s => 0 <= st_nr s) steps -> NoDup (map st_nr steps) -> stable read ->
  k_render k false run steps filter read tr (Ok tt) -> k_render k false run steps filter read tr' (Ok tt) ->
  forall q before, file_after q before tr = file_after q before tr'.
Proof.
  intros chk m k K run steps filter read tr tr' V NN ND St R R' q b0.
  destruct (c47_files_proof chk m k K run steps filter read tr' V NN ND St R') as [F _].
  rewrite Forall_forall in NN. destruct (kind_body chk m k K) as (body & GB). rewrite (proj1 GB) in R, R'.
  destruct (steps_files chk m k body GB false run filter read V steps NN eq_refl ND K St tr R q b0) as [(s & l & f & c & J & W & Rl & -> & P & E)|[E X]].
  - rewrite E. symmetry. exact (F s l f c J W Rl P b0).
  - destruct (steps_files chk m k body GB false run filter read V steps NN eq_refl ND K St tr' R' q b0) as [(s & l & f & c & J & W & Rl & Eq & P & _)|[E' _]]; [|congruence].
    destruct (X s l f c J W Rl P Eq).
Qed.

(** ** C58 *)
Lemma c58_proof : forall chk m k, In k (kinds chk m) -> forall faulty run steps filter read tr r,
  valid_run run -> Forall (fun s => 0 <= st_nr s) steps -> k_render k faulty run steps filter read tr r ->
  forall done e rest, tr = done ++ e :: rest -> prepared done e.
Proof.
  intros chk m k K faulty run steps filter read tr r V NN R. rewrite Forall_forall in NN. destruct (kind_body chk m k K) as (body & GB).
  rewrite (proj1 GB) in R. exact (steps_ordered chk m k body GB faulty run filter read steps tr r R).
Qed.

(** ** Data that can be rendered *)
Lemma cells_at V (g : value_grid (carrier V)) p : complete g -> exists o, value_by_lat_lon V g p = Ok o.
Proof.
  intro C. unfold value_by_lat_lon. destruct (xy_by_lat_lon _ _) as [[x y]|]; [|eauto]. apply complete_cells; [exact C| |];
    unfold f_to_usize; match goal with |- context [f_to_int ?a ?b ?c] => pose proof (f_to_int_range a b c ltac:(lia)) end; lia.
Qed.
Lemma interpolated_at V (g : value_grid (carrier V)) p : complete g -> exists o, interpolate V g p = Ok o.
Proof.
  intro C. assert (U : forall x, 0 <= f_to_usize x) by (intro x; unfold f_to_usize; pose proof (f_to_int_range 0 18446744073709551615 x ltac:(lia)); lia).
  unfold interpolate. destruct (xy_by_lat_lon _ _) as [[x y]|]; [|eauto]. cbv zeta. destruct (_ || _); [eauto|]. destruct (_ || _); [apply complete_cells; auto|].
  destruct (complete_cells V g (f_to_usize (ffloor x)) (f_to_usize (ffloor y)) C (U _) (U _)) as (o1 & ->). cbn [obind].
  destruct (complete_cells V g (f_to_usize (fceil x)) (f_to_usize (ffloor y)) C (U _) (U _)) as (o2 & ->). cbn [obind].
  destruct (complete_cells V g (f_to_usize (ffloor x)) (f_to_usize (fceil y)) C (U _) (U _)) as (o3 & ->). cbn [obind].
  destruct (complete_cells V g (f_to_usize (fceil x)) (f_to_usize (fceil y)) C (U _) (U _)) as (o4 & ->). cbn [obind]. eauto.
Qed.
Lemma tile_made {T} chk m (value : lat_lon -> outcome (option T)) color_fn z x y : 0 <= z < 32 -> 0 <= x < 2 ^ 32 - 1 -> 0 <= y < 2 ^ 32 - 1 ->
  (forall p, exists o, value p = Ok o) -> (forall v, exists c, color_fn v = Ok c) ->
  exists d, create_single_tile chk m value color_fn {| t_x := x; t_y := y; t_zoom := z |} = Ok d.
Proof.
  intros Z X Y V C. pose proof (single_tile_spec chk m value color_fn z x y Z X Y) as S.
  assert (G : forall p, exists c, colour_at value color_fn p = Ok c).
  { intro p. unfold colour_at. destruct (V p) as ([v|] & ->); cbn [obind]; [apply C|eauto]. }
  destruct (create_single_tile _ _ _ _ _) as [d|e|]; [eauto| |]; destruct S as (j & i & _ & E); destruct (G (pixel_pos m z x y j i)) as (c & E'); congruence.
Qed.
Lemma tiles_made {T} chk m run e (value : lat_lon -> outcome (option T)) color_fn : tiles_addressable chk m run e ->
  (forall p, exists o, value p = Ok o) -> (forall v, exists c, color_fn v = Ok c) -> tiles_ok run chk m e (create_single_tile chk m value color_fn).
Proof.
  intros A V C z x y Hz Cv. pose proof (zooms_small run) as ZS. destruct (covers_nonneg chk m e z x y ltac:(lia) Cv). destruct (A z x y Hz Cv).
  apply tile_made; try assumption; lia.
Qed.
Lemma computable_intro chk m k run (l : k_data k) e make : k_tiles k l = Some (e, make) -> tiles_ok run chk m e make ->
  (forall b o, In (b, o) (k_bins k l) -> exists data, o = Ok data) -> computable chk m k run l.
Proof.
  intros E T B. split; [|exact B]. intros z x y o (e' & make' & E' & Hz & C & ->). rewrite E in E'. injection E' as <- <-. exact (T z x y Hz C).
Qed.
Lemma c46_cloud_precip_data_proof : forall chk m run cp we w h, tiles_addressable chk m run (g_extent (vg_grid (cp_cloud cp))) ->
  dims (cp_cloud cp) = (w, h) -> 0 <= w -> 0 <= h -> complete (cp_cloud cp) -> complete (cp_precip0 cp) -> complete (cp_precip1 cp) ->
  forall w' h', dims (we_clct we) = (w', h') -> 0 <= w' -> 0 <= h' -> complete (we_clct we) -> complete (we_ceiling we) ->
  (forall x y, 0 <= x < w' -> 0 <= y < h' -> ww_by_xy we x y <> Panic) ->
  computable chk m (cloud_precip_kind chk m) run (cp, we).
Proof.
  intros chk m run cp we w h A D W H C0 C1 C2 w' h' D' W' H' C3 C4 N.
  assert (B : exists data, weather_bin we = Ok data).
  { pose proof (c40_weather_proof we w' h' D' W' H' C3 C4) as P. destruct (weather_bin we) as [data|?|]; [eauto|contradiction|].
    destruct P as (x & y & X & Y & E). destruct (N x y X Y E). }
  destruct B as (data & B). eapply computable_intro; [reflexivity| |].
  - apply tiles_made; [exact A| |apply color_total]. intro p. cbn [fst]. unfold cloud_and_precip_by_lat_lon, cloud_and_precip.
    destruct (interpolated_at f32_type _ p C0) as (o0 & E0). destruct (interpolated_at f32_type _ p C1) as (o1 & E1). destruct (interpolated_at f32_type _ p C2) as (o2 & E2).
    change (carrier f32_type) with f32 in *. rewrite E0. cbn [obind]. rewrite E1. cbn [obind]. rewrite E2. cbn [obind]. eauto.
  - intros b o [I|[I|[]]]; injection I as <- <-; cbn [fst snd]; [|eauto].
    destruct (c40_precip_proof cp w h D W H C0 C1 C2) as (d & E & _). eauto.
Qed.
Lemma c46_wind_data_proof : forall chk m run l w h, tiles_addressable chk m run (g_extent (vg_grid (wl_zonal l))) ->
  dims (wl_zonal l) = (w, h) -> 0 <= w -> 0 <= h -> complete (wl_zonal l) -> complete (wl_meridional l) -> (forall g, wl_gusts l = Some g -> complete g) ->
  computable chk m (wind_kind chk m) run l.
Proof.
  intros chk m run l w h A D W H C0 C1 C2. eapply computable_intro; [reflexivity| |].
  - apply tiles_made; [exact A| |eauto]. intro p. unfold wind_tot_by_lat_lon, wind_e_n_by_lat_lon, wind_e_n.
    destruct (cells_at f32_type _ p C0) as (o0 & E0). destruct (cells_at f32_type _ p C1) as (o1 & E1).
    change (carrier f32_type) with f32 in *. rewrite E0. cbn [obind]. rewrite E1. cbn [obind omap]. eauto.
  - intros b o [I|[]]; injection I as <- <-. destruct (c40_wind_proof l w h D W H C0 C1 C2) as (d & E & _). eauto.
Qed.
Lemma c46_temp_data_proof : forall chk m run l w h, tiles_addressable chk m run (g_extent (vg_grid l)) ->
  dims l = (w, h) -> 0 <= w -> 0 <= h -> complete l -> computable chk m (temp_kind chk m) run l.
Proof.
  intros chk m run l w h A D W H C0. eapply computable_intro; [reflexivity| |].
  - apply tiles_made; [exact A| |eauto]. intro p. exact (cells_at f32_type _ p C0).
  - intros b o [I|[]]; injection I as <- <-. destruct (c40_temp_proof l w h D W H C0) as (d & E & _). eauto.
Qed.
Lemma c46_vertical_cloud_data_proof : forall chk m run hhl clc l g w h, vertical_cloud_new hhl clc = Ok l ->
  hd_error clc = Some g -> dims g = (w, h) -> 0 <= w -> 0 <= h -> Forall complete hhl -> Forall complete clc ->
  computable chk m vertical_cloud_kind run l.
Proof.
  intros chk m run hhl clc l g w h N Hd D W H C0 C1. split; [intros z x y o (e & make & E & _); discriminate|].
  intros b o [I|[]]; injection I as <- <-. destruct (c40_vertical_cloud_proof hhl clc l g w h _ N Hd D W H eq_refl C0 C1) as (d & E & _). eauto.
Qed.
Lemma c46_vertical_wind_data_proof : forall chk m run hhl u v l g w h, vertical_wind_new hhl u v = Ok l ->
  hd_error u = Some g -> dims g = (w, h) -> 0 <= w -> 0 <= h -> Forall complete hhl -> Forall complete u -> Forall complete v ->
  computable chk m vertical_wind_kind run l.
Proof.
  intros chk m run hhl u v l g w h N Hd D W H C0 C1 C2. split; [intros z x y o (e & make & E & _); discriminate|].
  intros b o [I|[]]; injection I as <- <-. destruct (c40_vertical_wind_proof hhl u v l g w h _ N Hd D W H eq_refl C0 C1 C2) as (d & E & _). eauto.
Qed.
(** To show [tiles_addressable] in samples. *)
Definition below_limit (chk : bool) (m : libm) (p : lat_lon) (z : Z) : bool :=
  match from_position chk m p z with Ok t => (t_x t <? 2 ^ 32 - 1) && (t_y t <? 2 ^ 32 - 1) | _ => true end.
Lemma addressable_check chk m run e :
  forallb (fun z => below_limit chk m {| lat := lat (min_coord e); lon := lon (max_coord e) |} z && below_limit chk m {| lat := lat (max_coord e); lon := lon (min_coord e) |} z)
    (range 0 (last_zoom (run_model run))) = true -> tiles_addressable chk m run e.
Proof.
  intros F z x y Hz (a & b & Ea & Eb & X & Y). rewrite forallb_forall in F. specialize (F z (proj2 (in_range _ _ _) Hz)). unfold below_limit in F. rewrite Ea, Eb in F.
  apply andb_true_iff in F. destruct F as [F1 F2]. apply andb_true_iff in F1, F2. unfold ImagingSpec.between in X, Y. lia.
Qed.

(** ** C48 *)
Lemma map_range f a b : map st_nr (map f (range a b)) = map (fun n => st_nr (f n)) (range a b).
Proof. apply map_map. Qed.
Lemma steps_of_range_nrs a b : map st_nr (steps_of_range (a, b)) = range a b.
Proof. unfold steps_of_range. rewrite map_map. cbn [fst snd st_nr]. apply map_id. Qed.
Lemma range_cons a b : a <= b -> range a b = a :: range (a + 1) b.
Proof.
  intro H. unfold range. replace (Z.to_nat (b - a + 1)) with (S (Z.to_nat (b - (a + 1) + 1))) by lia. cbn [seq map]. f_equal; [lia|].
  rewrite <- seq_shift, map_map. apply map_ext. intro k. lia.
Qed.
Lemma c48_steps_proof : forall m,
  map st_nr (forecast_steps m) = range 2 (last_step m) /\ map st_nr (forecast_diff_steps m) = 1 :: map st_nr (forecast_steps m).
Proof.
  intro m. unfold forecast_steps, forecast_diff_steps, diff_step_range.
  assert (E : step_range m = (2, last_step m)) by (destruct m; reflexivity). rewrite E. cbn [fst snd].
  rewrite !steps_of_range_nrs. split; [reflexivity|]. replace (last_step m - 0) with (last_step m) by lia. apply range_cons. destruct m; cbn; lia.
Qed.
Lemma c48_lookup_proof : forall steps n,
  match step_by_nr steps n with
  | Ok s => st_nr s = n /\ exists l1 l2, steps = l1 ++ s :: l2 /\ ~ In n (map st_nr l1)
  | Err _ => ~ In n (map st_nr steps)
  | Panic => False
  end.
Proof.
  intros steps n. unfold step_by_nr. induction steps as [|s steps IH]; cbn [find]; [intros []|].
  destruct (st_nr s =? n) eqn:E.
  - apply Z.eqb_eq in E. split; [exact E|]. exists [], steps. split; [reflexivity|intros []].
  - apply Z.eqb_neq in E. destruct (find _ steps) as [s'|].
    + destruct IH as (En & l1 & l2 & -> & N). split; [exact En|]. exists (s :: l1), l2. split; [reflexivity|]. intros [H|H]; auto.
    + intros [H|H]; auto.
Qed.
Lemma c48_difference_proof : forall m s, In s (forecast_steps m) ->
  exists s0 s1, step_by_nr (forecast_diff_steps m) (st_nr s - 1) = Ok s0 /\ st_nr s0 = st_nr s - 1 /\
    step_by_nr (forecast_diff_steps m) (st_nr s) = Ok s1 /\ st_nr s1 = st_nr s.
Proof.
  intros m s J. destruct (c48_steps_proof m) as [E1 E2].
  assert (B : 2 <= st_nr s <= last_step m) by (apply in_range; rewrite <- E1; now apply in_map).
  assert (F : forall n, 1 <= n <= last_step m -> exists s', step_by_nr (forecast_diff_steps m) n = Ok s' /\ st_nr s' = n).
  { intros n Hn. pose proof (c48_lookup_proof (forecast_diff_steps m) n) as L. destruct (step_by_nr _ n) as [s'|?|]; [exists s'; tauto| |contradiction].
    exfalso. apply L. rewrite E2, E1. destruct (Z.eq_dec n 1) as [->|N]; [now left|right]. apply in_range. lia. }
  destruct (F (st_nr s - 1)) as (s0 & A0 & B0); [lia|]. destruct (F (st_nr s)) as (s1 & A1 & B1); [lia|]. exists s0, s1. auto.
Qed.
