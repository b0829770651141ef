(** Proofs of the properties of the Swiss forecasts (C51-C54, C60). *)
From Coq Require Import Ascii String ZArith List Bool Lia Sorted Permutation.
From Verif Require Import Base F32 Grib2Model GeoModel GeoProofs GeoRegridProofs Par ParFacts TileModel ChartModel ChartSpec MetobinModel Text TextFacts TextSpec TextSpecProofs
  ForecastModel ForecastSpec ForecastProofs FetchModel FetchSpec FetchProofs RenderProofs DwdSpec DwdProofs SwissModel SwissSpec.
Import ListNotations.
Open Scope Z_scope.

(** ** C51 *)
Lemma byte_text_spec s n : byte_text s n <-> parse_u8 s = Some n.
Proof.
  assert (X : forall s', (s' <> EmptyString /\ digits_value 0 s' = Some n) /\ n <= 255 <->
    match s' with EmptyString => None | _ => match digits_value 0 s' with Some v => if v <=? 255 then Some v else None | None => None end end = Some n).
  { intro s'. destruct s' as [|c r]; [intuition discriminate|]. destruct (digits_value 0 (String c r)) as [v|]; [|intuition discriminate].
    destruct (Z.leb_spec v 255).
    - split; [intros [[_ E] _]; exact E|]. intro E. injection E as <-. auto 6. split; [split; [discriminate|reflexivity]|lia].
    - split; [intros [[_ E] B]; injection E as ->; lia|discriminate]. }
  unfold byte_text, parse_u8. cbv zeta. destruct s as [|c r].
  - rewrite <- (X EmptyString). rewrite numeral_spec. split; [intros [B [D|(s' & E & _)]]; [auto|discriminate]|]. intros [D B]. auto.
  - destruct (Ascii.eqb_spec c "+") as [->|N].
    + rewrite <- (X r). rewrite numeral_spec. split.
      * intros [B [[_ D]|(s' & E & D)]]; [discriminate D|]. injection E as <-. apply numeral_spec in D. auto.
      * intros [D B]. split; [exact B|]. right. exists r. split; [reflexivity|]. now apply numeral_spec.
    + rewrite <- (X (String c r)). rewrite numeral_spec. split.
      * intros [B [D|(s' & E & D)]]; [auto|]. injection E as -> _. contradiction.
      * intros [D B]. auto.
Qed.
Lemma times_repeatc k c : times k c = repeatc c k.
Proof. induction k; cbn; congruence. Qed.
Lemma parse_u8_chars s n c : parse_u8 s = Some n -> is_digit c = false -> c <> "+"%char -> contains c s = false.
Proof.
  intros P D N. apply byte_text_spec in P. destruct P as [_ P].
  pose proof (fun s' m (H : numeral s' m) => numeral_chars c s' m H D) as X.
  destruct P as [P|(s' & -> & P)]; [now apply (X s n)|]. cbn. rewrite (X s' n P), orb_false_r. destruct (Ascii.eqb_spec c "+"); [contradiction|reflexivity].
Qed.
Lemma repeatc_contains c d k : contains c (repeatc d k) = if Ascii.eqb c d then Nat.ltb 0 k else false.
Proof. induction k as [|k IH]; cbn; [now destruct (Ascii.eqb c d)|]. rewrite IH. destruct (Ascii.eqb c d); [reflexivity|]. reflexivity. Qed.
Lemma ends_with_in c s : ends_with c s = true -> contains c s = true.
Proof.
  induction s as [|d s IH]; cbn; [discriminate|]. destruct s as [|e s]; [intro H; now rewrite H|]. intro H. rewrite IH by exact H. apply orb_true_r.
Qed.
Lemma c51_parse_proof : forall s h, horizon_from_str s = Ok h <->
  exists dd k hh rest, s = ("P" ++ dd ++ times k "D" ++ "T" ++ hh ++ "H" ++ rest)%string /\
    byte_text dd (hz_days h) /\ byte_text hh (hz_hours h) /\ contains "T" rest = false /\ ((0 < k)%nat \/ contains "D" rest = true).
Proof.
  intros s h. unfold horizon_from_str. split.
  - destruct (starts_with "P" s) eqn:S1; cbn [negb orb]; [|discriminate].
    destruct (contains "D" s) eqn:S2; cbn [negb orb]; [|discriminate].
    destruct (contains "T" s) eqn:S3; cbn [negb orb]; [|discriminate].
    destruct (contains "H" s) eqn:S4; cbn [negb]; [|discriminate].
    destruct s as [|p s]; [discriminate|]. cbn [starts_with] in S1. apply Ascii.eqb_eq in S1. subst p. cbn [tail].
    destruct (split_on "T" s) as [day_part [|time_part [|? ?]]] eqn:Sp; try discriminate.
    destruct (parse_u8 (trim_end "D" day_part)) as [days|] eqn:Pd; cbn [or_invalid obind]; [|discriminate].
    destruct (parse_u8 (fst (split_on "H" time_part))) as [hrs|] eqn:Ph; cbn [or_invalid obind]; [|discriminate].
    intro E. injection E as <-. cbn [hz_days hz_hours].
    pose proof (split_on_join _ _ _ _ Sp) as J. pose proof (split_on_spec _ _ _ _ Sp) as [T1 T2]. inversion T2 as [|? ? T3 _]; subst. cbn [join] in *.
    destruct (trim_end_spec "D" day_part) as (k & Ek).
    destruct (split_on "H" time_part) as [hh ps] eqn:Sh. cbn [fst] in Ph.
    pose proof (split_on_join _ _ _ _ Sh) as Jh.
    set (dd := trim_end "D" day_part) in *. rewrite Ek in S2, S4, T1. 
    assert (NHdd : contains "H" dd = false) by (apply (parse_u8_chars _ _ _ Pd); [reflexivity|discriminate]).
    assert (NDdd : contains "D" dd = false) by (apply (parse_u8_chars _ _ _ Pd); [reflexivity|discriminate]).
    assert (NDhh : contains "D" hh = false) by (apply (parse_u8_chars _ _ _ Ph); [reflexivity|discriminate]).
    cbn [contains Ascii.eqb Bool.eqb orb] in S2, S4. rewrite !contains_app in S2, S4. cbn [contains] in S2, S4.
    rewrite NHdd, repeatc_contains in S4. rewrite NDdd, repeatc_contains in S2. cbn in S2, S4.
    destruct ps as [|p1 ps].
    { cbn [join] in Jh. subst time_part. assert (contains "H" hh = false) by (apply (parse_u8_chars _ _ _ Ph); [reflexivity|discriminate]). congruence. }
    exists dd, k, hh, (join "H" p1 ps).
    assert (Et : time_part = (hh ++ "H" ++ join "H" p1 ps)%string) by (symmetry; exact Jh). 
    split; [rewrite times_repeatc; rewrite Ek; rewrite Et, !append_assoc; reflexivity|].
    split; [now apply byte_text_spec|]. split; [now apply byte_text_spec|]. rewrite Et in T3, S2. rewrite !contains_app in T3, S2. 
    apply orb_false_iff in T3. destruct T3 as [_ T3]. apply orb_false_iff in T3. destruct T3 as [_ T3]. split; [exact T3|].
    rewrite NDhh in S2. cbn in S2. destruct (Nat.ltb_spec 0 k); [now left|]. right. destruct k; [|lia]. exact S2.
  - intros (dd & k & hh & rest & -> & D & H & T & KD). rewrite times_repeatc in *. apply byte_text_spec in D, H.
    assert (NT : contains "T" dd = false) by (apply (parse_u8_chars _ _ _ D); [reflexivity|discriminate]).
    assert (NTh : contains "T" hh = false) by (apply (parse_u8_chars _ _ _ H); [reflexivity|discriminate]).
    assert (NHh : contains "H" hh = false) by (apply (parse_u8_chars _ _ _ H); [reflexivity|discriminate]).
    assert (ND : contains "D" dd = false) by (apply (parse_u8_chars _ _ _ D); [reflexivity|discriminate]).
    assert (B : negb (starts_with "P" ("P" ++ dd ++ repeatc "D" k ++ "T" ++ hh ++ "H" ++ rest)) || negb (contains "D" ("P" ++ dd ++ repeatc "D" k ++ "T" ++ hh ++ "H" ++ rest))
      || negb (contains "T" ("P" ++ dd ++ repeatc "D" k ++ "T" ++ hh ++ "H" ++ rest)) || negb (contains "H" ("P" ++ dd ++ repeatc "D" k ++ "T" ++ hh ++ "H" ++ rest)) = false).
    { rewrite !contains_app, !repeatc_contains. cbn. rewrite !orb_true_r. cbn. rewrite !orb_false_r. apply negb_false_iff.
      destruct KD as [K|K]; [destruct k; [lia|]|rewrite K]; rewrite ?orb_true_r; cbn; rewrite ?orb_true_r; reflexivity. }
    rewrite B. change (tail ("P" ++ dd ++ repeatc "D" k ++ "T" ++ hh ++ "H" ++ rest)) with (dd ++ repeatc "D" k ++ "T" ++ hh ++ "H" ++ rest)%string.
    replace (dd ++ repeatc "D" k ++ "T" ++ hh ++ "H" ++ rest)%string with ((dd ++ repeatc "D" k) ++ String "T" (hh ++ String "H" rest))%string by (rewrite !append_assoc; reflexivity).
    rewrite split_on_app by (rewrite contains_app, NT, repeatc_contains; reflexivity).
    rewrite (split_on_none "T" (hh ++ String "H" rest)) by (rewrite contains_app, NTh; cbn; exact T).
    rewrite trim_end_app by (destruct (ends_with "D" dd) eqn:E; [apply ends_with_in in E; congruence|reflexivity]).
    rewrite D, split_on_app by exact NHh. destruct (split_on "H" rest). cbn [fst or_invalid obind]. rewrite H. cbn [or_invalid obind]. destruct h; reflexivity.
Qed.
Lemma c51_refused_proof : forall s, (exists h, horizon_from_str s = Ok h) \/ horizon_from_str s = Err EInvalid.
Proof.
  intro s. unfold horizon_from_str. destruct (_ || _); [now right|]. destruct (split_on "T" (tail s)) as [a [|b [|? ?]]]; try now right.
  destruct (parse_u8 _); cbn [or_invalid obind]; [|now right]. destruct (parse_u8 _); cbn [or_invalid obind]; [|now right]. left. eauto.
Qed.
Lemma c51_round_trip_proof : forall h, horizon_ok h -> horizon_from_str (horizon_name h) = Ok h.
Proof.
  intros h [D H]. apply c51_parse_proof. exists (dec (hz_days h)), 1%nat, (dec_pad 2 (hz_hours h)), "00M00S"%string.
  split; [reflexivity|]. split; [apply byte_text_spec, parse_u8_dec; exact D|]. split; [apply byte_text_spec, parse_u8_dec_pad; exact H|]. split; [reflexivity|left; lia].
Qed.
Lemma c51_step_proof : forall chk h, horizon_ok h ->
  horizon_step chk h = if hours h <=? 255 then Ok (hours h) else if chk then Panic else Ok (hours h mod 256).
Proof.
  intros chk h [D H]. unfold horizon_step, uwrap, hours. change (2 ^ 8) with 256. rewrite (Z.mul_comm (hz_days h)).
  destruct (Z.ltb_spec (24 * hz_days h) 256); cbn [obind].
  - destruct (Z.ltb_spec (24 * hz_days h + hz_hours h) 256), (Z.leb_spec (24 * hz_days h + hz_hours h) 255); try lia; try reflexivity.
  - destruct (Z.leb_spec (24 * hz_days h + hz_hours h) 255); [lia|]. destruct chk; cbn [obind]; [reflexivity|].
    assert (E : (24 * hz_days h + hz_hours h) mod 256 = ((24 * hz_days h) mod 256 + hz_hours h) mod 256) by (rewrite Zplus_mod_idemp_l; reflexivity).
    destruct (Z.ltb_spec ((24 * hz_days h) mod 256 + hz_hours h) 256); [|rewrite E; reflexivity].
    rewrite E. rewrite (Z.mod_small ((24 * hz_days h) mod 256 + hz_hours h)); [reflexivity|]. pose proof (Z.mod_pos_bound (24 * hz_days h) 256). lia.
Qed.
Lemma c51_from_step_proof : forall n, 0 <= n <= 255 -> horizon_ok (horizon_from_step n) /\ hours (horizon_from_step n) = n /\ hz_hours (horizon_from_step n) < 24.
Proof. intros n B. unfold horizon_ok, hours, horizon_from_step. cbn [hz_days hz_hours]. Z.div_mod_to_equations. lia. Qed.
Lemma from_str_ok s h : horizon_from_str s = Ok h -> horizon_ok h.
Proof.
  intro H. apply c51_parse_proof in H. destruct H as (dd & k & hh & rest & _ & D & H & _). apply byte_text_spec in D, H.
  apply parse_u8_range in D, H. split; assumption.
Qed.

(** ** C52 *)
Lemma try_map_ok {A B} (f : A -> outcome B) l l' : try_map f l = Ok l' <-> Forall2 (fun a b => f a = Ok b) l l'.
Proof.
  revert l'. induction l as [|a l IH]; intro l'; cbn [try_map].
  - split; [intro E; injection E as <-; constructor|]. intro F. inversion F. reflexivity.
  - split.
    + destruct (f a) as [b|?|] eqn:Fa; cbn [obind]; try discriminate. destruct (try_map f l) as [bs|?|]; cbn [omap]; try discriminate.
      intro E. injection E as <-. constructor; [exact Fa|]. now apply IH.
    + intro F. inversion F as [|? b ? bs Fa Fl]; subst. apply IH in Fl. rewrite Fa, Fl. reflexivity.
Qed.
Lemma step_of_feature_ok f s : step_of_feature f = Ok s <-> described f s.
Proof.
  unfold step_of_feature, described, first_href. destruct (horizon_from_str (ft_horizon f)) as [h|?|]; cbn [obind].
  - destruct (ft_hrefs f) as [|x r]; cbn [omap].
    + split; [discriminate|]. intros (_ & _ & m & E). discriminate.
    + split; [intro E; injection E as <-; cbn; eauto|]. intros (T & E & m & E'). injection E as ->. injection E' as -> _. rewrite <- T. destruct s; reflexivity.
  - split; [discriminate|]. intros (_ & E & _). discriminate.
  - split; [discriminate|]. intros (_ & E & _). discriminate.
Qed.
Lemma step_of_feature_no f : (exists s, described f s) \/ step_of_feature f = Err EInvalid /\ forall s, ~ described f s.
Proof.
  assert (X : (exists s, step_of_feature f = Ok s) \/ step_of_feature f = Err EInvalid).
  { unfold step_of_feature, first_href. destruct (c51_refused_proof (ft_horizon f)) as [(h & ->)| ->]; cbn [obind]; [|now right]. destruct (ft_hrefs f); cbn [omap]; [now right|eauto]. }
  destruct X as [(s & E)|E]; [left; exists s; now apply step_of_feature_ok|right]. split; [exact E|]. intros s H. apply step_of_feature_ok in H. congruence.
Qed.
Lemma parse_features l : (exists parsed, try_map step_of_feature l = Ok parsed /\ Forall2 described l parsed) \/
  try_map step_of_feature l = Err EInvalid /\ exists f, In f l /\ forall s, ~ described f s.
Proof.
  induction l as [|f l IH]; cbn [try_map]; [left; exists []; split; [reflexivity|constructor]|].
  destruct (step_of_feature_no f) as [(s & D)|[E N]].
  - rewrite (proj2 (step_of_feature_ok f s) D). cbn [obind]. destruct IH as [(p & -> & F)|[-> (f' & J & N)]]; cbn [omap].
    + left. exists (s :: p). split; [reflexivity|now constructor].
    + right. split; [reflexivity|]. exists f'. split; [now right|exact N].
  - right. rewrite E. split; [reflexivity|]. exists f. split; [now left|exact N].
Qed.
Section Sorting.
  Context {A : Type}.
  Definition key_le (x y : Z * A) : Prop := fst x <= fst y.
  Lemma insert_perm (x : Z * A) l : Permutation (x :: l) (insert_by x l).
  Proof. induction l as [|y l IH]; cbn [insert_by]; [reflexivity|]. destruct (fst x <=? fst y); [reflexivity|]. rewrite perm_swap. now constructor. Qed.
  Lemma sort_perm (l : list (Z * A)) : Permutation l (sort_pairs l).
  Proof. induction l as [|x l IH]; cbn; [constructor|]. rewrite <- insert_perm. now constructor. Qed.
  Lemma insert_sorted (x : Z * A) l : StronglySorted key_le l -> StronglySorted key_le (insert_by x l).
  Proof.
    intro S. induction S as [|y l S IH F]; cbn [insert_by]; [repeat constructor|]. destruct (Z.leb_spec (fst x) (fst y)).
    - constructor; [now constructor|]. constructor; [exact H|]. eapply Forall_impl; [|exact F]. unfold key_le. cbn. intros a Ha. lia.
    - constructor; [exact IH|]. rewrite Forall_forall in *. intros z J. apply (Permutation_in _ (Permutation_sym (insert_perm x l))) in J. destruct J as [<-|J]; [unfold key_le; lia|auto].
  Qed.
  Lemma sort_sorted (l : list (Z * A)) : StronglySorted key_le (sort_pairs l).
  Proof. induction l; cbn; [constructor|]. now apply insert_sorted. Qed.
  Lemma insert_filter n (x : Z * A) l : filter (fun p => fst p =? n) (insert_by x l) = filter (fun p => fst p =? n) (x :: l).
  Proof.
    induction l as [|y l IH]; cbn [insert_by]; [reflexivity|]. destruct (Z.leb_spec (fst x) (fst y)); [reflexivity|].
    cbn [filter] in *. rewrite IH. destruct (Z.eqb_spec (fst y) n), (Z.eqb_spec (fst x) n); try reflexivity. lia.
  Qed.
  Lemma sort_filter n (l : list (Z * A)) : filter (fun p => fst p =? n) (sort_pairs l) = filter (fun p => fst p =? n) l.
  Proof. induction l as [|x l IH]; [reflexivity|]. change (sort_pairs (x :: l)) with (insert_by x (sort_pairs l)). rewrite insert_filter. cbn [filter]. now rewrite IH. Qed.
End Sorting.
Lemma combine_snd {A B} (la : list A) (lb : list B) : length la = length lb -> map snd (combine la lb) = lb.
Proof. revert lb. induction la as [|a la IH]; intros [|b lb] E; cbn in *; try discriminate; [reflexivity|]. f_equal. apply IH. lia. Qed.
Lemma forall2_len {A B} (P : A -> B -> Prop) l l' : Forall2 P l l' -> length l = length l'.
Proof. intro F. induction F; cbn; congruence. Qed.
Lemma sort_by_key_spec {A} (key : A -> outcome Z) l r : sort_by_key key l = Ok r ->
  Permutation l r /\ ((exists kf, (forall a, In a l -> key a = Ok (kf a))) -> forall kf, (forall a, In a l -> key a = Ok (kf a)) ->
    StronglySorted (fun a b => kf a <= kf b) r /\ forall n, filter (fun a => kf a =? n) r = filter (fun a => kf a =? n) l).
Proof.
  intro E. assert (T : (length l < 2)%nat /\ r = l \/ exists ks, Forall2 (fun a k => key a = Ok k) l ks /\ r = map snd (sort_pairs (combine ks l))).
  { unfold sort_by_key in E. destruct l as [|a [|b l]]; [injection E as <-; left; cbn; auto|injection E as <-; left; cbn; auto|]. right.
    destruct (try_map key (a :: b :: l)) as [ks|?|] eqn:T; cbn [omap] in E; try discriminate. injection E as <-. exists ks. split; [now apply try_map_ok|reflexivity]. }
  clear E. destruct T as [[L ->]|(ks & F & ->)].
  - split; [reflexivity|]. intros _ kf _. split; [|reflexivity]. destruct l as [|a [|b l]]; cbn in L; [constructor|repeat constructor|lia].
  - pose proof (forall2_len _ _ _ F) as L. split.
    + rewrite <- (combine_snd ks l) at 1 by auto. apply Permutation_map, sort_perm.
    + intros _ kf K. assert (E : combine ks l = map (fun a => (kf a, a)) l).
      { clear L. induction F as [|a k l ks Fa F IH]; [reflexivity|]. cbn [combine map]. rewrite IH by (intros; apply K; now right). f_equal. f_equal.
        specialize (K a (or_introl eq_refl)). congruence. }
      rewrite E. assert (X : forall l', (forall p, In p l' -> fst p = kf (snd p)) -> (StronglySorted key_le l' -> StronglySorted (fun a b => kf a <= kf b) (map snd l')) /\
        forall n, filter (fun a => kf a =? n) (map snd l') = map snd (filter (fun p => fst p =? n) l')).
      { clear. intros l' H. split.
        - intro S. induction S as [|p l' S IH F]; cbn [map]; [constructor|]. constructor; [apply IH; intros; apply H; now right|].
          apply Forall_forall. intros b J. apply in_map_iff in J. destruct J as (q & <- & J). rewrite Forall_forall in F. specialize (F q J). unfold key_le in F.
          rewrite <- (H p (or_introl eq_refl)), <- (H q (or_intror J)). exact F.
        - intro n. induction l' as [|p l' IH]; [reflexivity|]. cbn [map filter]. rewrite <- (H p (or_introl eq_refl)). rewrite IH by (intros; apply H; now right). now destruct (fst p =? n). }
      destruct (X (sort_pairs (map (fun a => (kf a, a)) l))) as [X1 X2].
      { intros p J. apply (Permutation_in _ (Permutation_sym (sort_perm _))) in J. apply in_map_iff in J. destruct J as (a & <- & _). reflexivity. }
      split; [apply X1, sort_sorted|]. intro n. rewrite X2, sort_filter. clear. induction l as [|a l IH]; [reflexivity|]. cbn [map filter fst]. destruct (kf a =? n); cbn [map snd]; now rewrite IH.
Qed.
Lemma keys_short chk l : Forall (fun s => horizon_ok (ss_horizon s)) l -> short_horizons l -> forall s, In s l -> horizon_step chk (ss_horizon s) = Ok (hours (ss_horizon s)).
Proof.
  intros O S s J. unfold short_horizons in S. rewrite Forall_forall in O, S. rewrite c51_step_proof by auto. specialize (S s J). apply Z.leb_le in S. now rewrite S.
Qed.
Lemma described_ok features parsed : Forall2 described features parsed -> Forall (fun s => horizon_ok (ss_horizon s)) parsed.
Proof. intro F. induction F as [|f s fs ss (_ & D & _) F IH]; constructor; [exact (from_str_ok _ _ D)|exact IH]. Qed.
Lemma short_dec l : short_horizons l \/ exists s, In s l /\ 255 < hours (ss_horizon s).
Proof.
  induction l as [|s l IH]; [left; constructor|]. destruct (Z.leb_spec (hours (ss_horizon s)) 255); [|right; exists s; split; [now left|lia]].
  destruct IH as [IH|(s' & J & L)]; [left; now constructor|right; exists s'; split; [now right|exact L]].
Qed.
Lemma try_map_panic {A B} (f : A -> outcome B) l : (forall a, In a l -> (exists b, f a = Ok b) \/ f a = Panic) ->
  (exists l', try_map f l = Ok l') \/ try_map f l = Panic /\ exists a, In a l /\ f a = Panic.
Proof.
  induction l as [|a l IH]; intro H; cbn [try_map]; [eauto|]. destruct (H a (or_introl eq_refl)) as [(b & ->)|E].
  - cbn [obind]. destruct IH as [(l' & ->)|[-> (a' & J & P)]]; [intros; apply H; now right|left; cbn; eauto|]. right. split; [reflexivity|]. exists a'. split; [now right|exact P].
  - right. rewrite E. split; [reflexivity|]. exists a. split; [now left|exact E].
Qed.
Lemma c52_files_proof : forall chk sv v t o, find_files chk sv v t o ->
  exists answer, sv_search sv (file_request v t) answer /\
  match answer with
  | Ok features =>
      (exists parsed l, o = Ok l /\ Forall2 described features parsed /\ Permutation parsed l /\ (short_horizons parsed -> by_horizon parsed l) /\
         (chk = true -> (2 <= length parsed)%nat -> short_horizons parsed)) \/
      (o = Err EInvalid /\ exists f, In f features /\ forall s, ~ described f s) \/
      (o = Panic /\ chk = true /\ exists parsed, Forall2 described features parsed /\ (2 <= length parsed)%nat /\ ~ short_horizons parsed)
  | Err e => o = Err e
  | Panic => o = Panic
  end.
Proof.
  intros chk sv v t o (a & S & H). exists a. split; [exact S|]. destruct a as [features|e|]; [|exact H|exact H]. unfold r_of in H. subst o.
  destruct (parse_features features) as [(parsed & -> & F)|[-> N]]; cbn [obind]; [|right; left; auto]. pose proof (described_ok _ _ F) as O.
  destruct (short_dec parsed) as [Sh|(s & J & L)].
  - left. pose proof (keys_short chk parsed O Sh) as K.
    assert (T : exists l, sort_by_key (fun s => horizon_step chk (ss_horizon s)) parsed = Ok l).
    { unfold sort_by_key. destruct parsed as [|x [|y r]]; [eauto|eauto|]. rewrite (proj2 (try_map_ok _ _ (map (fun s => hours (ss_horizon s)) (x :: y :: r)))); [cbn [omap]; eauto|].
      clear -K. induction (x :: y :: r) as [|z l IH]; cbn [map]; constructor; [apply K; now left|apply IH; intros; apply K; now right]. }
    destruct T as (l & E). rewrite E. exists parsed, l. split; [reflexivity|]. split; [exact F|]. apply sort_by_key_spec in E. destruct E as [P E]. split; [exact P|]. split; [|auto].
    intros _. exact (E (ex_intro _ _ K) _ K).
  - assert (NS : ~ short_horizons parsed) by (intro Q; unfold short_horizons in Q; rewrite Forall_forall in Q; specialize (Q s J); cbn in Q; lia).
    destruct (sort_by_key (fun s => horizon_step chk (ss_horizon s)) parsed) as [l|e|] eqn:E.
    + left. exists parsed, l. split; [reflexivity|]. split; [exact F|]. split; [now apply sort_by_key_spec in E|]. split; [contradiction|].
      intros -> L2. exfalso. unfold sort_by_key in E. destruct parsed as [|x [|y r]]; cbn in L2; try lia.
      destruct (try_map _ (x :: y :: r)) as [ks|?|] eqn:T; cbn [omap] in E; try discriminate. apply try_map_ok in T.
      assert (X : exists k, horizon_step true (ss_horizon s) = Ok k).
      { clear -T J. induction T as [|a b l l' H T IH]; [destruct J|]. destruct J as [->|J]; [eauto|auto]. }
      destruct X as (k & X). rewrite Forall_forall in O. rewrite c51_step_proof in X by auto. apply Z.leb_gt in L. rewrite L in X. discriminate.
    + exfalso. unfold sort_by_key in E. destruct parsed as [|x [|y r]]; try discriminate.
      destruct (try_map_panic (fun s => horizon_step chk (ss_horizon s)) (x :: y :: r)) as [(l' & Q)|[Q _]]; [|rewrite Q in E; discriminate|rewrite Q in E; discriminate].
      intros a Ja. rewrite Forall_forall in O. rewrite c51_step_proof by auto. destruct (hours _ <=? 255); [eauto|]. destruct chk; eauto.
    + right; right. split; [reflexivity|]. unfold sort_by_key in E. destruct parsed as [|x [|y r]]; try discriminate.
      destruct (try_map_panic (fun s => horizon_step chk (ss_horizon s)) (x :: y :: r)) as [(l' & Q)|[Q (a & Ja & Pa)]]; [|rewrite Q in E; discriminate|].
      * intros a Ja. rewrite Forall_forall in O. rewrite c51_step_proof by auto. destruct (hours _ <=? 255); [eauto|]. destruct chk; eauto.
      * rewrite Forall_forall in O. rewrite c51_step_proof in Pa by auto. destruct (hours _ <=? 255); [discriminate|]. destruct chk; [|discriminate]. split; [reflexivity|].
        exists (x :: y :: r). split; [exact F|]. split; [cbn; lia|exact NS].
Qed.
Lemma files_found chk sv v t l : find_files chk sv v t (Ok l) -> files_of sv v t l.
Proof.
  intro H. apply c52_files_proof in H. destruct H as ([features|?|] & S & H); [|discriminate|discriminate].
  destruct H as [(parsed & l' & E & F & P & B & _)|[[E _]|[E _]]]; try discriminate. injection E as <-. exists features, parsed. auto.
Qed.
Lemma c52_answer_proof : forall chk sv v t features parsed, sv_search sv (file_request v t) (Ok features) -> Forall2 described features parsed -> short_horizons parsed ->
  exists l, find_files chk sv v t (Ok l) /\ by_horizon parsed l.
Proof.
  intros chk sv v t features parsed S F Sh. pose proof (described_ok _ _ F) as O. pose proof (keys_short chk parsed O Sh) as K.
  assert (T : exists l, sort_by_key (fun s => horizon_step chk (ss_horizon s)) parsed = Ok l).
  { unfold sort_by_key. destruct parsed as [|x [|y r]]; [eauto|eauto|]. rewrite (proj2 (try_map_ok _ _ (map (fun s => hours (ss_horizon s)) (x :: y :: r)))); [cbn [omap]; eauto|].
    clear -K. induction (x :: y :: r) as [|z l IH]; cbn [map]; constructor; [apply K; now left|apply IH; intros; apply K; now right]. }
  destruct T as (l & E). exists l. split; [|apply sort_by_key_spec in E; destruct E as [_ E]; exact (E (ex_intro _ _ K) _ K)].
  exists (Ok features). split; [exact S|]. unfold r_of. rewrite (proj2 (try_map_ok _ _ parsed)); [cbn [obind]; now rewrite E|].
  apply (forall2_impl described); [|exact F]. intros a b. apply step_of_feature_ok.
Qed.
Lemma sorted_unique (l1 : list swiss_step) : forall l2, StronglySorted horizon_le l1 -> StronglySorted horizon_le l2 ->
  (forall n, filter (fun s => hours (ss_horizon s) =? n) l1 = filter (fun s => hours (ss_horizon s) =? n) l2) -> l1 = l2.
Proof.
  induction l1 as [|a l1 IH]; intros l2 S1 S2 F.
  - destruct l2 as [|b l2]; [reflexivity|]. specialize (F (hours (ss_horizon b))). cbn in F. rewrite Z.eqb_refl in F. discriminate.
  - destruct l2 as [|b l2]; [specialize (F (hours (ss_horizon a))); cbn in F; rewrite Z.eqb_refl in F; discriminate|].
    inversion S1 as [|? ? S1' F1]; subst. inversion S2 as [|? ? S2' F2]; subst. rewrite Forall_forall in F1, F2. unfold horizon_le in F1, F2.
    assert (X : forall n (c : swiss_step) l l', filter (fun s => hours (ss_horizon s) =? n) l = filter (fun s => hours (ss_horizon s) =? n) l' -> In c l -> hours (ss_horizon c) = n -> In c l').
    { intros n c l l' E J Ec. assert (Jc : In c (filter (fun s => hours (ss_horizon s) =? n) l)) by (apply filter_In; split; [exact J|now apply Z.eqb_eq]). rewrite E in Jc. now apply filter_In in Jc. }
    assert (Ja : In a (b :: l2)) by (exact (X _ a _ _ (F (hours (ss_horizon a))) (or_introl eq_refl) eq_refl)).
    assert (Jb : In b (a :: l1)) by (exact (X _ b _ _ (eq_sym (F (hours (ss_horizon b)))) (or_introl eq_refl) eq_refl)).
    assert (E : hours (ss_horizon a) = hours (ss_horizon b)).
    { destruct Ja as [->|Ja]; [reflexivity|]. destruct Jb as [->|Jb]; [reflexivity|]. specialize (F2 a Ja). specialize (F1 b Jb). lia. }
    pose proof (F (hours (ss_horizon a))) as Fa. cbn [filter] in Fa. rewrite E, Z.eqb_refl in Fa. injection Fa as -> _. f_equal. apply IH; [assumption..|].
    intro n. specialize (F n). cbn [filter] in F. destruct (hours (ss_horizon b) =? n); [now injection F|exact F].
Qed.
Lemma c52_unique_proof : forall parsed l l', by_horizon parsed l -> by_horizon parsed l' -> l = l'.
Proof. intros parsed l l' [S F] [S' F']. apply sorted_unique; [assumption..|]. intro n. now rewrite F, F'. Qed.
Lemma enumerate_in {A} (l : list A) i a k : In (i, a) (combine (seq k (length l)) l) <-> (k <= i)%nat /\ nth_error l (i - k) = Some a.
Proof.
  revert k. induction l as [|b l IH]; intro k; cbn [length seq combine].
  - split; [intros []|]. intros [_ E]. destruct (i - k)%nat; discriminate.
  - cbn [In]. rewrite IH. split.
    + intros [E|[L E]]; [injection E as <- <-; split; [lia|]; rewrite Nat.sub_diag; reflexivity|]. split; [lia|]. replace (i - k)%nat with (S (i - S k)) by lia. exact E.
    + intros [L E]. destruct (Nat.eq_dec i k) as [->|N]; [left; rewrite Nat.sub_diag in E; injection E as ->; reflexivity|right]. split; [lia|].
      replace (i - k)%nat with (S (i - S k)) in E by lia. exact E.
Qed.
Lemma number_in skip l s : In s (number_steps skip l) <->
  exists i f, nth_error l i = Some f /\ (skip = true -> (1 <= i)%nat) /\ s = {| st_nr := Z.of_nat i; st_url := ss_href f |}.
Proof.
  unfold number_steps. rewrite in_flat_map. split.
  - intros ((i, f) & J & K). apply enumerate_in in J. rewrite Nat.sub_0_r in J. destruct J as [_ J]. exists i, f. split; [exact J|].
    destruct skip; cbn [negb orb] in K; [destruct (Nat.leb_spec 1 i); [|destruct K]|]; destruct K as [<-|[]]; split; try reflexivity; try discriminate; auto.
  - intros (i & f & J & K & ->). exists (i, f). split; [apply enumerate_in; rewrite Nat.sub_0_r; split; [lia|exact J]|].
    destruct skip; cbn [negb orb]; [rewrite (proj2 (Nat.leb_le 1 i) (K eq_refl))|]; now left.
Qed.
Lemma number_sorted skip l : StronglySorted Z.lt (map st_nr (number_steps skip l)).
Proof.
  unfold number_steps. assert (X : forall k, StronglySorted Z.lt (map st_nr (flat_map (fun '(i, s) => if negb skip || Nat.leb 1 i then [{| st_nr := Z.of_nat i; st_url := ss_href s |}] else [])
    (combine (seq k (length l)) l)))); [|exact (X 0%nat)].
  induction l as [|f l IH]; intro k; cbn [length seq combine flat_map map]; [constructor|]. rewrite map_app.
  specialize (IH (S k)). assert (B : Forall (fun n => Z.of_nat k < n) (map st_nr (flat_map (fun '(i, s) => if negb skip || Nat.leb 1 i then [{| st_nr := Z.of_nat i; st_url := ss_href s |}] else [])
    (combine (seq (S k) (length l)) l)))).
  { apply Forall_forall. intros n J. apply in_map_iff in J. destruct J as (s & <- & J). apply in_flat_map in J. destruct J as ((i, g) & J & K). apply enumerate_in in J.
    destruct (_ || _); [destruct K as [<-|[]]|destruct K]. cbn [st_nr]. lia. }
  destruct (_ || _); cbn [map app]; [|exact IH]. constructor; [exact IH|exact B].
Qed.
Lemma c52_numbers_proof : forall chk sv v t skip steps, swiss_steps chk sv v t skip (Ok steps) ->
  exists l, files_of sv v t l /\ StronglySorted Z.lt (map st_nr steps) /\
    forall s, In s steps <-> exists i f, nth_error l i = Some f /\ (skip = true -> (1 <= i)%nat) /\ s = {| st_nr := Z.of_nat i; st_url := ss_href f |}.
Proof.
  intros chk sv v t skip steps H. apply r_bind_ok in H. destruct H as (l & F & E). injection E as ->. exists l. split; [exact (files_found _ _ _ _ _ F)|].
  split; [apply number_sorted|]. intro s. apply number_in.
Qed.
Lemma sorted_perm_unique (l1 : list Z) : forall l2, StronglySorted Z.le l1 -> StronglySorted Z.le l2 -> Permutation l1 l2 -> l1 = l2.
Proof.
  induction l1 as [|a l1 IH]; intros l2 S1 S2 P; [apply Permutation_nil in P; now subst|]. destruct l2 as [|b l2]; [symmetry in P; apply Permutation_nil in P; discriminate|].
  inversion S1 as [|? ? S1' F1]; subst. inversion S2 as [|? ? S2' F2]; subst. rewrite Forall_forall in F1, F2.
  assert (Ja : In a (b :: l2)) by (eapply Permutation_in; [exact P|now left]). assert (Jb : In b (a :: l1)) by (eapply Permutation_in; [symmetry; exact P|now left]).
  assert (E : a = b). { destruct Ja as [->|Ja]; [reflexivity|]. destruct Jb as [->|Jb]; [reflexivity|]. specialize (F2 a Ja). specialize (F1 b Jb). lia. }
  subst. f_equal. apply IH; [assumption..|]. eapply Permutation_cons_inv. exact P.
Qed.
Lemma c52_hourly_proof : forall parsed l n, by_horizon parsed l -> Permutation parsed l -> Permutation (map (fun s => hours (ss_horizon s)) parsed) (map Z.of_nat (seq 0 n)) ->
  forall i f, nth_error l i = Some f -> hours (ss_horizon f) = Z.of_nat i.
Proof.
  intros parsed l n [S _] P H i f E. assert (Q : map (fun s => hours (ss_horizon s)) l = map Z.of_nat (seq 0 n)).
  { apply sorted_perm_unique.
    - clear -S. induction S as [|a l S IH F]; cbn [map]; constructor; [exact IH|]. apply Forall_forall. intros z J. apply in_map_iff in J. destruct J as (b & <- & J).
      rewrite Forall_forall in F. exact (F b J).
    - clear. generalize 0%nat. induction n as [|n IH]; intro k; cbn [seq map]; constructor; [apply IH|]. apply Forall_forall. intros z J. apply in_map_iff in J.
      destruct J as (b & <- & J). apply in_seq in J. lia.
    - rewrite <- H. apply Permutation_map. now symmetry. }
  assert (Li : (i < length l)%nat) by (apply nth_error_Some; congruence).
  assert (N : nth_error (map (fun s => hours (ss_horizon s)) l) i = Some (hours (ss_horizon f))) by (erewrite map_nth_error; [reflexivity|exact E]).
  rewrite Q in N. assert (Ln : (i < n)%nat).
  { assert (L : length (map (fun s => hours (ss_horizon s)) l) = n) by (rewrite Q, map_length, seq_length; reflexivity). rewrite map_length in L. lia. }
  rewrite (map_nth_error _ _ _ (d := i)) in N; [congruence|]. rewrite (nth_error_nth' _ 0%nat) by (rewrite seq_length; lia). now rewrite seq_nth.
Qed.

(** ** C53 *)
Lemma c53_latest_proof : forall t, valid_time t -> valid_time (ref_latest t) /\ dt_date (ref_latest t) = dt_date t /\
  instant (ref_latest t) mod three_hours = 0 /\ instant (ref_latest t) <= instant t /\
  forall n, n mod three_hours = 0 -> n <= instant t -> n <= instant (ref_latest t).
Proof.
  intros t (D & H & M & S & N). unfold ref_latest, instant, valid_time, three_hours. cbn [dt_date dt_hour dt_minute dt_second dt_nano].
  pose proof (Z.mod_pos_bound (dt_hour t) 3 ltac:(lia)) as B. pose proof (Z.div_mod (dt_hour t) 3 ltac:(lia)) as E.
  set (q := dt_hour t / 3) in *. set (r := dt_hour t mod 3) in *. set (dn := day_number (dt_date t)). change (10 ^ 9) with 1000000000 in *.
  assert (K : (((dn * 24 + (dt_hour t - r)) * 60 + 0) * 60 + 0) * 1000000000 + 0 = (dn * 8 + q) * (3 * 3600 * 1000000000)) by lia.
  split; [split; [exact D|lia]|]. split; [reflexivity|]. split; [rewrite K; apply Z_mod_mult|]. split; [lia|].
  intros n Nm L. rewrite K. pose proof (Z.div_mod n (3 * 3600 * 1000000000) ltac:(lia)) as En. rewrite Nm in En.
  assert (n < (dn * 8 + q + 1) * (3 * 3600 * 1000000000)) by lia. assert (n / (3 * 3600 * 1000000000) < dn * 8 + q + 1) by lia. lia.
Qed.
Lemma next_day_number d : valid_date d -> year d <= 9998 -> valid_date (next_day d) /\ day_number (next_day d) = day_number d + 1.
Proof.
  destruct d as [y mo da]. intros (Y & M & D) Y'. cbn [year month day] in *. unfold next_day, day_number, valid_date. cbn [year month day].
  assert (P : forall yy mm, 28 <= days_in_month yy mm) by (intros; unfold days_in_month; destruct (mm =? 2), (is_leap yy), ((mm =? 4) || (mm =? 6) || (mm =? 9) || (mm =? 11)); lia).
  destruct (Z.ltb_spec da (days_in_month y mo)); cbn [year month day]; [split; lia|]. assert (Ed : da = days_in_month y mo) by lia.
  destruct (Z.ltb_spec mo 12); cbn [year month day].
  - pose proof (P y (mo + 1)). split; [lia|]. replace (Z.to_nat (mo + 1 - 1)) with (S (Z.to_nat (mo - 1))) by lia. cbn [days_before_month].
    replace (Z.of_nat (S (Z.to_nat (mo - 1)))) with mo by lia. lia.
  - assert (mo = 12) by lia. subst. split; [pose proof (P (y + 1) 1); lia|]. rewrite (is_leap_days y). pose proof (days_in_year y) as Q.
    change (days_before_month y 12) with (days_before_month y 11 + days_in_month y 12) in Q. change (Z.to_nat (12 - 1)) with 11%nat. change (Z.to_nat (1 - 1)) with 0%nat.
    change (days_before_month (y + 1) 0) with 0. rewrite <- Q. lia.
Qed.
Lemma to_utc_ok t offset : local_time t offset -> valid_time (to_utc t offset) /\ instant (to_utc t offset) = instant t - offset * 10 ^ 9.
Proof.
  intros ((D & H & M & S & N) & Y & O). unfold to_utc, instant, valid_time. cbn [dt_date dt_hour dt_minute dt_second dt_nano]. change (10 ^ 9) with 1000000000 in *.
  set (s := dt_hour t * 3600 + dt_minute t * 60 + dt_second t - offset).
  assert (X : exists k, valid_date (if s <? 0 then prev_day (dt_date t) else if 86400 <=? s then next_day (dt_date t) else dt_date t) /\
     day_number (if s <? 0 then prev_day (dt_date t) else if 86400 <=? s then next_day (dt_date t) else dt_date t) = day_number (dt_date t) + k /\ s mod 86400 = s - k * 86400).
  { destruct (Z.ltb_spec s 0); [|destruct (Z.leb_spec 86400 s)].
    - exists (-1). destruct (c50_yesterday_proof (dt_date t) D) as [V E]; [intro Q; injection Q as Q _ _; lia|]. split; [exact V|]. split; [lia|].
      symmetry. apply (Z.mod_unique_pos s 86400 (-1)); subst s; lia.
    - exists 1. destruct (next_day_number (dt_date t) D ltac:(lia)) as [V E]. split; [exact V|]. split; [exact E|]. symmetry. apply (Z.mod_unique_pos s 86400 1); subst s; lia.
    - exists 0. split; [exact D|]. split; [lia|]. rewrite Z.mod_small; lia. }
  destruct X as (k & V & E & Es). rewrite E. pose proof (Z.mod_pos_bound s 86400 ltac:(lia)) as B. set (r := s mod 86400) in *.
  replace (r / 3600) with (r / 60 / 60) by (rewrite Z.div_div by lia; reflexivity).
  pose proof (Z.div_mod r 60 ltac:(lia)) as E1. pose proof (Z.div_mod (r / 60) 60 ltac:(lia)) as E2. pose proof (Z.mod_pos_bound r 60 ltac:(lia)). pose proof (Z.mod_pos_bound (r / 60) 60 ltac:(lia)).
  split; [split; [exact V|lia]|]. subst s. lia.
Qed.
Lemma c53_parse_proof : forall rfc3339 s,
  (rfc3339 s = None -> ref_from_str rfc3339 s = Err EInvalid) /\
  forall t offset, rfc3339 s = Some (t, offset) -> local_time t offset ->
    (dt_minute t = 0 /\ dt_second t = 0 /\ dt_hour t mod 3 = 0 ->
       exists u, ref_from_str rfc3339 s = Ok u /\ valid_time u /\ instant u = instant t - offset * 10 ^ 9) /\
    (~ (dt_minute t = 0 /\ dt_second t = 0 /\ dt_hour t mod 3 = 0) -> ref_from_str rfc3339 s = Err EInvalid).
Proof.
  intros rfc s. unfold ref_from_str. split; [intros ->; reflexivity|]. intros t off -> L. split.
  - intros (-> & -> & ->). cbn [Z.eqb negb orb]. exists (to_utc t off). split; [reflexivity|]. now apply to_utc_ok.
  - intro N. destruct (Z.eqb_spec (dt_minute t) 0); cbn [negb orb]; [|reflexivity]. destruct (Z.eqb_spec (dt_second t) 0); cbn [negb orb]; [|reflexivity].
    destruct (Z.eqb_spec (dt_hour t mod 3) 0); cbn [negb orb]; [tauto|reflexivity].
Qed.
Lemma c53_run_name_proof : forall t, valid_time t -> swiss_run_name t = if dt_hour t mod 3 =? 0 then Ok (dec_pad 2 (dt_hour t)) else Err EInvalid.
Proof.
  intros t (_ & H & _). unfold swiss_run_name. remember (dt_hour t) as h. clear Heqh.
  assert (X : exists n, (n < 24)%nat /\ h = Z.of_nat n) by (exists (Z.to_nat h); lia). destruct X as (n & L & ->).
  do 24 (destruct n as [|n]; [vm_compute; reflexivity|]). lia.
Qed.
Lemma c53_run_text_proof : forall t o, valid_time t -> (swiss_run_name t = o <->
  (dt_hour t mod 3 = 0 /\ exists s, o = Ok s /\ padded 2 s (dt_hour t)) \/ (dt_hour t mod 3 <> 0 /\ o = Err EInvalid)).
Proof.
  intros t o V. rewrite (c53_run_name_proof t V). destruct V as (_ & ? & _). destruct (Z.eqb_spec (dt_hour t mod 3) 0) as [E|N]; split.
  - intros <-. left. split; [exact E|]. eexists. split; [reflexivity|]. apply padded_dec_pad; [lia|lia|reflexivity].
  - intros [(_ & s & -> & P)|[X _]]; [|contradiction]. apply padded_dec_pad in P; [|lia|lia]. now subst s.
  - intros <-. right. auto.
  - intros [[X _]|[_ ->]]; [contradiction|reflexivity].
Qed.
Lemma c51_text_proof : forall h s, horizon_ok h -> (s = horizon_name h <-> horizon_text h s).
Proof.
  intros h s [? ?]. unfold horizon_name, horizon_text. split.
  - intros ->. exists (dec (hz_days h)), (dec_pad 2 (hz_hours h)). rewrite plain_dec, padded_dec_pad by lia. auto.
  - intros (d & hh & D & H1 & ->). apply plain_dec in D; [|lia]. apply padded_dec_pad in H1; try lia. subst. reflexivity.
Qed.
Lemma c53_text_proof : forall t s, valid_time t -> (s = ref_name t <-> time_text t s).
Proof.
  intros t s (V & ? & ? & ? & _). destruct (valid_date_bounds _ V) as (? & ? & ?). unfold ref_name, time_text. split.
  - intros ->. exists (dec_pad 4 (year (dt_date t))), (dec_pad 2 (month (dt_date t))), (dec_pad 2 (day (dt_date t))), (dec_pad 2 (dt_hour t)),
      (dec_pad 2 (dt_minute t)), (dec_pad 2 (dt_second t)). rewrite !padded_dec_pad by lia. repeat split.
  - intros (y & mo & d & h & mi & se & Y & Mo & D & Hh & Mi & Se & ->). apply padded_dec_pad in Y, Mo, D, Hh, Mi, Se; try lia. subst. reflexivity.
Qed.
Lemma c53_name_proof : forall t t', valid_time t -> valid_time t' -> ref_name t = ref_name t' ->
  dt_date t = dt_date t' /\ dt_hour t = dt_hour t' /\ dt_minute t = dt_minute t' /\ dt_second t = dt_second t'.
Proof.
  intros t t' (D & H & M & S & _) (D' & H' & M' & S' & _) E. unfold ref_name in E. destruct D as (Y & Mo & Da), D' as (Y' & Mo' & Da').
  assert (B : forall yy mm, days_in_month yy mm <= 31) by (intros; unfold days_in_month; destruct (mm =? 2), (is_leap yy), ((mm =? 4) || (mm =? 6) || (mm =? 9) || (mm =? 11)); lia).
  pose proof (B (year (dt_date t)) (month (dt_date t))). pose proof (B (year (dt_date t')) (month (dt_date t'))).
  assert (X2 : forall a b x y, 0 <= a < 100 -> 0 <= b < 100 -> (dec_pad 2 a ++ x = dec_pad 2 b ++ y)%string -> a = b /\ x = y).
  { intros a b x y A Bb Q. apply append_inv_length in Q; [|rewrite !dec_pad_length by (cbn; lia); reflexivity]. destruct Q as [Q ->]. split; [|reflexivity]. apply (dec_pad_inj 2); lia || exact Q. }
  apply append_inv_length in E; [|rewrite !dec_pad_length by (cbn; lia); reflexivity]. destruct E as [E1 E]. apply dec_pad_inj in E1; [|lia..].
  injection E as E. apply X2 in E; [|lia..]. destruct E as [E2 E]. injection E as E. apply X2 in E; [|lia..]. destruct E as [E3 E]. injection E as E.
  apply X2 in E; [|lia..]. destruct E as [E4 E]. injection E as E. apply X2 in E; [|lia..]. destruct E as [E5 E]. injection E as E. apply X2 in E; [|lia..]. destruct E as [E6 _].
  destruct (dt_date t) as [y1 m1 d1], (dt_date t') as [y2 m2 d2]. cbn [year month day] in E1, E2, E3. subst. auto.
Qed.
Lemma c53_round_trip_proof : forall rfc3339 t, valid_time t -> rfc3339 (ref_name (ref_latest t)) = Some (ref_latest t, 0) ->
  ref_from_str rfc3339 (ref_name (ref_latest t)) = Ok (ref_latest t).
Proof.
  intros rfc t V E. unfold ref_from_str. rewrite E. unfold ref_latest at 1 2 3. cbn [dt_minute dt_second dt_hour Z.eqb negb orb].
  pose proof (Z.mod_pos_bound (dt_hour t) 3 ltac:(lia)) as B. pose proof (Z.div_mod (dt_hour t) 3 ltac:(lia)) as Eh.
  replace (dt_hour t - dt_hour t mod 3) with (dt_hour t / 3 * 3) by lia. rewrite Z_mod_mult. cbn [Z.eqb negb]. f_equal. unfold to_utc, ref_latest. cbn [dt_date dt_hour dt_minute dt_second dt_nano].
  destruct V as (_ & H & _). set (h := dt_hour t - dt_hour t mod 3). assert (Bh : 0 <= h < 24) by (subst h; lia).
  replace (h * 3600 + 0 * 60 + 0 - 0) with (h * 3600) by lia. rewrite Z.mod_small by lia.
  destruct (Z.ltb_spec (h * 3600) 0); [lia|]. destruct (Z.leb_spec 86400 (h * 3600)); [lia|]. rewrite Z_div_mult by lia.
  f_equal; Z.div_mod_to_equations; lia.
Qed.
Lemma last_of_app {A} (l : list A) : forall a, exists l', a :: l = l' ++ [last_of a l].
Proof. induction l as [|b l IH]; intro a; cbn [last_of]; [now exists []|]. destruct (IH b) as (l' & E). exists (a :: l'). cbn. now rewrite <- E. Qed.
Lemma c53_find_proof : forall rfc3339 sv o, find_latest_ref rfc3339 sv o <->
  exists answer, sv_search sv latest_request answer /\
    match answer with
    | Ok features => features = [] /\ o = Err EInvalid \/ exists earlier f, features = earlier ++ [f] /\ o = ref_from_str rfc3339 (ft_ref f)
    | Err e => o = Err e
    | Panic => o = Panic
    end.
Proof.
  intros rfc sv o. unfold find_latest_ref, r_bind.
  assert (X : swiss_request None (Some (horizon_name horizon_zero)) (Some (swiss_var_name ST2m)) = latest_request) by (vm_compute; reflexivity). rewrite X.
  assert (Y : forall features, r_of match features with [] => Err EInvalid | f :: r => ref_from_str rfc (ft_ref (last_of f r)) end o <->
    (features = [] /\ o = Err EInvalid \/ exists earlier f, features = earlier ++ [f] /\ o = ref_from_str rfc (ft_ref f))).
  { intros [|f r]; unfold r_of.
    - split; [auto|]. intros [[_ E]|(e & f & E & _)]; [exact E|]. destruct e; discriminate.
    - destruct (last_of_app r f) as (l' & E). split; [intro Q; right; eauto|]. intros [[Q _]|(e & g & Q & ->)]; [discriminate|]. rewrite E in Q. apply app_inj_tail in Q. now destruct Q as [_ ->]. }
  split; intros (a & S & H); exists a; (split; [exact S|]); destruct a as [features|?|]; try exact H; now apply Y.
Qed.
Lemma latest_spec rfc sv t : find_latest_ref rfc sv (Ok t) <-> latest rfc sv t.
Proof.
  rewrite c53_find_proof. unfold latest. split.
  - intros ([features|?|] & S & H); try discriminate. destruct H as [[_ H]|(e & f & -> & H)]; [discriminate|]. eauto.
  - intros (e & f & S & H). exists (Ok (e ++ [f])). split; [exact S|]. right. eauto.
Qed.

(** ** C54 *)
(** A program that either ends at once without success or renders the steps of a layer. *)
Definition layered (k : kind) (faulty : bool) (run : fc_run) (steps : list Z) (p : prog effect)
  (Q : list fc_step -> (fc_step -> result (k_data k)) -> Prop) : Prop :=
  forall tr r, p tr r -> (tr = [] /\ r <> Ok tt) \/ exists ss read, Q ss read /\ k_render k faulty run ss steps read tr r.
Lemma layered_call {A} k faulty run steps (f : outcome A -> Prop) q Q :
  (forall a, f (Ok a) -> layered k faulty run steps (q a) Q) -> layered k faulty run steps (p_call f q) Q.
Proof.
  intros H tr r ([a|e|] & Fa & R); cbn [p_let] in R; [exact (H a Fa tr r R)| |]; destruct R as [-> ->]; left; (split; [reflexivity|discriminate]).
Qed.
Lemma layered_render k faulty run steps ss read (Q : list fc_step -> (fc_step -> result (k_data k)) -> Prop) : Q ss read -> layered k faulty run steps (k_render k faulty run ss steps read) Q.
Proof. intros H tr r R. right. eauto. Qed.
Definition numbering (ss : list fc_step) : Prop := Forall (fun s => 0 <= st_nr s) ss /\ NoDup (map st_nr ss).
Lemma numbering_steps skip l : numbering (number_steps skip l).
Proof.
  split.
  - apply Forall_forall. intros s J. apply number_in in J. destruct J as (i & f & _ & _ & ->). cbn [st_nr]. lia.
  - pose proof (number_sorted skip l) as S. induction (map st_nr (number_steps skip l)) as [|n ns IH]; [constructor|]. inversion S as [|? ? S' B]; subst. constructor; [|auto].
    intro J. rewrite Forall_forall in B. specialize (B n J). lia.
Qed.
Section Layered.
  Variables (chk : bool) (m : libm) (k : kind) (K : In k (kinds chk m)) (run : fc_run) (V : valid_run run) (steps : list Z).
  Variables (p : prog effect) (Q : list fc_step -> (fc_step -> result (k_data k)) -> Prop).
  Hypothesis N : forall ss read, Q ss read -> numbering ss.
  Lemma layered_quiet faulty : layered k faulty run steps p Q -> quiet p.
  Proof.
    intros L tr r e R J. destruct (L tr r R) as [[-> _]|(ss & read & H & R')]; [destruct J|]. exact (render_quiet chk m k K faulty run ss steps read V (proj1 (N _ _ H)) tr r e R' J).
  Qed.
  Lemma layered_path faulty tr r e q : layered k faulty run steps p Q -> p tr r -> In e tr -> effect_path e = Some q ->
    exists ss read s rest, Q ss read /\ In s ss /\ wanted steps s /\ q = (output_path run (st_nr s) (k_type k) ++ rest)%string.
  Proof.
    intros L R J E. destruct (L tr r R) as [[-> _]|(ss & read & H & R')]; [destruct J|].
    destruct (any_path chk m run steps V k K faulty read ss tr r e q (proj1 (N _ _ H)) R' J E) as (s & rest & Js & W & _ & ->). exists ss, read, s, rest. auto.
  Qed.
  Lemma layered_leaves n f : layered k false run steps p Q -> (forall ss read, Q ss read -> stable read) -> 0 <= n -> proper f -> ~ of_layer (k_type k) f -> leaves (file_path run n f) p.
  Proof.
    intros L S Hn P NL tr R b. destruct (L tr _ R) as [[_ E]|(ss & read & H & R')]; [contradiction|].
    exact (render_leaves chk m k K run ss steps read n f V (proj1 (N _ _ H)) (proj2 (N _ _ H)) (S _ _ H) Hn P NL tr R' b).
  Qed.
End Layered.

Section Rendering.
  Variables (chk : bool) (powi : f32 -> Z -> f32) (sv : service) (m : libm) (u : ugrid) (t : datetime).
  Notation fetch := (sv_fetch sv).
  Definition Qcp (ss : list fc_step) (read : fc_step -> result (cloud_precip_layer * weather_layer)) : Prop := exists lc lp le,
    files_of sv SClct t lc /\ files_of sv STotPrec t lp /\ files_of sv SCeiling t le /\
    ss = number_steps true lc /\ read = swiss_read_cloud_precip_weather chk powi fetch ss (number_steps false lp) (number_steps false le) u.
  Definition Qwi (ss : list fc_step) (read : fc_step -> result wind_layer) : Prop := exists lu lv lg,
    files_of sv SU10m t lu /\ files_of sv SV10m t lv /\ files_of sv SVmax10m t lg /\
    ss = number_steps false lu /\ read = swiss_read_wind chk powi fetch ss (number_steps false lv) (number_steps false lg) u.
  Definition Qte (ss : list fc_step) (read : fc_step -> result temp_layer) : Prop := exists l,
    files_of sv ST2m t l /\ ss = number_steps false l /\ read = swiss_read_temp chk powi fetch ss u.
  Definition Qvc (h : list bgrid) (ss : list fc_step) (read : fc_step -> result vertical_cloud_layer) : Prop := exists l,
    files_of sv SClc t l /\ ss = number_steps false l /\ read = swiss_read_vertical_cloud chk powi fetch ss u h.
  Definition Qvw (h : list bgrid) (ss : list fc_step) (read : fc_step -> result vertical_wind_layer) : Prop := exists lu lv,
    files_of sv SU t lu /\ files_of sv SV t lv /\ ss = number_steps false lu /\ read = swiss_read_vertical_wind chk powi fetch ss (number_steps false lv) u h.
  Lemma steps_found v skip ss : swiss_steps chk sv v t skip (Ok ss) -> exists l, files_of sv v t l /\ ss = number_steps skip l.
  Proof. intro H. apply r_bind_ok in H. destruct H as (l & F & E). injection E as ->. exists l. split; [exact (files_found _ _ _ _ _ F)|reflexivity]. Qed.
  Hypothesis V : valid_time t.
  Lemma layered_run k faulty steps q Q : (layered k faulty (swiss_run_of t) steps (q (swiss_run_of t)) Q) -> layered k faulty (swiss_run_of t) steps (p_let (swiss_run t) q) Q.
  Proof.
    intros H. unfold swiss_run. rewrite (c53_run_name_proof t V). destruct (dt_hour t mod 3 =? 0); cbn [omap p_let]; [exact H|].
    intros tr r [-> ->]. left. split; [reflexivity|discriminate].
  Qed.
  Lemma swiss_valid : valid_run (swiss_run_of t).
  Proof.
    destruct V as (D & H & _). split; [exact D|]. cbn [swiss_run_of run_name]. remember (dt_hour t) as h. clear Heqh.
    assert (X : exists n, (n < 24)%nat /\ h = Z.of_nat n) by (exists (Z.to_nat h); lia). destruct X as (n & L & ->).
    do 24 (destruct n as [|n]; [vm_compute; reflexivity|]). lia.
  Qed.
  Variables (faulty : bool) (steps : list Z).
  Ltac found H := apply steps_found in H; let l := fresh "l" in let F := fresh "F" in destruct H as (l & F & ->).
  Lemma cp_layered : layered (cloud_precip_kind chk m) faulty (swiss_run_of t) steps (swiss_cloud_precip chk powi sv m faulty steps u t) Qcp.
  Proof.
    apply layered_run. apply layered_call. intros a Ha. apply layered_call. intros b Hb. apply layered_call. intros c Hc. found Ha. found Hb. found Hc.
    apply (layered_render (cloud_precip_kind chk m)). exists l, l0, l1. auto 10.
  Qed.
  Lemma wi_layered : layered (wind_kind chk m) faulty (swiss_run_of t) steps (swiss_wind chk powi sv m faulty steps u t) Qwi.
  Proof.
    apply layered_run. apply layered_call. intros a Ha. apply layered_call. intros b Hb. apply layered_call. intros c Hc. found Ha. found Hb. found Hc.
    apply (layered_render (wind_kind chk m)). exists l, l0, l1. auto 10.
  Qed.
  Lemma te_layered : layered (temp_kind chk m) faulty (swiss_run_of t) steps (swiss_temp chk powi sv m faulty steps u t) Qte.
  Proof. apply layered_run. apply layered_call. intros a Ha. found Ha. apply (layered_render (temp_kind chk m)). exists l. auto 10. Qed.
  Lemma vc_layered h : layered vertical_cloud_kind faulty (swiss_run_of t) steps (swiss_vertical_cloud chk powi sv faulty steps u t h) (Qvc h).
  Proof. apply layered_run. apply layered_call. intros a Ha. found Ha. apply (layered_render vertical_cloud_kind). exists l. auto 10. Qed.
  Lemma vw_layered h : layered vertical_wind_kind faulty (swiss_run_of t) steps (swiss_vertical_wind chk powi sv faulty steps u t h) (Qvw h).
  Proof.
    apply layered_run. apply layered_call. intros a Ha. apply layered_call. intros b Hb. found Ha. found Hb. apply (layered_render vertical_wind_kind). exists l, l0. auto 10.
  Qed.
  Lemma numbered_cp ss read : Qcp ss read -> numbering ss.
  Proof. intros (lc & lp & le & _ & _ & _ & -> & _). apply numbering_steps. Qed.
  Lemma numbered_wi ss read : Qwi ss read -> numbering ss.
  Proof. intros (lc & lp & le & _ & _ & _ & -> & _). apply numbering_steps. Qed.
  Lemma numbered_te ss read : Qte ss read -> numbering ss.
  Proof. intros (lc & _ & -> & _). apply numbering_steps. Qed.
  Lemma numbered_vc h ss read : Qvc h ss read -> numbering ss.
  Proof. intros (lc & _ & -> & _). apply numbering_steps. Qed.
  Lemma numbered_vw h ss read : Qvw h ss read -> numbering ss.
  Proof. intros (lc & lp & _ & _ & -> & _). apply numbering_steps. Qed.
  Notation cp := (swiss_cloud_precip chk powi sv m faulty steps u t).
  Notation wi := (swiss_wind chk powi sv m faulty steps u t).
  Notation te := (swiss_temp chk powi sv m faulty steps u t).
  Notation vc := (swiss_vertical_cloud chk powi sv faulty steps u t).
  Notation vw := (swiss_vertical_wind chk powi sv faulty steps u t).
  Lemma swiss_quiet : quiet cp /\ quiet wi /\ quiet te /\ (forall h, quiet (vc h)) /\ (forall h, quiet (vw h)).
  Proof.
    destruct (kind_in chk m) as (K1 & K2 & K3 & K4 & K5). pose proof swiss_valid as SV. split; [|split; [|split; [|split; intro h]]].
    - exact (layered_quiet chk m _ K1 _ SV _ _ _ numbered_cp _ cp_layered).
    - exact (layered_quiet chk m _ K2 _ SV _ _ _ numbered_wi _ wi_layered).
    - exact (layered_quiet chk m _ K3 _ SV _ _ _ numbered_te _ te_layered).
    - exact (layered_quiet chk m _ K4 _ SV _ _ _ (numbered_vc h) _ (vc_layered h)).
    - exact (layered_quiet chk m _ K5 _ SV _ _ _ (numbered_vw h) _ (vw_layered h)).
  Qed.
  Lemma number_path skip l (s : fc_step) : In s (number_steps skip l) -> wanted steps s ->
    exists n, ((if skip then 1 else 0) <= n < length l)%nat /\ wanted_step steps n /\ st_nr s = Z.of_nat n.
  Proof.
    intros J W. apply number_in in J. destruct J as (i & f & Ni & Hs & ->). exists i. assert (Li : (i < length l)%nat) by (apply nth_error_Some; congruence).
    split; [destruct skip; [specialize (Hs eq_refl)|]; lia|]. split; [exact W|reflexivity].
  Qed.
  Lemma perform_path o a tr r e q : perform cp wi te o vc vw a tr r -> In e tr -> effect_path e = Some q ->
    exists ty l n rest, a = Layer ty /\ ty <> Weather /\ files_of sv (main_var ty) t l /\ (first_step ty <= n < length l)%nat /\ wanted_step steps n /\ q = (output_path (swiss_run_of t) (Z.of_nat n) ty ++ rest)%string.
  Proof.
    intros B J E. destruct (kind_in chk m) as (K1 & K2 & K3 & K4 & K5). pose proof swiss_valid as SV. destruct a as [ty|].
    - exists ty. destruct ty; cbn [perform] in B.
      + destruct (layered_path chk m _ K1 _ SV _ _ _ numbered_cp _ _ _ _ _ cp_layered B J E) as (ss & read & s & rest & (lc & _ & _ & F & _ & _ & -> & _) & Js & W & ->).
        destruct (number_path _ _ _ Js W) as (n & B1 & B2 & ->). exists lc, n, rest. repeat split; try discriminate; try assumption; apply B1.
      + destruct B as [-> _]. destruct J.
      + destruct (layered_path chk m _ K2 _ SV _ _ _ numbered_wi _ _ _ _ _ wi_layered B J E) as (ss & read & s & rest & (lc & _ & _ & F & _ & _ & -> & _) & Js & W & ->).
        destruct (number_path _ _ _ Js W) as (n & B1 & B2 & ->). exists lc, n, rest. repeat split; try discriminate; try assumption; apply B1.
      + destruct (layered_path chk m _ K3 _ SV _ _ _ numbered_te _ _ _ _ _ te_layered B J E) as (ss & read & s & rest & (lc & F & -> & _) & Js & W & ->).
        destruct (number_path _ _ _ Js W) as (n & B1 & B2 & ->). exists lc, n, rest. repeat split; try discriminate; try assumption; apply B1.
      + destruct o as [h|?|]; cbn [p_let] in B; [|destruct B as [-> _]; destruct J..].
        destruct (layered_path chk m _ K4 _ SV _ _ _ (numbered_vc h) _ _ _ _ _ (vc_layered h) B J E) as (ss & read & s & rest & (lc & F & -> & _) & Js & W & ->).
        destruct (number_path _ _ _ Js W) as (n & B1 & B2 & ->). exists lc, n, rest. repeat split; try discriminate; try assumption; apply B1.
      + destruct o as [h|?|]; cbn [p_let] in B; [|destruct B as [-> _]; destruct J..].
        destruct (layered_path chk m _ K5 _ SV _ _ _ (numbered_vw h) _ _ _ _ _ (vw_layered h) B J E) as (ss & read & s & rest & (lc & lp & F & _ & -> & _) & Js & W & ->).
        destruct (number_path _ _ _ Js W) as (n & B1 & B2 & ->). exists lc, n, rest. repeat split; try discriminate; try assumption; apply B1.
    - cbn [perform] in B. exfalso. destruct B as [[[-> ->] N]|(t1 & t2 & -> & [-> _] & [-> _])]; [contradiction|]. destruct J as [<-|[]]. discriminate E.
  Qed.
End Rendering.
Lemma find_asset_first id l a : find_asset id l = Some a -> first_asset id l a.
Proof.
  unfold find_asset. induction l as [|b l IH]; cbn [find]; [discriminate|]. destruct (String.eqb_spec (as_id b) id) as [E|N].
  - intro H. injection H as <-. exists [], l. repeat split; [exact E|constructor].
  - intro H. destruct (IH H) as (x & y & -> & E & F). exists (b :: x), y. repeat split; [exact E|constructor; assumption].
Qed.
Lemma find_asset_some id l a : first_asset id l a -> find_asset id l = Some a.
Proof.
  intros (x & y & -> & E & F). unfold find_asset. induction F as [|b x N F IH]; cbn [find app]; [rewrite E, String.eqb_refl; reflexivity|].
  destruct (String.eqb_spec (as_id b) id); [contradiction|exact IH].
Qed.
Lemma index_vec_ok {A} (l : list A) i a : index_vec l i = Ok a <-> nth_error l (Z.to_nat i) = Some a.
Proof. unfold index_vec. destruct (nth_error l (Z.to_nat i)); split; intro H; congruence. Qed.
Lemma hor_consts_ok chk powi fetch url u : read_hor_consts chk powi fetch url (Ok u) <-> grid_of_constants chk powi fetch url u.
Proof.
  unfold read_hor_consts, fetch_docs, grid_of_constants, swiss_extent. split.
  - intro H. apply r_bind_ok in H. destruct H as (docs & H & E). apply r_bind_ok in H. destruct H as (bs & H & D). unfold r_of in *.
    destruct (read_multi_doc chk bs) as [o|] eqn:M; [|discriminate]. subst o. symmetry in E.
    destruct (index_vec docs 4) as [clat|?|] eqn:I4; try discriminate E. destruct (index_vec docs 3) as [clon|?|] eqn:I3; try discriminate E. cbn [obind] in E.
    apply index_vec_ok in I3, I4. destruct (extent_new _ _) as [ex|?|] eqn:X; try discriminate E. cbn [obind] in E.
    destruct (coordinates_from_docs _ _ _) as [cs|?|] eqn:C; try discriminate E. exists bs, docs, clat, clon, cs, ex. auto 10.
  - intros (bs & docs & clat & clon & cs & e & H & M & I4 & I3 & C & X & L). apply r_bind_ok. exists docs. split.
    + apply r_bind_ok. exists bs. split; [exact H|]. unfold r_of. now rewrite M.
    + assert (J4 : index_vec docs 4 = Ok clat) by (apply index_vec_ok; exact I4). assert (J3 : index_vec docs 3 = Ok clon) by (apply index_vec_ok; exact I3).
      unfold r_of. rewrite J4, J3. cbn [obind]. rewrite X. cbn [obind]. rewrite C. cbn [obind]. symmetry. exact L.
Qed.
Lemma latest_valid rfc sv t : dated rfc sv -> latest rfc sv t -> valid_time t.
Proof.
  intros D (features & f & S & R). assert (J : In f (features ++ [f])) by (apply in_or_app; right; now left).
  destruct (c53_parse_proof rfc (ft_ref f)) as [P1 P2]. destruct (rfc (ft_ref f)) as [[t' off]|] eqn:E; [|rewrite (P1 eq_refl) in R; discriminate].
  pose proof (D _ _ _ _ _ S J E) as L. destruct (P2 t' off eq_refl L) as [Y N].
  destruct (Z.eq_dec (dt_minute t') 0) as [A|A]; [|rewrite N in R; [discriminate|tauto]]. destruct (Z.eq_dec (dt_second t') 0) as [B|B]; [|rewrite N in R; [discriminate|tauto]].
  destruct (Z.eq_dec (dt_hour t' mod 3) 0) as [C|C]; [|rewrite N in R; [discriminate|tauto]]. destruct (Y (conj A (conj B C))) as (u & Eu & Vu & _). congruence.
Qed.
Lemma swiss_start chk powi rfc sv m faulty steps vars tr r : swiss_render_latest chk powi rfc sv m faulty steps vars tr r ->
  (tr = [] /\ r <> Ok tt) \/ exists u heights t, started chk powi rfc sv u heights t /\
    render_selected vars (swiss_cloud_precip chk powi sv m faulty steps u t) (swiss_wind chk powi sv m faulty steps u t) (swiss_temp chk powi sv m faulty steps u t)
      (swiss_read_hhl chk powi (sv_fetch sv) u heights) (swiss_vertical_cloud chk powi sv faulty steps u t) (swiss_vertical_wind chk powi sv faulty steps u t) tr r.
Proof.
  intros ([l|?|] & A & R); cbn [p_let] in R; [|destruct R as [-> ->]; left; (split; [reflexivity|discriminate])..].
  destruct (find_asset HOR_CONSTS_ID l) as [hor|] eqn:H1; cbn [expect p_let] in R; [|destruct R as [-> ->]; left; (split; [reflexivity|discriminate])].
  destruct R as ([u|?|] & U & R); cbn [p_let] in R; [|destruct R as [-> ->]; left; (split; [reflexivity|discriminate])..].
  destruct (find_asset VERT_CONSTS_ID l) as [vert|] eqn:H2; cbn [expect p_let] in R; [|destruct R as [-> ->]; left; (split; [reflexivity|discriminate])].
  destruct R as ([t|?|] & T & R); cbn [p_let] in R; [|destruct R as [-> ->]; left; (split; [reflexivity|discriminate])..].
  right. exists u, (as_href vert), t. split; [|exact R]. exists l, hor, vert. apply find_asset_first in H1, H2. apply hor_consts_ok in U. apply (proj1 (latest_spec _ _ _)) in T. auto 10.
Qed.
Lemma started_valid chk powi rfc sv u heights t : dated rfc sv -> started chk powi rfc sv u heights t -> valid_time t.
Proof. intros D (l & hor & vert & _ & _ & _ & _ & _ & L). exact (latest_valid rfc sv t D L). Qed.
Lemma c54_swiss_order_proof : forall chk powi rfc3339 sv m faulty steps vars tr r plan,
  dated rfc3339 sv -> plan_of vars plan -> swiss_render_latest chk powi rfc3339 sv m faulty steps vars tr r ->
  (tr = [] /\ r <> Ok tt) \/
  exists u heights t o, started chk powi rfc3339 sv u heights t /\
    (In EHeights tr -> swiss_read_hhl chk powi (sv_fetch sv) u heights o) /\
    for_seq plan (perform (swiss_cloud_precip chk powi sv m faulty steps u t) (swiss_wind chk powi sv m faulty steps u t)
      (swiss_temp chk powi sv m faulty steps u t) o (swiss_vertical_cloud chk powi sv faulty steps u t)
      (swiss_vertical_wind chk powi sv faulty steps u t)) tr r.
Proof.
  intros chk powi rfc sv m faulty steps vars tr r plan D P R. destruct (swiss_start _ _ _ _ _ _ _ _ _ _ R) as [E|(u & heights & t & S & R')]; [now left|right].
  pose proof (started_valid _ _ _ _ _ _ _ D S) as V. destruct (swiss_quiet chk powi sv m u t V faulty steps) as (Q1 & Q2 & Q3 & Q4 & Q5).
  destruct (selected_plan vars _ _ _ _ _ _ Q1 Q2 Q3 plan tr r P R') as (o & Ho & F). exists u, heights, t, o. auto.
Qed.
Lemma c54_swiss_heights_proof : forall chk powi rfc3339 sv m faulty steps vars tr r,
  dated rfc3339 sv -> swiss_render_latest chk powi rfc3339 sv m faulty steps vars tr r ->
  (heights_read tr <= 1)%nat /\ (~ chosen vars Heights -> heights_read tr = 0%nat) /\ (r = Ok tt -> chosen vars Heights -> heights_read tr = 1%nat).
Proof.
  intros chk powi rfc sv m faulty steps vars tr r D R. destruct (plan_exists vars) as (plan & P).
  destruct (c54_swiss_order_proof _ _ _ _ _ _ _ _ _ _ plan D P R) as [[-> N]|(u & heights & t & o & S & _ & F)].
  - split; [cbn; lia|]. split; [reflexivity|]. intro; contradiction.
  - pose proof (started_valid _ _ _ _ _ _ _ D S) as V. destruct (swiss_quiet chk powi sv m u t V faulty steps) as (Q1 & Q2 & Q3 & Q4 & Q5).
    destruct (seq_heights _ (fun a t' r' => perform_heights _ _ _ _ _ Q1 Q2 Q3 Q4 Q5 o a t' r') plan tr r F) as [H1 H2].
    destruct (plan_heights vars plan P) as [P1 P2].
    assert (Dc : chosen vars Heights \/ ~ chosen vars Heights).
    { cbn [chosen]. destruct (named_dec vars VerticalCloud), (named_dec vars VerticalWind); tauto. }
    split; [destruct Dc as [X|X]; [rewrite (P1 X) in H1|rewrite (P2 X) in H1]; lia|]. split; [intro X; rewrite (P2 X) in H1; lia|]. intros E C. now rewrite (H2 E), P1.
Qed.
Lemma c54_swiss_paths_proof : forall chk powi rfc3339 sv m faulty steps vars tr r e p,
  dated rfc3339 sv -> swiss_render_latest chk powi rfc3339 sv m faulty steps vars tr r -> In e tr -> effect_path e = Some p ->
  exists u heights t ty l n rest, started chk powi rfc3339 sv u heights t /\ named vars ty /\ In (Layer ty) order /\
    files_of sv (main_var ty) t l /\ (first_step ty <= n < length l)%nat /\ wanted_step steps n /\
    p = (output_path (swiss_run_of t) (Z.of_nat n) ty ++ rest)%string.
Proof.
  intros chk powi rfc sv m faulty steps vars tr r e p D R J E. destruct (plan_exists vars) as (plan & P).
  destruct (c54_swiss_order_proof _ _ _ _ _ _ _ _ _ _ plan D P R) as [[-> _]|(u & heights & t & o & S & _ & F)]; [destruct J|].
  pose proof (started_valid _ _ _ _ _ _ _ D S) as V. destruct (seq_effect _ plan tr r F e J) as (a & tr' & r' & Ja & B & Je & _). apply (plan_in _ _ _ P) in Ja. destruct Ja as [O C].
  destruct (perform_path chk powi sv m u t V faulty steps o a tr' r' e p B Je E) as (ty & l & n & rest & -> & _ & Fl & Bn & W & ->).
  exists u, heights, t, ty, l, n, rest. auto 10.
Qed.
Lemma c54_swiss_same_proof : forall chk powi rfc3339 sv m faulty steps vars vars' tr r, same_layers vars vars' ->
  swiss_render_latest chk powi rfc3339 sv m faulty steps vars tr r -> swiss_render_latest chk powi rfc3339 sv m faulty steps vars' tr r.
Proof.
  intros chk powi rfc sv m faulty steps vars vars' tr r S ([l|?|] & A & R); exists ltac:(match type of A with sv_assets _ ?o => exact o end); (split; [exact A|]); [|exact R..].
  cbn [p_let] in *. destruct (find_asset HOR_CONSTS_ID l) as [hor|]; cbn [expect p_let] in *; [|exact R].
  destruct R as (ou & U & R). exists ou. split; [exact U|]. destruct ou as [u|?|]; cbn [p_let] in *; [|exact R..].
  destruct (find_asset VERT_CONSTS_ID l) as [vert|]; cbn [expect p_let] in *; [|exact R].
  destruct R as (ot & T & R). exists ot. split; [exact T|]. destruct ot as [t|?|]; cbn [p_let] in *; [|exact R..]. eapply selected_same; eassumption.
Qed.

(** ** C60 *)
Section Readers.
  Variables (chk : bool) (powi : f32 -> Z -> f32) (fetch : fetcher).
  Lemma unstructured_spec {T} url (missing : T) transform u g : fetch_unstructured chk powi fetch url missing transform u (Ok g) <->
    exists bs d rest, fetch url (Ok bs) /\ read_single_doc chk bs = Ok (d, rest) /\ regrid_doc powi missing transform u d = Ok g.
  Proof.
    unfold fetch_unstructured, fetch_doc. rewrite r_bind_ok. split.
    - intros (d & H & R). apply r_bind_ok in H. destruct H as (bs & H & E). unfold r_of in *. destruct (read_single_doc chk bs) as [[d' rest]|?|] eqn:Rd; try discriminate.
      injection E as ->. exists bs, d', rest. auto.
    - intros (bs & d & rest & H & E & R). exists d. split; [|symmetry; exact R]. apply r_bind_ok. exists bs. split; [exact H|]. unfold r_of. rewrite E. reflexivity.
  Qed.
  Lemma select_levels (docs : list document) : select_docs (Some SWISS_LEVELS) docs = level_docs docs.
  Proof. unfold SWISS_LEVELS. rewrite c22_selection_proof by lia. reflexivity. Qed.
  Lemma multi_spec url missing transform u gs : fetch_multi_unstructured chk powi fetch url missing transform u (Some SWISS_LEVELS) (Ok gs) <->
    level_grids_at chk powi fetch u missing transform url gs.
  Proof.
    unfold fetch_multi_unstructured, fetch_docs, level_grids_at. rewrite r_bind_ok. split.
    - intros (docs & H & R). apply r_bind_ok in H. destruct H as (bs & H & E). unfold r_of in *. destruct (read_multi_doc chk bs) as [o|] eqn:Rd; [|discriminate]. subst o.
      exists bs, docs. split; [exact H|]. split; [exact Rd|]. rewrite <- select_levels. now apply (proj1 (c22_parallel_proof _ _ _ _ _ _ _ _ R gs)).
    - intros (bs & docs & H & E & R). exists docs. split; [|constructor; rewrite select_levels; exact R]. apply r_bind_ok. exists bs. split; [exact H|]. unfold r_of. rewrite E. reflexivity.
  Qed.
  Hypothesis St : steady fetch.
  Lemma det_fetch url : det (fetch url).
  Proof. intros a b H1 H2. exact (St url a b H1 H2). Qed.
  Lemma det_unstructured {T} url (missing : T) transform u : det (fetch_unstructured chk powi fetch url missing transform u).
  Proof. apply det_bind; [apply det_bind; [apply det_fetch|intro; apply det_of]|intro; apply det_of]. Qed.
  Lemma det_multi url missing (transform : f32 -> Z) u r : det (fetch_multi_unstructured chk powi fetch url missing transform u r).
  Proof.
    apply det_bind; [apply det_bind; [apply det_fetch|intro; apply det_of]|]. intros docs a b H1 H2.
    pose proof (proj1 (c22_parallel_proof _ _ _ _ _ _ _ _ H1 a) eq_refl) as F1. pose proof (proj1 (c22_parallel_proof _ _ _ _ _ _ _ _ H2 b) eq_refl) as F2. clear H1 H2.
    revert b F2. induction F1 as [|d y l ys E F IH]; intros b F2; inversion F2; subst; [reflexivity|]. f_equal; [congruence|auto].
  Qed.
  Lemma det_cloud_precip_weather a b c u : stable (swiss_read_cloud_precip_weather chk powi fetch a b c u).
  Proof.
    intros s x y H1 H2. revert x y H1 H2. change (det (swiss_read_cloud_precip_weather chk powi fetch a b c u s)). repeat (apply det_bind; [apply det_of || apply det_unstructured || idtac|intro]).
    - repeat (apply det_bind; [apply det_of || apply det_unstructured|intro]). apply det_of.
    - repeat (apply det_bind; [apply det_of || apply det_unstructured|intro]). apply det_of.
    - apply det_of.
  Qed.
  Lemma det_swiss_wind a b c u : stable (swiss_read_wind chk powi fetch a b c u).
  Proof.
    intros s x y H1 H2. revert x y H1 H2. change (det (swiss_read_wind chk powi fetch a b c u s)). repeat (apply det_bind; [apply det_of || apply det_unstructured|intro]). apply det_of.
  Qed.
  Lemma det_swiss_temp a u : stable (swiss_read_temp chk powi fetch a u).
  Proof. intros s x y H1 H2. revert x y H1 H2. change (det (swiss_read_temp chk powi fetch a u s)). apply det_bind; [apply det_of|intro; apply det_unstructured]. Qed.
  Lemma det_swiss_vc a u h : stable (swiss_read_vertical_cloud chk powi fetch a u h).
  Proof.
    intros s x y H1 H2. revert x y H1 H2. change (det (swiss_read_vertical_cloud chk powi fetch a u h s)). repeat (apply det_bind; [apply det_of || apply det_multi|intro]). apply det_of.
  Qed.
  Lemma det_swiss_vw a b u h : stable (swiss_read_vertical_wind chk powi fetch a b u h).
  Proof.
    intros s x y H1 H2. revert x y H1 H2. change (det (swiss_read_vertical_wind chk powi fetch a b u h s)). repeat (apply det_bind; [apply det_of || apply det_multi|intro]). apply det_of.
  Qed.
End Readers.
Lemma lookup_ok skip l n s : step_by_nr (number_steps skip l) (Z.of_nat n) = Ok s ->
  exists f, nth_error l n = Some f /\ (skip = true -> (1 <= n)%nat) /\ st_url s = ss_href f /\ st_nr s = Z.of_nat n.
Proof.
  intro H. pose proof (c48_lookup_proof (number_steps skip l) (Z.of_nat n)) as L. rewrite H in L. destruct L as (E & l1 & l2 & El & _).
  assert (J : In s (number_steps skip l)) by (rewrite El; apply in_or_app; right; now left). apply number_in in J. destruct J as (i & f & Ni & Hs & ->). cbn [st_nr] in E.
  apply Nat2Z.inj in E. subst i. exists f. auto.
Qed.
Lemma lookup_some skip l n f : nth_error l n = Some f -> (skip = true -> (1 <= n)%nat) ->
  step_by_nr (number_steps skip l) (Z.of_nat n) = Ok {| st_nr := Z.of_nat n; st_url := ss_href f |}.
Proof.
  intros Hn Hs. assert (J : In {| st_nr := Z.of_nat n; st_url := ss_href f |} (number_steps skip l)) by (apply number_in; eauto).
  destruct (step_by_nr (number_steps skip l) (Z.of_nat n)) as [s|?|] eqn:E.
  - pose proof (lookup_ok _ _ _ _ E) as (f' & Hf & _ & U & Nr). rewrite Hn in Hf. injection Hf as <-. destruct s as [nr url]. cbn in U, Nr. now subst.
  - pose proof (c48_lookup_proof (number_steps skip l) (Z.of_nat n)) as L. rewrite E in L. exfalso. apply L. apply (in_map st_nr) in J. exact J.
  - pose proof (c48_lookup_proof (number_steps skip l) (Z.of_nat n)) as L. rewrite E in L. contradiction.
Qed.
Section Files.
  Variables (chk : bool) (powi : f32 -> Z -> f32) (sv : service) (m : libm) (u : ugrid) (t : datetime) (V : valid_time t) (St : steady (sv_fetch sv)) (steps : list Z).
  Notation cp := (swiss_cloud_precip chk powi sv m false steps u t).
  Notation wi := (swiss_wind chk powi sv m false steps u t).
  Notation te := (swiss_temp chk powi sv m false steps u t).
  Notation vc := (swiss_vertical_cloud chk powi sv false steps u t).
  Notation vw := (swiss_vertical_wind chk powi sv false steps u t).
  Lemma stable_cp ss read : Qcp chk powi sv u t ss read -> stable read.
  Proof. intros (lc & lp & le & _ & _ & _ & _ & ->). now apply det_cloud_precip_weather. Qed.
  Lemma stable_wi ss read : Qwi chk powi sv u t ss read -> stable read.
  Proof. intros (lc & lp & le & _ & _ & _ & _ & ->). now apply det_swiss_wind. Qed.
  Lemma stable_te ss read : Qte chk powi sv u t ss read -> stable read.
  Proof. intros (lc & _ & _ & ->). now apply det_swiss_temp. Qed.
  Lemma stable_vc h ss read : Qvc chk powi sv u t h ss read -> stable read.
  Proof. intros (lc & _ & _ & ->). now apply det_swiss_vc. Qed.
  Lemma stable_vw h ss read : Qvw chk powi sv u t h ss read -> stable read.
  Proof. intros (lc & lp & _ & _ & _ & ->). now apply det_swiss_vw. Qed.
  Lemma swiss_others o ty n f a : 0 <= n -> proper f -> of_layer ty f -> a <> Layer ty -> leaves (file_path (swiss_run_of t) n f) (perform cp wi te o vc vw a).
  Proof.
    intros Hn P L Na. assert (D : forall t', a = Layer t' -> ~ of_layer t' f).
    { intros t' -> L'. apply Na. f_equal. destruct f as [? ? ? ?|[]]; cbn in *; congruence. }
    destruct (kind_in chk m) as (K1 & K2 & K3 & K4 & K5). pose proof (swiss_valid t V) as SV. destruct a as [[]|]; cbn [perform].
    - exact (layered_leaves chk m _ K1 _ SV _ _ _ (numbered_cp chk powi sv u t) n f (cp_layered chk powi sv m u t V false steps) stable_cp Hn P (D _ eq_refl)).
    - intros tr [-> _] b. reflexivity.
    - exact (layered_leaves chk m _ K2 _ SV _ _ _ (numbered_wi chk powi sv u t) n f (wi_layered chk powi sv m u t V false steps) stable_wi Hn P (D _ eq_refl)).
    - exact (layered_leaves chk m _ K3 _ SV _ _ _ (numbered_te chk powi sv u t) n f (te_layered chk powi sv m u t V false steps) stable_te Hn P (D _ eq_refl)).
    - destruct o as [h|?|]; cbn [p_let]; [|intros tr [-> _] b; reflexivity..].
      exact (layered_leaves chk m _ K4 _ SV _ _ _ (numbered_vc chk powi sv u t h) n f (vc_layered chk powi sv u t V false steps h) (stable_vc h) Hn P (D _ eq_refl)).
    - destruct o as [h|?|]; cbn [p_let]; [|intros tr [-> _] b; reflexivity..].
      exact (layered_leaves chk m _ K5 _ SV _ _ _ (numbered_vw chk powi sv u t h) n f (vw_layered chk powi sv u t V false steps h) (stable_vw h) Hn P (D _ eq_refl)).
    - intros tr R b. apply p_then_ok in R. destruct R as (t1 & t2 & -> & [-> _] & [-> _]). reflexivity.
  Qed.
  Lemma swiss_layer k : In k (kinds chk m) -> forall o plan tr p Q, NoDup plan -> In (Layer (k_type k)) plan ->
    for_seq plan (perform cp wi te o vc vw) tr (Ok tt) -> perform cp wi te o vc vw (Layer (k_type k)) = p ->
    layered k false (swiss_run_of t) steps p Q -> (forall ss read, Q ss read -> numbering ss) -> (forall ss read, Q ss read -> stable read) ->
    exists ss read, Q ss read /\ forall s, In s ss -> wanted steps s -> exists l, read s (Ok l) /\ rendered chk m k (swiss_run_of t) (st_nr s) l tr.
  Proof.
    intros K o plan tr p Q ND J F Ep L N S. destruct (seq_file _ plan tr _ ND J F) as (seg & B & Lv). rewrite Ep in B.
    destruct (L seg _ B) as [[_ E]|(ss & read & H & R)]; [contradiction|]. pose proof (swiss_valid t V) as SV. destruct (N _ _ H) as [NN NDs]. pose proof (S _ _ H) as Sr. exists ss, read. split; [exact H|].
    intros s Js W. destruct (c46_success_proof chk m k K false _ ss steps read seg SV NN R) as [_ C]. destruct (C s Js W) as (l & Rl & Cl). exists l. split; [exact Rl|].
    split; [exact Cl|]. intros f c P b. rewrite Lv.
    - exact (proj1 (c47_files_proof chk m k K _ ss steps read seg SV NN NDs Sr R) s l f c Js W Rl P b).
    - intros a' _ Na. apply (produces_layer chk m k _ l f c K) in P. destruct P as [P Lf]. apply (swiss_others o (k_type k)); [|assumption..]. rewrite Forall_forall in NN. auto.
  Qed.
End Files.
Lemma vertical_cloud_lengths a b l : vertical_cloud_new a b = Ok l -> a <> [] /\ length b = length a.
Proof.
  unfold vertical_cloud_new, len. destruct (Z.eqb_spec (Z.of_nat (length a)) 0); cbn [orb]; [discriminate|]. destruct (Z.of_nat (length b) =? 0); [discriminate|].
  destruct (Z.eqb_spec (Z.of_nat (length a)) (Z.of_nat (length b))); cbn [negb]; [|discriminate]. intros _. split; [intros ->; cbn in *; lia|lia].
Qed.
Lemma vertical_wind_lengths a b c l : vertical_wind_new a b c = Ok l -> a <> [] /\ length b = length a /\ length c = length a.
Proof.
  unfold vertical_wind_new, len. destruct (Z.eqb_spec (Z.of_nat (length a)) 0); cbn [orb]; [discriminate|]. destruct (Z.of_nat (length b) =? 0); cbn [orb]; [discriminate|].
  destruct (Z.of_nat (length c) =? 0); [discriminate|]. destruct (Z.eqb_spec (Z.of_nat (length a)) (Z.of_nat (length b))); cbn [negb orb]; [|discriminate].
  destruct (Z.eqb_spec (Z.of_nat (length a)) (Z.of_nat (length c))); cbn [negb]; [|discriminate]. intros _. split; [intros ->; cbn in *; lia|lia].
Qed.
Lemma c60_proof : forall chk powi rfc3339 sv m steps vars tr,
  dated rfc3339 sv -> steady (sv_fetch sv) -> swiss_render_latest chk powi rfc3339 sv m false steps vars tr (Ok tt) ->
  exists u heights t, started chk powi rfc3339 sv u heights t /\
  let run := swiss_run_of t in
  let value := value_file chk powi (sv_fetch sv) u in
  let levels := level_grids_at chk powi (sv_fetch sv) u in
  (named vars Temp2m -> exists l, files_of sv ST2m t l /\
     forall n f, nth_error l n = Some f -> wanted_step steps n ->
     exists temp, value f temp /\ rendered chk m (temp_kind chk m) run (Z.of_nat n) temp tr) /\
  (named vars Wind10m -> exists lu lv lg, files_of sv SU10m t lu /\ files_of sv SV10m t lv /\ files_of sv SVmax10m t lg /\
     forall n fu, nth_error lu n = Some fu -> wanted_step steps n ->
     exists fv fg east north gusts, nth_error lv n = Some fv /\ nth_error lg n = Some fg /\ value fu east /\ value fv north /\ value fg gusts /\
       rendered chk m (wind_kind chk m) run (Z.of_nat n) {| wl_zonal := east; wl_meridional := north; wl_gusts := Some gusts |} tr) /\
  (named vars CloudPrecip -> exists lc lp le, files_of sv SClct t lc /\ files_of sv STotPrec t lp /\ files_of sv SCeiling t le /\
     forall n fc, nth_error lc (S n) = Some fc -> wanted_step steps (S n) ->
     exists f0 f1 fe clct prec0 prec1 ceiling, nth_error lp n = Some f0 /\ nth_error lp (S n) = Some f1 /\ nth_error le (S n) = Some fe /\
       percent_file chk powi (sv_fetch sv) u fc clct /\ value f0 prec0 /\ value f1 prec1 /\ value fe ceiling /\
       rendered chk m (cloud_precip_kind chk m) run (Z.of_nat (S n))
         ({| cp_cloud := clct; cp_precip0 := prec0; cp_precip1 := prec1 |}, {| we_clct := clct; we_ceiling := ceiling; we_ww := None |}) tr) /\
  (named vars VerticalCloud \/ named vars VerticalWind -> exists hhl, levels HHL_MISSING hhl_transform heights hhl /\
     (named vars VerticalCloud -> exists l, files_of sv SClc t l /\
        forall n f, nth_error l n = Some f -> wanted_step steps n ->
        exists clc, levels CLC_MISSING clc_transform (ss_href f) clc /\ hhl <> [] /\ length clc = length hhl /\
          rendered chk m vertical_cloud_kind run (Z.of_nat n) {| vc_hhl := hhl; vc_clc := clc |} tr) /\
     (named vars VerticalWind -> exists lu lv, files_of sv SU t lu /\ files_of sv SV t lv /\
        forall n fu, nth_error lu n = Some fu -> wanted_step steps n ->
        exists fv east north, nth_error lv n = Some fv /\ levels U_V_MISSING u_v_transform (ss_href fu) east /\ levels U_V_MISSING u_v_transform (ss_href fv) north /\
          hhl <> [] /\ length east = length hhl /\ length north = length hhl /\ rendered chk m vertical_wind_kind run (Z.of_nat n) {| vw_hhl := hhl; vw_u := east; vw_v := north |} tr)).
Proof.
  intros chk powi rfc sv m steps vars tr D St R. destruct (plan_exists vars) as (plan & P).
  destruct (c54_swiss_order_proof _ _ _ _ _ _ _ _ _ _ plan D P R) as [[_ E]|(u & heights & t & o & Sd & Ho & F)]; [contradiction|].
  pose proof (started_valid _ _ _ _ _ _ _ D Sd) as V. pose proof (plan_nodup _ _ P) as NDp. destruct (kind_in chk m) as (K1 & K2 & K3 & K4 & K5).
  assert (Jp : forall ty, In (Layer ty) order -> named vars ty -> In (Layer ty) plan) by (intros ty J N; apply (plan_in _ _ _ P); auto).
  exists u, heights, t. split; [exact Sd|]. cbn zeta. split; [|split; [|split]].
  - intro N. destruct (swiss_layer chk powi sv m u t V St steps _ K3 o plan tr _ _ NDp (Jp Temp2m ltac:(cbn; auto 10) N) F eq_refl
      (te_layered chk powi sv m u t V false steps) (numbered_te chk powi sv u t) (stable_te chk powi sv u t St)) as (ss & read & (l & Fl & -> & ->) & H).
    exists l. split; [exact Fl|]. intros n f Hn W. destruct (H {| st_nr := Z.of_nat n; st_url := ss_href f |}) as (g & Rg & Re); [apply number_in; exists n, f; repeat split; [exact Hn|discriminate]|exact W|].
    unfold swiss_read_temp in Rg. apply r_bind_ok in Rg. destruct Rg as (s' & Es & Rg). apply unwrap_ok in Es. cbn [st_nr] in *. rewrite (lookup_some false l n f Hn) in Es by discriminate.
    injection Es as <-. cbn [st_url] in Rg. apply unstructured_spec in Rg. exists g. split; [exact Rg|exact Re].
  - intro N. destruct (swiss_layer chk powi sv m u t V St steps _ K2 o plan tr _ _ NDp (Jp Wind10m ltac:(cbn; auto 10) N) F eq_refl
      (wi_layered chk powi sv m u t V false steps) (numbered_wi chk powi sv u t) (stable_wi chk powi sv u t St)) as (ss & read & (lu & lv & lg & Fu & Fv & Fg & -> & ->) & H).
    exists lu, lv, lg. split; [exact Fu|]. split; [exact Fv|]. split; [exact Fg|]. intros n fu Hn W.
    destruct (H {| st_nr := Z.of_nat n; st_url := ss_href fu |}) as (l & Rl & Re); [apply number_in; exists n, fu; repeat split; [exact Hn|discriminate]|exact W|].
    unfold swiss_read_wind in Rl. cbn [st_nr] in *. apply r_bind_ok in Rl. destruct Rl as (s1 & E1 & Rl). apply r_bind_ok in Rl. destruct Rl as (s2 & E2 & Rl). apply r_bind_ok in Rl. destruct Rl as (s3 & E3 & Rl).
    unfold r_of in E1, E2, E3. symmetry in E2, E3. rewrite (lookup_some false lu n fu Hn) in E1 by discriminate. injection E1 as ->.
    apply lookup_ok in E2, E3. destruct E2 as (fv & N2 & _ & U2 & _), E3 as (fg & N3 & _ & U3 & _). cbn [st_url] in Rl. rewrite U2, U3 in Rl.
    apply r_bind_ok in Rl. destruct Rl as (a & Ra & Rl). apply r_bind_ok in Rl. destruct Rl as (b & Rb & Rl). apply r_bind_ok in Rl. destruct Rl as (c & Rc & Rl).
    symmetry in Rl. apply wind_new_ok in Rl. subst l. apply unstructured_spec in Ra, Rb, Rc. exists fv, fg, a, b, c. repeat (split; [assumption|]). exact Re.
  - intro N. destruct (swiss_layer chk powi sv m u t V St steps _ K1 o plan tr _ _ NDp (Jp CloudPrecip ltac:(cbn; auto 10) N) F eq_refl
      (cp_layered chk powi sv m u t V false steps) (numbered_cp chk powi sv u t) (stable_cp chk powi sv u t St)) as (ss & read & (lc & lp & le & Fc & Fp & Fe & -> & ->) & H).
    exists lc, lp, le. split; [exact Fc|]. split; [exact Fp|]. split; [exact Fe|]. intros n fc Hn W.
    destruct (H {| st_nr := Z.of_nat (S n); st_url := ss_href fc |}) as (l & Rl & Re); [apply number_in; exists (S n), fc; split; [exact Hn|]; split; [lia|reflexivity]|exact W|].
    unfold swiss_read_cloud_precip_weather in Rl. apply r_bind_ok in Rl. destruct Rl as (cp & Rcp & Rl). apply r_bind_ok in Rl. destruct Rl as (we & Rwe & Rl). injection Rl as ->.
    unfold swiss_read_cloud_precip in Rcp. apply r_bind_ok in Rcp. destruct Rcp as (s1 & H1 & Rcp). apply r_bind_ok in Rcp. destruct Rcp as (b & Hb & Rcp).
    apply r_bind_ok in Rcp. destruct Rcp as (s2 & H2 & Rcp). apply r_bind_ok in Rcp. destruct Rcp as (s3 & H3 & Rcp).
    apply r_bind_ok in Rcp. destruct Rcp as (clct & Rc & Rcp). apply r_bind_ok in Rcp. destruct Rcp as (p0 & R0 & Rcp). apply r_bind_ok in Rcp. destruct Rcp as (p1 & R1 & Rcp).
    symmetry in Rcp. apply cloud_precip_new_ok in Rcp. subst cp.
    unfold swiss_read_weather in Rwe. apply r_bind_ok in Rwe. destruct Rwe as (s4 & H4 & Rwe). apply r_bind_ok in Rwe. destruct Rwe as (s5 & H5 & Rwe).
    apply r_bind_ok in Rwe. destruct Rwe as (clct' & Rc' & Rwe). apply r_bind_ok in Rwe. destruct Rwe as (ce & Rce & Rwe). symmetry in Rwe. apply weather_new_ok in Rwe. subst we.
    cbn [st_nr] in *. apply unwrap_ok in H1, H2, H3, H4, H5.
    assert (Eb : b = Z.of_nat n). { unfold r_of, usub in Hb. destruct (Z.leb_spec 1 (Z.of_nat (S n))); [|lia]. replace (Z.of_nat (S n) - 1) with (Z.of_nat n) in Hb by lia. congruence. }
    subst b. rewrite (lookup_some true lc (S n) fc Hn) in H1, H4 by lia. injection H1 as <-. injection H4 as <-.
    apply lookup_ok in H2, H3, H5. destruct H2 as (f0 & N2 & _ & U2 & _), H3 as (f1 & N3 & _ & U3 & _), H5 as (fe & N5 & _ & U5 & _). cbn [st_url] in *. rewrite U2 in R0. rewrite U3 in R1. rewrite U5 in Rce.
    assert (Ec : clct' = clct) by exact (det_unstructured chk powi (sv_fetch sv) St _ _ _ _ _ _ Rc' Rc). subst clct'.
    apply unstructured_spec in Rc, R0, R1, Rce. exists f0, f1, fe, clct, p0, p1, ce. repeat (split; [assumption|]). exact Re.
  - intro N. assert (Ch : chosen vars Heights) by exact N.
    destruct (c54_swiss_heights_proof _ _ _ _ _ _ _ _ _ _ D R) as (_ & _ & H1). specialize (H1 eq_refl Ch).
    assert (HJ : In EHeights tr).
    { unfold heights_read in H1. destruct (List.filter is_heights tr) as [|e l] eqn:El; [discriminate|]. assert (Je : In e (List.filter is_heights tr)) by (rewrite El; now left).
      apply filter_In in Je. destruct Je as [Je He]. destruct e; try discriminate He. exact Je. }
    assert (Oh : exists hhl, o = Ok hhl).
    { assert (Jh : In Heights plan) by (apply (plan_in _ _ _ P); split; [cbn; auto 10|exact Ch]). destruct (seq_file _ plan tr _ NDp Jh F) as (seg & B & _). cbn [perform] in B.
      apply p_then_ok in B. destruct B as (t1 & t2 & _ & _ & [_ B]). destruct o as [hhl|?|]; try discriminate B. eauto. }
    destruct Oh as (hhl & ->). exists hhl. split; [apply multi_spec; exact (Ho HJ)|]. split.
    + intro N'. destruct (swiss_layer chk powi sv m u t V St steps _ K4 (Ok hhl) plan tr _ _ NDp (Jp VerticalCloud ltac:(cbn; auto 10) N') F eq_refl
        (vc_layered chk powi sv u t V false steps hhl) (numbered_vc chk powi sv u t hhl) (stable_vc chk powi sv u t St hhl)) as (ss & read & (l & Fl & -> & ->) & H).
      exists l. split; [exact Fl|]. intros n f Hn W. destruct (H {| st_nr := Z.of_nat n; st_url := ss_href f |}) as (g & Rg & Re); [apply number_in; exists n, f; repeat split; [exact Hn|discriminate]|exact W|].
      unfold swiss_read_vertical_cloud in Rg. apply r_bind_ok in Rg. destruct Rg as (s' & Es & Rg). apply unwrap_ok in Es. cbn [st_nr] in *. rewrite (lookup_some false l n f Hn) in Es by discriminate.
      injection Es as <-. cbn [st_url] in Rg. apply r_bind_ok in Rg. destruct Rg as (clc & Rc & Rg). symmetry in Rg. destruct (vertical_cloud_lengths _ _ _ Rg) as [L1 L2]. apply vertical_cloud_new_ok in Rg. subst g. apply multi_spec in Rc. exists clc. auto.
    + intro N'. destruct (swiss_layer chk powi sv m u t V St steps _ K5 (Ok hhl) plan tr _ _ NDp (Jp VerticalWind ltac:(cbn; auto 10) N') F eq_refl
        (vw_layered chk powi sv u t V false steps hhl) (numbered_vw chk powi sv u t hhl) (stable_vw chk powi sv u t St hhl)) as (ss & read & (lu & lv & Fu & Fv & -> & ->) & H).
      exists lu, lv. split; [exact Fu|]. split; [exact Fv|]. intros n f Hn W. destruct (H {| st_nr := Z.of_nat n; st_url := ss_href f |}) as (g & Rg & Re); [apply number_in; exists n, f; repeat split; [exact Hn|discriminate]|exact W|].
      unfold swiss_read_vertical_wind in Rg. apply r_bind_ok in Rg. destruct Rg as (s1 & E1 & Rg). apply r_bind_ok in Rg. destruct Rg as (s2 & E2 & Rg). apply unwrap_ok in E1, E2. cbn [st_nr] in *. rewrite (lookup_some false lu n f Hn) in E1 by discriminate.
      injection E1 as <-. apply lookup_ok in E2. destruct E2 as (fv & N2 & _ & U2 & _). cbn [st_url] in Rg. rewrite U2 in Rg.
      apply r_bind_ok in Rg. destruct Rg as (a & Ra & Rg). apply r_bind_ok in Rg. destruct Rg as (b & Rb & Rg). symmetry in Rg. destruct (vertical_wind_lengths _ _ _ _ Rg) as (L1 & L2 & L3). apply vertical_wind_new_ok in Rg. subst g. apply multi_spec in Ra, Rb. exists fv, a, b. auto 10.
Qed.

(** *** Success *)
Lemma regrid_fits {T} chk powi w h e cs d u (missing : T) transform doc : 1 <= w -> 1 <= h ->
  calc_coord_dist_lookup_map chk (unstructured_new None w h e cs) d = Ok u -> has_values powi missing transform doc ->
  exists g, regrid_doc powi missing transform u doc = Ok g /\ fits w h e g.
Proof.
  intros Hw Hh L (values & E). destruct (lookup_map_slots chk w h e cs d Hw Hh) as (mp & E' & Lm & _). rewrite L in E'. injection E' as ->.
  unfold regrid_doc. rewrite E. cbn [obind].
  destruct (c20_values_proof T {| uv_grid := {| ug_grid := grid_new w h e; ug_coords := cs; ug_map := mp |}; uv_values := values; uv_missing := missing |}) as (vs & Ec & Lv & _);
    cbn [uv_grid ug_grid ug_map grid_new g_w g_h]; try lia. rewrite Ec. eexists. split; [reflexivity|].
  cbn [uv_grid ug_grid grid_new g_w g_h g_extent uv_missing] in *. split; [reflexivity|]. split; [reflexivity|]. unfold complete. cbn [value_grid_new vg_values dims vg_grid grid_new g_w g_h fst snd]. rewrite Lv. lia.
Qed.
Section Success.
  Variables (lost : err -> Prop) (chk : bool) (powi : f32 -> Z -> f32) (sv : service) (m : libm) (cs : list lat_lon) (e : extent) (d : f32) (u : ugrid) (t : datetime) (files count : nat).
  Variables (w h : Z).
  Hypotheses (Hw : 1 <= w) (Hh : 1 <= h) (L : calc_coord_dist_lookup_map chk (unstructured_new None w h e cs) d = Ok u) (He : extent_eqb e e = true).
  Notation fetch := (sv_fetch sv).
  Notation fit := (fits w h e).
  Lemma gives_unstructured {T} (missing : T) transform url : good_single chk powi fetch lost missing transform url ->
    gives lost (fetch_unstructured chk powi fetch url missing transform u) fit.
  Proof.
    intro G. unfold fetch_unstructured, fetch_doc. eapply gives_bind with (P := has_values powi missing transform).
    - eapply gives_bind; [exact G|]. intros bs [((doc & rest) & E & H)|(er & E & Lo)]; [eapply gives_of; [rewrite E; reflexivity|exact H]|eapply gives_lost; [rewrite E; reflexivity|exact Lo]].
    - intros doc H. destruct (regrid_fits chk powi w h e cs d u missing transform doc Hw Hh L H) as (g & E & F). eapply gives_of; eassumption.
  Qed.
  Lemma gives_docs url P : answers lost (fetch url) (all_docs chk lost P) -> gives lost (fetch_docs chk fetch url) P.
  Proof.
    intro G. unfold fetch_docs. eapply gives_bind; [exact G|].
    intros bs (o & E & [(docs & -> & H)|(er & -> & Lo)]); [eapply gives_of; [rewrite E; reflexivity|exact H]|eapply gives_lost; [rewrite E; reflexivity|exact Lo]].
  Qed.
  Definition fit_list (gs : list bgrid) : Prop := Forall fit gs /\ length gs = count.
  Lemma gives_multi missing transform url : good_levels chk powi fetch lost count missing transform url ->
    gives lost (fetch_multi_unstructured chk powi fetch url missing transform u (Some SWISS_LEVELS)) fit_list.
  Proof.
    intro G. unfold fetch_multi_unstructured. eapply gives_bind; [exact (gives_docs _ _ G)|].
    intros docs [Lc Hv]. unfold multi_unstructured. rewrite select_levels.
      assert (X : exists gs, Forall2 (fun doc g => regrid_doc powi missing transform u doc = Ok g) (level_docs docs) gs /\ Forall fit gs).
      { clear Lc. induction Hv as [|doc l H Hv IH]; [exists []; auto|]. destruct IH as (gs & F & A). destruct (regrid_fits chk powi w h e cs d u missing transform doc Hw Hh L H) as (g & E & Fg).
        exists (g :: gs). auto. }
      destruct X as (gs & F & A). assert (All : forall doc, In doc (level_docs docs) -> exists g, regrid_doc powi missing transform u doc = Ok g).
      { intros doc J. clear -F J. induction F as [|x y l l' H F IH]; [destruct J|]. destruct J as [<-|J]; eauto. }
      split; [exists (Ok gs); now constructor|]. intros o R. destruct R as [ys F'|doc err J E|doc J E].
      + left. exists ys. split; [reflexivity|]. assert (ys = gs); [|subst; split; [exact A|]; rewrite <- Lc; symmetry; clear -F; induction F; [reflexivity|cbn; now f_equal]].
        clear -F F'. revert gs F. induction F' as [|x y l ys H F' IH]; intros gs F; inversion F; subst; [reflexivity|]. f_equal; [congruence|auto].
      + destruct (All doc J) as (g & Eg). congruence.
      + destruct (All doc J) as (g & Eg). congruence.
  Qed.
  Hypotheses (Hc : (1 <= count)%nat) (V : valid_time t) (H3 : dt_hour t mod 3 = 0) (A : tiles_addressable chk m (swiss_run_of t) e).
  Hypothesis G : forall v, answers lost (sv_search sv (file_request v t)) (fun features => exists parsed, length features = files /\
         Forall2 described features parsed /\ short_horizons parsed /\
         Forall (fun s => good_var_file chk powi (sv_fetch sv) lost count v (ss_href s)) parsed).
  Definition good_list (v : swiss_var) (l : list swiss_step) : Prop := length l = files /\ Forall (fun s => good_var_file chk powi (sv_fetch sv) lost count v (ss_href s)) l.
  Lemma gives_steps v skip : gives lost (swiss_steps chk sv v t skip) (fun ss => exists l, good_list v l /\ ss = number_steps skip l).
  Proof.
    destruct (G v) as [(o & Ho) H]. unfold swiss_steps. eapply gives_bind with (P := good_list v).
    - split.
      + destruct (H o Ho) as [(features & -> & parsed & _ & F & S & _)|(er & -> & _)].
        * destruct (c52_answer_proof chk sv v t features parsed Ho F S) as (l & E & _). eauto.
        * exists (Err er), (Err er). split; [exact Ho|reflexivity].
      + intros r R. apply c52_files_proof in R. destruct R as (a & Sa & R). destruct (H a Sa) as [(features & -> & parsed & Lf & F & S & Al)|(er & -> & Lo)]; [|right; eauto]. left.
        assert (Ud : forall p', Forall2 described features p' -> p' = parsed).
        { intros p' F'. clear -F F'. revert parsed F. induction F' as [|x y l ys D F' IH]; intros parsed F; inversion F as [|? z ? ? D' F'']; subst; [reflexivity|]. f_equal; [|auto].
          destruct D as (E1 & E2 & m1 & E3), D' as (E1' & E2' & m2 & E3'). rewrite E2 in E2'. rewrite E3 in E3'. injection E2' as E2'. injection E3' as E3' _.
          destruct y as [yt yh yr], z as [zt zh zr]. cbn in *. congruence. }
        destruct R as [(p' & l & -> & F' & P & _)|[[_ (f & J & N)]|(_ & _ & p' & F' & _ & NS)]].
        * apply Ud in F'. subst p'. exists l. split; [reflexivity|]. split.
          -- rewrite <- (Permutation_length P). rewrite <- Lf. symmetry. exact (forall2_len _ _ _ F).
          -- rewrite Forall_forall in *. intros s J. apply Al. eapply Permutation_in; [symmetry; exact P|exact J].
        * exfalso. clear -F J N. induction F as [|x y l ys D F IH]; [destruct J|]. destruct J as [<-|J]; [exact (N _ D)|auto].
        * apply Ud in F'. subst p'. contradiction.
    - intros l Gl. eapply gives_of; [reflexivity|]. eauto.
  Qed.
  Lemma live_run (q : fc_run -> prog effect) : live lost (q (swiss_run_of t)) -> live lost (p_let (swiss_run t) q).
  Proof. intro Lq. unfold swiss_run. rewrite (c53_run_name_proof t V), H3. exact Lq. Qed.
  Lemma live_steps v skip (q : list fc_step -> prog effect) : (forall l, good_list v l -> live lost (q (number_steps skip l))) -> live lost (p_call (swiss_steps chk sv v t skip) q).
  Proof. intro H. destruct (gives_steps v skip) as [T R]. apply live_call; [exact T|]. intros o Ho. destruct (R o Ho) as [(ss & -> & l & Gl & ->)|X]; [left; eauto|now right]. Qed.
  Lemma good_nth v l n : good_list v l -> (n < files)%nat -> exists f, nth_error l n = Some f /\ good_var_file chk powi (sv_fetch sv) lost count v (ss_href f).
  Proof.
    intros [E F] Ln. destruct (nth_error l n) as [f|] eqn:N; [|apply nth_error_None in N; lia]. exists f. split; [reflexivity|]. rewrite Forall_forall in F. exact (F f (nth_error_In _ _ N)).
  Qed.
  Lemma gives_lookup {B} v skip l n (q : fc_step -> result B) P : good_list v l -> (n < files)%nat -> (skip = true -> (1 <= n)%nat) ->
    (forall s, good_var_file chk powi (sv_fetch sv) lost count v (st_url s) -> gives lost (q s) P) ->
    gives lost (r_bind (r_of (step_by_nr (number_steps skip l) (Z.of_nat n))) q) P.
  Proof.
    intros Gl Ln Hs H. destruct (good_nth v l n Gl Ln) as (f & N & Gf). rewrite (lookup_some skip l n f N Hs). eapply gives_bind; [eapply (gives_of _ _ _ (eq _)); reflexivity|]. intros ? <-. apply H. exact Gf.
  Qed.
  Lemma gives_lookup_unwrap {B} v skip l n (q : fc_step -> result B) P : good_list v l -> (n < files)%nat -> (skip = true -> (1 <= n)%nat) ->
    (forall s, good_var_file chk powi (sv_fetch sv) lost count v (st_url s) -> gives lost (q s) P) ->
    gives lost (r_bind (r_of (unwrap (step_by_nr (number_steps skip l) (Z.of_nat n)))) q) P.
  Proof.
    intros Gl Ln Hs H. destruct (good_nth v l n Gl Ln) as (f & N & Gf). rewrite (lookup_some skip l n f N Hs). cbn [unwrap]. eapply gives_bind; [eapply (gives_of _ _ _ (eq _)); reflexivity|]. intros ? <-. apply H. exact Gf.
  Qed.
  Lemma step_index v skip l s : good_list v l -> In s (number_steps skip l) -> exists n, st_nr s = Z.of_nat n /\ (n < files)%nat /\ (skip = true -> (1 <= n)%nat).
  Proof.
    intros [E _] J. apply number_in in J. destruct J as (i & f & N & Hs & ->). exists i. split; [reflexivity|]. split; [rewrite <- E; apply nth_error_Some; congruence|exact Hs].
  Qed.
  Notation run := (swiss_run_of t).
  Lemma extent_addressable {T} (g : value_grid T) : fit g -> tiles_addressable chk m run (g_extent (vg_grid g)).
  Proof. intros (_ & E & _). unfold extent_of in E. now rewrite E. Qed.
  Lemma temp_live steps : live lost (swiss_temp chk powi sv m false steps u t).
  Proof.
    destruct (kind_in chk m) as (K1 & K2 & K3 & K4 & K5). apply live_run. apply live_steps. intros l Gl.
    assert (X : forall s, In s (number_steps false l) -> gives lost (swiss_read_temp chk powi fetch (number_steps false l) u s) (computable chk m (temp_kind chk m) run)).
    { intros s J. destruct (step_index ST2m false l s Gl J) as (n & En & Ln & Hs). unfold swiss_read_temp. rewrite En. apply (gives_lookup_unwrap ST2m false l n _ _ Gl Ln Hs). intros s' Gs.
      eapply gives_impl; [|exact (gives_unstructured _ _ _ Gs)]. intros g F. apply (c46_temp_data_proof chk m run g w h); [now apply extent_addressable|apply F|lia|lia|apply F]. }
    apply (render_live lost chk m _ K3 run _ steps _ (swiss_valid t V) (proj1 (numbering_steps false l))); [intros s J; exact (proj1 (X s J))|]. intros s o J _ R. exact (proj2 (X s J) o R).
  Qed.
  Lemma wind_live steps : live lost (swiss_wind chk powi sv m false steps u t).
  Proof.
    destruct (kind_in chk m) as (K1 & K2 & K3 & K4 & K5). apply live_run. apply live_steps. intros lu Gu. apply live_steps. intros lv Gv. apply live_steps. intros lg Gg.
    assert (X : forall s, In s (number_steps false lu) -> gives lost (swiss_read_wind chk powi fetch (number_steps false lu) (number_steps false lv) (number_steps false lg) u s) (computable chk m (wind_kind chk m) run)).
    { intros s J. destruct (step_index SU10m false lu s Gu J) as (n & En & Ln & Hs). unfold swiss_read_wind. rewrite En.
      apply (gives_lookup SU10m false lu n _ _ Gu Ln Hs). intros s1 G1. apply (gives_lookup SV10m false lv n _ _ Gv Ln Hs). intros s2 G2. apply (gives_lookup SVmax10m false lg n _ _ Gg Ln Hs). intros s3 G3.
      eapply gives_bind; [exact (gives_unstructured _ _ _ G1)|]. intros a Fa. eapply gives_bind; [exact (gives_unstructured _ _ _ G2)|]. intros b Fb. eapply gives_bind; [exact (gives_unstructured _ _ _ G3)|]. intros c Fc.
      eapply gives_of.
      - unfold wind_new. rewrite (fits_dims w h e a b), (fits_extents w h e He a b), (fits_dims w h e c a), (fits_extents w h e He c a) by assumption. cbn [negb]. reflexivity.
      - apply (c46_wind_data_proof chk m run _ w h); cbn [wl_zonal wl_meridional wl_gusts]; [now apply extent_addressable|apply Fa|lia|lia|apply Fa|apply Fb|]. intros g' Eg. injection Eg as <-. apply Fc. }
    apply (render_live lost chk m _ K2 run _ steps _ (swiss_valid t V) (proj1 (numbering_steps false lu))); [intros s J; exact (proj1 (X s J))|]. intros s o J _ R. exact (proj2 (X s J) o R).
  Qed.
  Lemma cloud_live steps : live lost (swiss_cloud_precip chk powi sv m false steps u t).
  Proof.
    destruct (kind_in chk m) as (K1 & K2 & K3 & K4 & K5). apply live_run. apply live_steps. intros lc Gc. apply live_steps. intros lp Gp. apply live_steps. intros le Ge.
    assert (X : forall s, In s (number_steps true lc) -> gives lost (swiss_read_cloud_precip_weather chk powi fetch (number_steps true lc) (number_steps false lp) (number_steps false le) u s) (computable chk m (cloud_precip_kind chk m) run)).
    { intros s J. destruct (step_index SClct true lc s Gc J) as (n & En & Ln & Hs). unfold swiss_read_cloud_precip_weather. specialize (Hs eq_refl).
      eapply gives_bind with (P := fun cp => fit (cp_cloud cp) /\ fit (cp_precip0 cp) /\ fit (cp_precip1 cp)).
      - unfold swiss_read_cloud_precip. rewrite En. apply (gives_lookup_unwrap SClct true lc n _ _ Gc Ln (fun _ => Hs)). intros s1 G1.
        eapply gives_bind; [eapply (gives_of _ _ (Z.of_nat (n - 1)) (eq (Z.of_nat (n - 1)))); [|reflexivity]; unfold usub; destruct (Z.leb_spec 1 (Z.of_nat n)); [f_equal; lia|lia]|]. intros ? <-.
        apply (gives_lookup_unwrap STotPrec false lp (n - 1) _ _ Gp ltac:(lia)); [discriminate|]. intros s2 G2. apply (gives_lookup_unwrap STotPrec false lp n _ _ Gp Ln); [discriminate|]. intros s3 G3.
        eapply gives_bind; [exact (gives_unstructured _ _ _ G1)|]. intros c Fc. eapply gives_bind; [exact (gives_unstructured _ _ _ G2)|]. intros p0 F0. eapply gives_bind; [exact (gives_unstructured _ _ _ G3)|]. intros p1 F1.
        eapply gives_of; [unfold cloud_precip_new; rewrite (fits_dims w h e c p0), (fits_dims w h e p0 p1), (fits_extents w h e He c p0), (fits_extents w h e He p0 p1) by assumption; reflexivity|]. cbn. auto.
      - intros cp (Fc & F0 & F1). eapply gives_bind with (P := fun we => fit (we_clct we) /\ fit (we_ceiling we) /\ we_ww we = None).
        + unfold swiss_read_weather. rewrite En. apply (gives_lookup_unwrap SClct true lc n _ _ Gc Ln (fun _ => Hs)). intros s1 G1. apply (gives_lookup_unwrap SCeiling false le n _ _ Ge Ln); [discriminate|]. intros s2 G2.
          eapply gives_bind; [exact (gives_unstructured _ _ _ G1)|]. intros c Fc'. eapply gives_bind; [exact (gives_unstructured _ _ _ G2)|]. intros ce Fce.
          eapply gives_of; [unfold weather_new; rewrite (fits_dims w h e c ce), (fits_extents w h e He c ce) by assumption; reflexivity|]. cbn. auto.
        + intros we (Fw & Fce & Nw). eapply gives_of; [reflexivity|].
          apply (c46_cloud_precip_data_proof chk m run cp we w h) with (w' := w) (h' := h); [now apply extent_addressable|apply Fc|lia|lia|apply Fc|apply F0|apply F1|apply Fw|lia|lia|apply Fw|apply Fce|].
          intros x y _ _. unfold ww_by_xy. rewrite Nw. discriminate. }
    apply (render_live lost chk m _ K1 run _ steps _ (swiss_valid t V) (proj1 (numbering_steps true lc))); [intros s J; exact (proj1 (X s J))|]. intros s o J _ R. exact (proj2 (X s J) o R).
  Qed.
  Lemma fit_complete gs : fit_list gs -> Forall complete gs.
  Proof. intros [F _]. eapply Forall_impl; [|exact F]. intros g (_ & _ & C). exact C. Qed.
  Lemma fit_head gs : fit_list gs -> exists g, hd_error gs = Some g /\ dims g = (w, h).
  Proof. intros [F Lg]. destruct gs as [|g gs]; cbn in Lg; [lia|]. exists g. split; [reflexivity|]. inversion F as [|? ? (D & _) _]. exact D. Qed.
  Lemma fit_len gs gs' : fit_list gs -> fit_list gs' -> len gs = len gs' /\ len gs <> 0.
  Proof. intros [_ E] [_ E']. unfold len. rewrite E, E'. lia. Qed.
  Lemma vc_live steps hhl : fit_list hhl -> live lost (swiss_vertical_cloud chk powi sv false steps u t hhl).
  Proof.
    intro Fh. destruct (kind_in chk m) as (K1 & K2 & K3 & K4 & K5). apply live_run. apply live_steps. intros l Gl.
    assert (X : forall s, In s (number_steps false l) -> gives lost (swiss_read_vertical_cloud chk powi fetch (number_steps false l) u hhl s) (computable chk m vertical_cloud_kind run)).
    { intros s J. destruct (step_index SClc false l s Gl J) as (n & En & Ln & Hs). unfold swiss_read_vertical_cloud. rewrite En. apply (gives_lookup_unwrap SClc false l n _ _ Gl Ln Hs). intros s' Gs.
      eapply gives_bind; [exact (gives_multi _ _ _ Gs)|]. intros clc Fc. destruct (fit_len hhl clc Fh Fc) as [E N]. destruct (fit_head clc Fc) as (g & Hg & Dg).
      assert (X : vertical_cloud_new hhl clc = Ok {| vc_hhl := hhl; vc_clc := clc |}).
      { unfold vertical_cloud_new. rewrite <- E, Z.eqb_refl. destruct (Z.eqb_spec (len hhl) 0); [contradiction|reflexivity]. }
      eapply gives_of; [exact X|]. apply (c46_vertical_cloud_data_proof chk m run hhl clc _ g w h X Hg Dg); [lia|lia|now apply fit_complete|now apply fit_complete]. }
    apply (render_live lost chk m _ K4 run _ steps _ (swiss_valid t V) (proj1 (numbering_steps false l))); [intros s J; exact (proj1 (X s J))|]. intros s o J _ R. exact (proj2 (X s J) o R).
  Qed.
  Lemma vw_live steps hhl : fit_list hhl -> live lost (swiss_vertical_wind chk powi sv false steps u t hhl).
  Proof.
    intro Fh. destruct (kind_in chk m) as (K1 & K2 & K3 & K4 & K5). apply live_run. apply live_steps. intros lu Gu. apply live_steps. intros lv Gv.
    assert (X : forall s, In s (number_steps false lu) -> gives lost (swiss_read_vertical_wind chk powi fetch (number_steps false lu) (number_steps false lv) u hhl s) (computable chk m vertical_wind_kind run)).
    { intros s J. destruct (step_index SU false lu s Gu J) as (n & En & Ln & Hs). unfold swiss_read_vertical_wind. rewrite En.
      apply (gives_lookup_unwrap SU false lu n _ _ Gu Ln Hs). intros s1 G1. apply (gives_lookup_unwrap SV false lv n _ _ Gv Ln Hs). intros s2 G2.
      eapply gives_bind; [exact (gives_multi _ _ _ G1)|]. intros a Fa. eapply gives_bind; [exact (gives_multi _ _ _ G2)|]. intros b Fb.
      destruct (fit_len hhl a Fh Fa) as [E N]. destruct (fit_len hhl b Fh Fb) as [E' _]. destruct (fit_head a Fa) as (g & Hg & Dg).
      assert (X : vertical_wind_new hhl a b = Ok {| vw_hhl := hhl; vw_u := a; vw_v := b |}).
      { unfold vertical_wind_new. rewrite <- E, <- E', Z.eqb_refl. destruct (Z.eqb_spec (len hhl) 0); [contradiction|reflexivity]. }
      eapply gives_of; [exact X|]. apply (c46_vertical_wind_data_proof chk m run hhl a b _ g w h X Hg Dg); [lia|lia|now apply fit_complete|now apply fit_complete|now apply fit_complete]. }
    apply (render_live lost chk m _ K5 run _ steps _ (swiss_valid t V) (proj1 (numbering_steps false lu))); [intros s J; exact (proj1 (X s J))|]. intros s o J _ R. exact (proj2 (X s J) o R).
  Qed.
End Success.
Lemma live_let_some {A} lost (o : option A) a (q : A -> prog effect) : o = Some a -> live lost (q a) -> live lost (p_let (expect o) q).
Proof. intros -> H. exact H. Qed.
Lemma c62_swiss_proof : forall lost chk powi rfc3339 sv m steps vars files count,
  service_files chk powi lost rfc3339 sv files count -> (1 <= count)%nat ->
  (forall e t, extent_new (lat_lon_new (f32_lit 4203 100) (f32_lit (-81) 100)) (lat_lon_new (f32_lit 5050 100) (f32_lit 1770 100)) = Ok e ->
     tiles_addressable chk m (swiss_run_of t) e) ->
  (exists tr r, swiss_render_latest chk powi rfc3339 sv m false steps vars tr r) /\
  forall tr r, swiss_render_latest chk powi rfc3339 sv m false steps vars tr r -> r = Ok tt \/ exists er, r = Err er /\ lost er.
Proof.
  intros lost chk powi rfc sv m steps vars files count [[Ta Ha] [Tl Hl]] Hc A. fold (live lost (swiss_render_latest chk powi rfc sv m false steps vars)). unfold swiss_render_latest.
  apply live_call; [exact Ta|]. intros o Ho. destruct (Ha o Ho) as [(l & -> & hor & vert & F1 & Gh & F2 & Gv)|X]; [|now right]. left. exists l. split; [reflexivity|].
  apply (live_let_some _ _ hor); [exact (find_asset_some _ _ _ F1)|].
  assert (X : exists e, swiss_extent = Ok e /\ extent_eqb e e = true) by (eexists; split; [reflexivity|vm_compute; reflexivity]). destruct X as (e & Ee & He).
  assert (U : gives lost (read_hor_consts chk powi (sv_fetch sv) (as_href hor)) (fun u => exists cs, calc_coord_dist_lookup_map chk (unstructured_new None 1851 847 e cs) (f32_lit 1 100) = Ok u)).
  { unfold read_hor_consts. eapply gives_bind; [exact (gives_docs _ _ _ _ _ Gh)|].
    intros docs (clat & clon & cs & I4 & I3 & C). destruct (c19_total_proof chk 1851 847 e cs (f32_lit 1 100) ltac:(lia) ltac:(lia)) as (u & Eu & _).
    assert (J4 : index_vec docs 4 = Ok clat) by (apply index_vec_ok; exact I4). assert (J3 : index_vec docs 3 = Ok clon) by (apply index_vec_ok; exact I3).
    eapply gives_of; [rewrite J4, J3; cbn [obind]; rewrite Ee; cbn [obind]; rewrite C; cbn [obind]; exact Eu|]. eauto. }
  destruct U as [Tu Hu]. apply live_call; [exact Tu|]. intros ou Hou. destruct (Hu ou Hou) as [(u & -> & cs & Lu)|X]; [|now right]. left. exists u. split; [reflexivity|].
  apply (live_let_some _ _ vert); [exact (find_asset_some _ _ _ F2)|].
  apply live_call.
  { destruct Tl as (a & Sa). destruct (Hl a Sa) as [(all & -> & features & f & t & -> & R & _)|(er & -> & _)].
    - exists (Ok t). apply latest_spec. exists features, f. auto.
    - exists (Err er). apply (proj2 (c53_find_proof _ _ _)). exists (Err er). auto. }
  intros ot Hot. apply (proj1 (c53_find_proof _ _ _)) in Hot. destruct Hot as (a & Sa & E). destruct (Hl a Sa) as [(all & -> & features & f & t & -> & R & V & H3 & G)|(er & -> & Lo)]; [|right; eauto]. left.
  destruct E as [[E _]|(fs & g & E & ->)]; [destruct features; discriminate|]. apply app_inj_tail in E. destruct E as [<- <-]. exists t. split; [exact R|].
  specialize (A e t Ee). assert (B1 : 1 <= 1851) by lia. assert (B2 : 1 <= 847) by lia. apply selected_live.
  - intros _. eapply (cloud_live lost chk powi sv m cs e _ u t files count 1851 847); eassumption.
  - intros _. eapply (wind_live lost chk powi sv m cs e _ u t files count 1851 847); eassumption.
  - intros _. eapply (temp_live lost chk powi sv m cs e _ u t files count 1851 847); eassumption.
  - intros _. exact (proj1 (gives_multi lost chk powi sv cs e _ u count _ _ B1 B2 Lu _ _ _ Gv)).
  - intros _ oh Hoh. destruct (proj2 (gives_multi lost chk powi sv cs e _ u count _ _ B1 B2 Lu _ _ _ Gv) oh Hoh) as [(hhl & -> & Fh)|X]; [|now right]. left. exists hhl. split; [reflexivity|]. split; intros _.
    + eapply (vc_live lost chk powi sv m cs e _ u t files count 1851 847); eassumption.
    + eapply (vw_live lost chk powi sv m cs e _ u t files count 1851 847); eassumption.
Qed.
Lemma c60_succeeds_proof : forall chk powi rfc3339 sv m steps vars files count,
  good_service chk powi rfc3339 sv files count -> (1 <= count)%nat ->
  (forall e t, extent_new (lat_lon_new (f32_lit 4203 100) (f32_lit (-81) 100)) (lat_lon_new (f32_lit 5050 100) (f32_lit 1770 100)) = Ok e ->
     tiles_addressable chk m (swiss_run_of t) e) ->
  (exists tr r, swiss_render_latest chk powi rfc3339 sv m false steps vars tr r) /\
  forall tr r, swiss_render_latest chk powi rfc3339 sv m false steps vars tr r -> r = Ok tt.
Proof.
  intros chk powi rfc sv m steps vars files count G Hc A. destruct (c62_swiss_proof (fun _ => False) chk powi rfc sv m steps vars files count G Hc A) as [T H].
  split; [exact T|]. intros tr r R. destruct (H tr r R) as [E|(er & _ & [])]. exact E.
Qed.
