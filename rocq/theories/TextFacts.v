(** Facts about the functions of Text.v. *)
From Coq Require Import ZArith List Bool Ascii String Lia.
From Verif Require Import Base Text.
Import ListNotations.
Open Scope Z_scope.

Lemma append_assoc (a b c : string) : ((a ++ b) ++ c = a ++ (b ++ c))%string.
Proof. induction a; cbn; congruence. Qed.
Lemma append_nil (a : string) : (a ++ "" = a)%string.
Proof. induction a; cbn; congruence. Qed.
Lemma append_inv_head (a b c : string) : (a ++ b = a ++ c)%string -> b = c.
Proof. induction a; cbn; intro H; [exact H|]. inversion H; auto. Qed.
Lemma append_inv_length (a : string) : forall b x y, String.length a = String.length b -> (a ++ x = b ++ y)%string -> a = b /\ x = y.
Proof.
  induction a as [|c a IH]; intros [|d b] x y L H; try discriminate L; [auto|].
  cbn in *. inversion H. destruct (IH b x y) as [-> ->]; auto.
Qed.
Lemma append_length (a b : string) : String.length (a ++ b) = (String.length a + String.length b)%nat.
Proof. induction a; cbn; congruence. Qed.
Lemma append_inv_tail (a b c : string) : (a ++ c = b ++ c)%string -> a = b.
Proof.
  intro H. apply (append_inv_length a b c c); [|exact H].
  assert (String.length (a ++ c) = String.length (b ++ c)) as L by congruence.
  rewrite !append_length in L. lia.
Qed.

(** The text up to the first character with some property. *)
Fixpoint allc (P : ascii -> bool) (s : string) : bool :=
  match s with EmptyString => true | String c r => P c && allc P r end.
Definition stops (P : ascii -> bool) (s : string) : bool := match s with EmptyString => true | String c _ => negb (P c) end.
Lemma allc_app P a b : allc P (a ++ b) = allc P a && allc P b.
Proof. induction a; cbn; [reflexivity|]. rewrite IHa. apply andb_assoc. Qed.
Lemma span_inv P (a : string) : forall b x y, allc P a = true -> allc P b = true -> stops P x = true -> stops P y = true ->
  (a ++ x = b ++ y)%string -> a = b /\ x = y.
Proof.
  induction a as [|c a IH]; intros [|d b] x y A B X Y H; cbn in *.
  - auto.
  - subst x. cbn in X. apply andb_true_iff in B. destruct B as [B _]. rewrite B in X. discriminate.
  - subst y. cbn in Y. apply andb_true_iff in A. destruct A as [A _]. rewrite A in Y. discriminate.
  - apply andb_true_iff in A, B. destruct A as [_ A], B as [_ B]. inversion H. destruct (IH b x y) as [-> ->]; auto.
Qed.
(** Pieces without a separator character are determined by the text. *)
Lemma sep_inv c a b x y : contains c a = false -> contains c b = false ->
  (a ++ String c x = b ++ String c y)%string -> a = b /\ x = y.
Proof.
  revert b. induction a as [|e a IH]; intros [|d b] A B H; cbn in *.
  - inversion H. auto.
  - inversion H. subst. rewrite Ascii.eqb_refl in B. discriminate.
  - inversion H. subst. rewrite Ascii.eqb_refl in A. discriminate.
  - apply orb_false_iff in A, B. inversion H. destruct (IH b) as [-> ->]; tauto.
Qed.
Lemma contains_app c a b : contains c (a ++ b) = contains c a || contains c b.
Proof. induction a; cbn; [reflexivity|]. rewrite IHa. apply orb_assoc. Qed.

Definition is_digit (c : ascii) : bool := match digit_of c with Some _ => true | None => false end.
Arguments digit_of : simpl never.
Arguments digit_char : simpl never.
Lemma digit_char_of d : 0 <= d < 10 -> digit_of (digit_char d) = Some d.
Proof. intro H. assert (d = 0 \/ d = 1 \/ d = 2 \/ d = 3 \/ d = 4 \/ d = 5 \/ d = 6 \/ d = 7 \/ d = 8 \/ d = 9) as K by lia.
  repeat destruct K as [->|K]; try reflexivity. subst. reflexivity. Qed.
Lemma digits_value_app a : forall b acc, digits_value acc (a ++ b) = match digits_value acc a with Some v => digits_value v b | None => None end.
Proof. induction a as [|c a IH]; intros; cbn; [reflexivity|]. destruct (digit_of c); auto. Qed.
Lemma digits_value_digits s : forall acc, allc is_digit s = true -> exists v, digits_value acc s = Some v.
Proof.
  induction s as [|c s IH]; intros acc H; cbn in *; [eauto|]. apply andb_true_iff in H. destruct H as [H1 H2].
  unfold is_digit in H1. destruct (digit_of c); [auto|discriminate].
Qed.

Lemma dec_digits_spec fuel : forall n acc, 0 <= n -> n < 10 ^ Z.of_nat fuel -> (0 < fuel)%nat ->
  exists s, dec_digits fuel n acc = (s ++ acc)%string /\ allc is_digit s = true /\ s <> EmptyString /\ digits_value 0 s = Some n.
Proof.
  induction fuel as [|k IH]; intros n acc N B K; [lia|]. cbn [dec_digits].
  assert (M : 0 <= n mod 10 < 10) by (apply Z.mod_pos_bound; lia).
  destruct (n <? 10) eqn:E.
  - apply Z.ltb_lt in E. exists (String (digit_char (n mod 10)) EmptyString). cbn. unfold is_digit.
    rewrite !digit_char_of by exact M. rewrite Z.mod_small by lia. repeat split; try discriminate. 
  - apply Z.ltb_ge in E. destruct k as [|k'].
    + change (Z.of_nat 1) with 1 in B. lia.
    + destruct (IH (n / 10) (String (digit_char (n mod 10)) acc)) as (s & Q & D & NE & V).
      * apply Z.div_pos; lia.
      * apply Z.div_lt_upper_bound; [lia|]. rewrite Nat2Z.inj_succ, Z.pow_succ_r in B by lia. exact B.
      * lia.
      * exists (s ++ String (digit_char (n mod 10)) EmptyString)%string. rewrite Q, append_assoc. split; [reflexivity|].
        rewrite allc_app, D. cbn. unfold is_digit. rewrite digit_char_of by exact M. split; [reflexivity|].
        split; [destruct s; [congruence|discriminate]|]. rewrite digits_value_app, V. cbn. rewrite digit_char_of by exact M.
        f_equal. pose proof (Z.div_mod n 10). lia.
Qed.
Lemma dec_spec n : 0 <= n -> allc is_digit (dec n) = true /\ dec n <> EmptyString /\ digits_value 0 (dec n) = Some n.
Proof.
  intro N. unfold dec. destruct (dec_digits_spec (S (Z.to_nat (Z.log2 n))) n EmptyString N) as (s & Q & D & NE & V); [|lia|].
  - rewrite Nat2Z.inj_succ, Z2Nat.id by apply Z.log2_nonneg.
    destruct (Z.eq_dec n 0) as [->|K]; [reflexivity|]. pose proof (Z.log2_spec n ltac:(lia)) as [_ U].
    eapply Z.lt_le_trans; [exact U|]. apply Z.pow_le_mono_l. lia.
  - rewrite Q, append_nil. auto.
Qed.
Lemma zeros_digits k : allc is_digit (zeros k) = true.
Proof. induction k; cbn; auto. Qed.
Lemma zeros_value k : forall s, digits_value 0 (zeros k ++ s) = digits_value 0 s.
Proof. induction k; intros; [reflexivity|]. cbn [zeros append digits_value]. change (digit_of "0") with (Some 0). apply IHk. Qed.
Lemma dec_pad_spec w n : 0 <= n -> allc is_digit (dec_pad w n) = true /\ dec_pad w n <> EmptyString /\ digits_value 0 (dec_pad w n) = Some n.
Proof.
  intro N. destruct (dec_spec n N) as (D & NE & V). unfold dec_pad. rewrite allc_app, zeros_digits, D, zeros_value. split; [reflexivity|].
  split; [|exact V]. destruct (zeros _); [exact NE|discriminate].
Qed.
Lemma zeros_length k : String.length (zeros k) = k.
Proof. induction k; cbn; auto. Qed.
Lemma dec_length_le fuel : forall n acc k, 0 <= n < 10 ^ Z.of_nat k -> (0 < k)%nat ->
  (String.length (dec_digits fuel n acc) <= k + String.length acc)%nat.
Proof.
  induction fuel as [|f IH]; intros n acc k B K; cbn [dec_digits]; [lia|].
  destruct (n <? 10) eqn:E; [cbn; lia|]. apply Z.ltb_ge in E.
  destruct k as [|[|k]]; [lia|change (Z.of_nat 1) with 1 in B; lia|].
  specialize (IH (n / 10) (String (digit_char (n mod 10)) acc) (S k)). cbn [String.length] in IH.
  rewrite (Nat2Z.inj_succ (S k)), Z.pow_succ_r in B by lia.
  assert (0 <= n / 10 < 10 ^ Z.of_nat (S k)) by (split; [apply Z.div_pos|apply Z.div_lt_upper_bound]; lia). lia.
Qed.
Lemma dec_pad_length w n : 0 <= n < 10 ^ Z.of_nat w -> (0 < w)%nat -> String.length (dec_pad w n) = w.
Proof.
  intros B W. unfold dec_pad, dec. pose proof (dec_length_le (S (Z.to_nat (Z.log2 n))) n EmptyString w B W) as L.
  cbn [String.length] in L. rewrite append_length, zeros_length. lia.
Qed.

(** A number is determined by its text. *)
Lemma dec_inj a b : 0 <= a -> 0 <= b -> dec a = dec b -> a = b.
Proof. intros A B H. destruct (dec_spec a A) as (_ & _ & Va). destruct (dec_spec b B) as (_ & _ & Vb). congruence. Qed.
Lemma dec_pad_inj w a b : 0 <= a -> 0 <= b -> dec_pad w a = dec_pad w b -> a = b.
Proof. intros A B H. destruct (dec_pad_spec w a A) as (_ & _ & Va). destruct (dec_pad_spec w b B) as (_ & _ & Vb). congruence. Qed.
(** ... also with text behind it that does not begin with a digit. *)
Lemma dec_inv a b x y : 0 <= a -> 0 <= b -> stops is_digit x = true -> stops is_digit y = true ->
  (dec a ++ x = dec b ++ y)%string -> a = b /\ x = y.
Proof.
  intros A B X Y H. destruct (dec_spec a A) as (Da & _ & _). destruct (dec_spec b B) as (Db & _ & _).
  destruct (span_inv is_digit _ _ _ _ Da Db X Y H) as [Q ->]. split; [|reflexivity]. apply dec_inj; assumption.
Qed.
Lemma dec_pad_inv w a b x y : 0 <= a -> 0 <= b -> stops is_digit x = true -> stops is_digit y = true ->
  (dec_pad w a ++ x = dec_pad w b ++ y)%string -> a = b /\ x = y.
Proof.
  intros A B X Y H. destruct (dec_pad_spec w a A) as (Da & _ & _). destruct (dec_pad_spec w b B) as (Db & _ & _).
  destruct (span_inv is_digit _ _ _ _ Da Db X Y H) as [Q ->]. split; [|reflexivity]. eapply dec_pad_inj; eassumption.
Qed.
Lemma digits_no_char c s : allc is_digit s = true -> is_digit c = false -> contains c s = false.
Proof.
  induction s as [|d s IH]; intros A N; cbn in *; [reflexivity|]. apply andb_true_iff in A. destruct A as [A1 A2].
  rewrite IH by assumption. destruct (Ascii.eqb_spec c d); [congruence|reflexivity].
Qed.
Lemma dec_no_char c n : 0 <= n -> is_digit c = false -> contains c (dec n) = false.
Proof. intros N C. apply digits_no_char; [apply dec_spec; exact N|exact C]. Qed.
Lemma dec_pad_no_char c w n : 0 <= n -> is_digit c = false -> contains c (dec_pad w n) = false.
Proof. intros N C. apply digits_no_char; [apply dec_pad_spec; exact N|exact C]. Qed.

(** Parsing what was formatted. *)
Lemma parse_u8_digits s v : allc is_digit s = true -> s <> EmptyString -> digits_value 0 s = Some v -> v <= 255 -> parse_u8 s = Some v.
Proof.
  intros D NE V B. unfold parse_u8. destruct s as [|c s]; [congruence|].
  destruct (Ascii.eqb_spec c "+") as [->|_]; [discriminate D|]. rewrite V. apply Z.leb_le in B. rewrite B. reflexivity.
Qed.
Lemma parse_u8_dec n : 0 <= n <= 255 -> parse_u8 (dec n) = Some n.
Proof. intro B. destruct (dec_spec n ltac:(lia)) as (D & NE & V). apply parse_u8_digits; auto; lia. Qed.
Lemma parse_u8_dec_pad w n : 0 <= n <= 255 -> parse_u8 (dec_pad w n) = Some n.
Proof. intro B. destruct (dec_pad_spec w n ltac:(lia)) as (D & NE & V). apply parse_u8_digits; auto; lia. Qed.
Lemma parse_u8_range s v : parse_u8 s = Some v -> 0 <= v <= 255.
Proof.
  unfold parse_u8. set (s' := match s with EmptyString => s | String c r => if Ascii.eqb c "+" then r else s end).
  destruct s' as [|c r]; [discriminate|]. destruct (digits_value 0 (String c r)) as [w|] eqn:V; [|discriminate].
  destruct (w <=? 255) eqn:E; [|discriminate]. intro H. inversion H. subst. apply Z.leb_le in E. split; [|exact E].
  clear -V. assert (G : forall t acc u, 0 <= acc -> digits_value acc t = Some u -> 0 <= u).
  { induction t as [|d t IH]; intros acc u A Q; cbn in Q; [inversion Q; lia|]. destruct (digit_of d) as [e|] eqn:D; [|discriminate].
    refine (IH _ _ _ Q). unfold digit_of in D. destruct (_ && _) eqn:K; [|discriminate]. inversion D. apply andb_true_iff in K. destruct K as [K _].
    apply Z.leb_le in K. lia. }
  exact (G _ _ _ (Z.le_refl 0) V).
Qed.

Lemma split_on_spec c s p ps : split_on c s = (p, ps) -> contains c p = false /\ Forall (fun q => contains c q = false) ps.
Proof.
  revert p ps. induction s as [|d s IH]; intros p ps H; cbn in H; [inversion H; auto|].
  destruct (split_on c s) as [q qs]. destruct (IH q qs eq_refl) as [C F].
  destruct (Ascii.eqb c d) eqn:E; inversion H; subst; [auto|]. cbn. rewrite E. auto.
Qed.
Fixpoint join (c : ascii) (p : string) (ps : list string) : string :=
  match ps with [] => p | q :: qs => (p ++ String c (join c q qs))%string end.
Lemma split_on_join c s : forall p ps, split_on c s = (p, ps) -> join c p ps = s.
Proof.
  induction s as [|d s IH]; intros p ps H; cbn in H; [inversion H; reflexivity|].
  destruct (split_on c s) as [q qs]. specialize (IH q qs eq_refl).
  destruct (Ascii.eqb_spec c d); inversion H; subst; cbn; [reflexivity|].
  destruct ps; cbn; reflexivity.
Qed.
Lemma split_on_none c s : contains c s = false -> split_on c s = (s, []).
Proof.
  induction s as [|d s IH]; cbn; intro H; [reflexivity|]. apply orb_false_iff in H. destruct H as [H1 H2]. rewrite IH by exact H2.
  rewrite H1. reflexivity.
Qed.
Lemma split_on_app c a b : contains c a = false -> split_on c (a ++ String c b) = let '(p, ps) := split_on c b in (a, p :: ps).
Proof.
  induction a as [|d a IH]; cbn; intro H.
  - rewrite Ascii.eqb_refl. destruct (split_on c b). reflexivity.
  - apply orb_false_iff in H. destruct H as [H1 H2]. rewrite IH by exact H2. destruct (split_on c b). rewrite H1. reflexivity.
Qed.

Fixpoint repeatc (c : ascii) (k : nat) : string := match k with O => EmptyString | S k => String c (repeatc c k) end.
Fixpoint ends_with (c : ascii) (s : string) : bool :=
  match s with EmptyString => false | String d EmptyString => Ascii.eqb c d | String _ r => ends_with c r end.
Lemma trim_end_spec c s : exists k, s = (trim_end c s ++ repeatc c k)%string.
Proof.
  induction s as [|d s [k IH]]; cbn; [exists O; reflexivity|]. destruct (trim_end c s) as [|e r] eqn:E.
  - cbn in IH. destruct (Ascii.eqb_spec c d) as [->|N].
    + exists (S k). cbn. congruence.
    + exists k. cbn. congruence.
  - exists k. cbn. cbn in IH. congruence.
Qed.
Lemma trim_end_ends c s : ends_with c (trim_end c s) = false.
Proof.
  induction s as [|d s IH]; cbn; [reflexivity|]. destruct (trim_end c s) as [|e r] eqn:E.
  - destruct (Ascii.eqb c d) eqn:Q; [reflexivity|]. cbn. exact Q.
  - exact IH.
Qed.
Lemma trim_end_repeat c k : trim_end c (repeatc c k) = EmptyString.
Proof. induction k; cbn; [reflexivity|]. rewrite IHk, Ascii.eqb_refl. reflexivity. Qed.
Lemma trim_end_app c a k : ends_with c a = false -> trim_end c (a ++ repeatc c k) = a.
Proof.
  induction a as [|d a IH]; intro H; cbn [append]; [apply trim_end_repeat|].
  cbn [trim_end]. destruct a as [|e a].
  - cbn [append] in *. rewrite trim_end_repeat. cbn in H. rewrite H. reflexivity.
  - rewrite IH by exact H. reflexivity.
Qed.

Lemma mem_In s l : mem s l = true <-> In s l.
Proof. unfold mem. rewrite existsb_exists. split; [intros (x & I & E); apply String.eqb_eq in E; subst; exact I|intro I; exists s; split; [exact I|apply String.eqb_refl]]. Qed.
