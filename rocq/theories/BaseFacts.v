(** Facts about the reader primitives of Base.v. *)
From Coq Require Import ZArith List Bool Lia ZifyBool ZifyNat.
From Verif Require Import Base F32 Grib2Model Grib2Spec.
Import ListNotations.
Open Scope Z_scope.
Ltac Zify.zify_post_hook ::= Z.div_mod_to_equations.

Lemma bind_ok {A B} (m : reader A) (k : A -> reader B) bs y rest :
  bind m k bs = Ok (y, rest) <-> exists x mid, m bs = Ok (x, mid) /\ k x mid = Ok (y, rest).
Proof.
  unfold bind. destruct (m bs) as [[x mid]|e|]; split; try (intros [? [? [H _]]]; discriminate);
    try discriminate.
  - intro H; eauto.
  - intros [x' [mid' [H1 H2]]]; inversion H1; subst; exact H2.
Qed.

Lemma bind_ok_step {A B} (m : reader A) (k : A -> reader B) bs x rest :
  m bs = Ok (x, rest) -> bind m k bs = k x rest.
Proof. unfold bind; intros ->; reflexivity. Qed.

Lemma bind_panic {A B} (m : reader A) (k : A -> reader B) bs :
  bind m k bs = Panic <-> m bs = Panic \/ exists x mid, m bs = Ok (x, mid) /\ k x mid = Panic.
Proof.
  unfold bind. destruct (m bs) as [[x mid]|e|]; split; intro H; try discriminate; eauto.
  - destruct H as [H|[x' [mid' [H1 H2]]]]; [discriminate|]. inversion H1; subst; exact H2.
  - destruct H as [H|[x' [mid' [H1 H2]]]]; discriminate.
Qed.

Lemma take_bytes_app n b rest :
  Z.of_nat (length b) = n -> n <= isize_max -> take_bytes n (b ++ rest) = Ok (b, rest).
Proof.
  intros Hn Hmax. unfold take_bytes.
  replace (n >? isize_max) with false by (symmetry; lia).
  rewrite app_length.
  replace (n <=? _) with true by (symmetry; lia).
  subst n. rewrite Nat2Z.id. rewrite firstn_app, firstn_all, Nat.sub_diag, skipn_app, skipn_all, Nat.sub_diag.
  cbn [firstn skipn app]. rewrite app_nil_r. reflexivity.
Qed.

Lemma take_bytes_ok n bs b rest :
  0 <= n -> take_bytes n bs = Ok (b, rest) ->
  bs = b ++ rest /\ Z.of_nat (length b) = n /\ n <= isize_max.
Proof.
  intros H0. unfold take_bytes.
  destruct (n >? isize_max) eqn:E1; [discriminate|].
  destruct (n <=? Z.of_nat (length bs)) eqn:E2; [|discriminate].
  intro H; inversion H; subst. rewrite firstn_skipn, firstn_length.
  repeat split; lia.
Qed.

Lemma be_acc_app acc a b : be_acc acc (a ++ b) = be_acc (be_acc acc a) b.
Proof. revert acc; induction a as [|x a IH]; intro acc; cbn [app be_acc]; auto. Qed.

Lemma pow256_pos k : 0 < 256 ^ Z.of_nat k.
Proof. apply Z.pow_pos_nonneg; lia. Qed.

Lemma pow256_S k : 256 ^ Z.of_nat (S k) = 256 * 256 ^ Z.of_nat k.
Proof. rewrite Nat2Z.inj_succ, Z.pow_succ_r by lia. reflexivity. Qed.

Lemma be_bytes_mod j : forall k v, (j <= k)%nat ->
  be_bytes j (v mod 256 ^ Z.of_nat k) = be_bytes j v.
Proof.
  induction j as [|j IH]; intros k v Hj; [reflexivity|].
  cbn [be_bytes]. f_equal; [|apply IH; lia].
  assert (E : 256 ^ Z.of_nat k = 256 ^ Z.of_nat j * (256 * 256 ^ Z.of_nat (k - S j))).
  { replace k with (j + (1 + (k - S j)))%nat at 1 by lia.
    rewrite !Nat2Z.inj_add, !Z.pow_add_r by lia. reflexivity. }
  rewrite E. pose proof (pow256_pos j) as Hpj. pose proof (pow256_pos (k - S j)) as Hpk.
  rewrite Z.rem_mul_r by lia.
  rewrite Z.mul_comm, Z.div_add by lia.
  rewrite (Z.div_small (v mod 256 ^ Z.of_nat j)) by (apply Z.mod_pos_bound; lia).
  rewrite Z.add_0_l.
  rewrite Z.rem_mul_r by lia.
  rewrite Z.mul_comm, Z_mod_plus_full. apply Z.mod_mod; lia.
Qed.

Lemma be_acc_be_bytes n : forall acc v, 0 <= v < 256 ^ Z.of_nat n ->
  be_acc acc (be_bytes n v) = acc * 256 ^ Z.of_nat n + v.
Proof.
  induction n as [|k IH]; intros acc v Hv.
  - cbn in *. lia.
  - cbn [be_bytes be_acc].
    rewrite pow256_S in *. pose proof (pow256_pos k) as Hp.
    rewrite <- (be_bytes_mod k k v) by lia.
    rewrite IH by (apply Z.mod_pos_bound; lia).
    rewrite (Z.mod_small (v / _)).
    + rewrite (Z.div_mod v (256 ^ Z.of_nat k)) at 3 by lia. nia.
    + split; [apply Z.div_pos; lia|]. apply Z.div_lt_upper_bound; lia.
Qed.

Lemma be_value_be_bytes n v : 0 <= v < 256 ^ Z.of_nat n -> be_value (be_bytes n v) = v.
Proof. intro H. unfold be_value. rewrite be_acc_be_bytes by exact H. lia. Qed.

Lemma be_bytes_length n v : length (be_bytes n v) = n.
Proof. induction n; cbn [be_bytes length]; auto. Qed.

Lemma be_bytes_is_byte n v : Forall is_byte (be_bytes n v).
Proof.
  induction n; cbn [be_bytes]; constructor; auto.
  unfold is_byte. apply Z.mod_pos_bound; lia.
Qed.

Lemma be_acc_bound bs : forall acc, Forall is_byte bs -> 0 <= acc ->
  acc * 256 ^ Z.of_nat (length bs) <= be_acc acc bs
  < (acc + 1) * 256 ^ Z.of_nat (length bs).
Proof.
  induction bs as [|b r IH]; intros acc H Ha.
  - cbn. lia.
  - inversion H; subst. cbn [be_acc length]. rewrite pow256_S.
    unfold is_byte in *.
    specialize (IH (acc * 256 + b) ltac:(assumption) ltac:(lia)).
    pose proof (pow256_pos (length r)). nia.
Qed.

Lemma be_value_bound bs : Forall is_byte bs -> 0 <= be_value bs < 256 ^ Z.of_nat (length bs).
Proof. intro H. pose proof (be_acc_bound bs 0 H). unfold be_value. lia. Qed.

Lemma be_bytes_be_acc bs : forall acc, Forall is_byte bs -> 0 <= acc ->
  be_bytes (length bs) (be_acc acc bs) = bs.
Proof.
  induction bs as [|b r IH]; intros acc H Ha; [reflexivity|].
  inversion H; subst. cbn [length be_bytes be_acc]. unfold is_byte in *. f_equal.
  - pose proof (be_acc_bound r (acc * 256 + b) ltac:(assumption) ltac:(lia)) as Hb.
    pose proof (pow256_pos (length r)) as Hp.
    assert (E : be_acc (acc * 256 + b) r / 256 ^ Z.of_nat (length r) = acc * 256 + b).
    { symmetry. apply Z.div_unique with (r := be_acc (acc * 256 + b) r - (acc * 256 + b) * 256 ^ Z.of_nat (length r)); lia. }
    rewrite E. rewrite Z.add_comm, Z_mod_plus_full. apply Z.mod_small; lia.
  - apply IH; [assumption|lia].
Qed.

Lemma be_bytes_be_value bs : Forall is_byte bs -> be_bytes (length bs) (be_value bs) = bs.
Proof. intro H. apply be_bytes_be_acc; [exact H|lia]. Qed.

(** Reading a number of [n] octets. *)
Lemma read_be_app n v rest :
  0 <= v < 256 ^ Z.of_nat n -> Z.of_nat n <= isize_max ->
  read_be (Z.of_nat n) (be_bytes n v ++ rest) = Ok (v, rest).
Proof.
  intros Hv Hn. unfold read_be.
  rewrite (bind_ok_step _ _ _ (be_bytes n v) rest).
  - unfold ret. rewrite be_value_be_bytes by exact Hv. reflexivity.
  - apply take_bytes_app; [rewrite be_bytes_length; reflexivity|exact Hn].
Qed.

Lemma read_be_ok n bs v rest :
  Forall is_byte bs -> read_be (Z.of_nat n) bs = Ok (v, rest) ->
  bs = be_bytes n v ++ rest /\ 0 <= v < 256 ^ Z.of_nat n /\ Forall is_byte rest.
Proof.
  intros Hb H. unfold read_be in H. apply bind_ok in H. destruct H as [b [mid [H1 H2]]].
  apply take_bytes_ok in H1; [|lia]. destruct H1 as [-> [Hl _]].
  inversion H2; subst. apply Forall_app in Hb. destruct Hb as [Hb Hr].
  assert (length b = n) by lia. subst n.
  rewrite be_bytes_be_value by exact Hb. split; [reflexivity|].
  split; [apply be_value_bound; exact Hb|exact Hr].
Qed.

(** Reading a sequence of numbers of [k] octets each. *)
Lemma chunks_app fuel : forall (k : nat) (vs : list Z),
  (0 < k)%nat -> (length vs <= fuel)%nat ->
  chunks fuel k (concat (map (be_bytes k) vs)) = map (be_bytes k) vs.
Proof.
  induction fuel as [|f IH]; intros k vs Hk Hl.
  - destruct vs; [reflexivity|cbn in Hl; lia].
  - destruct vs as [|v vs]; [reflexivity|].
    cbn [map concat chunks].
    destruct (be_bytes k v ++ concat (map (be_bytes k) vs)) as [|x l] eqn:E.
    { apply (f_equal (@length Z)) in E. rewrite app_length, be_bytes_length in E. cbn in E. lia. }
    rewrite <- E.
    rewrite firstn_app, skipn_app, be_bytes_length, Nat.sub_diag.
    rewrite firstn_all2, skipn_all2 by (rewrite be_bytes_length; lia).
    cbn [firstn skipn app]. rewrite app_nil_r. f_equal.
    apply IH; [exact Hk|cbn in Hl; lia].
Qed.

Lemma concat_be_length k vs :
  length (concat (map (be_bytes k) vs)) = (k * length vs)%nat.
Proof.
  induction vs as [|v vs IH]; cbn [map concat length]; [lia|].
  rewrite app_length, be_bytes_length, IH. lia.
Qed.

Lemma map_be_value k vs :
  Forall (fun v => 0 <= v < 256 ^ Z.of_nat k) vs -> map be_value (map (be_bytes k) vs) = vs.
Proof.
  induction 1 as [|v vs H _ IH]; cbn [map]; [reflexivity|].
  rewrite be_value_be_bytes, IH by exact H. reflexivity.
Qed.

Lemma read_be_into_app k vs rest cnt :
  (0 < k)%nat -> Z.of_nat (length vs) = cnt -> Z.of_nat k * cnt <= isize_max ->
  Forall (fun v => 0 <= v < 256 ^ Z.of_nat k) vs ->
  read_be_into (Z.of_nat k) cnt (concat (map (be_bytes k) vs) ++ rest) = Ok (vs, rest).
Proof.
  intros Hk Hc Hm Hv. unfold read_be_into.
  rewrite (bind_ok_step _ _ _ (concat (map (be_bytes k) vs)) rest).
  - unfold ret. rewrite Nat2Z.id, chunks_app, map_be_value; auto.
    rewrite concat_be_length. nia.
  - apply take_bytes_app; [rewrite concat_be_length; lia|exact Hm].
Qed.

(** Any string of [k * n] octets is a sequence of [n] numbers of [k] octets. *)
Lemma split_be k : forall (n : nat) b,
  length b = (k * n)%nat -> Forall is_byte b ->
  exists vs, b = concat (map (be_bytes k) vs) /\ length vs = n /\
             Forall (fun v => 0 <= v < 256 ^ Z.of_nat k) vs.
Proof.
  induction n as [|n IH]; intros b Hl Hb.
  - exists []. destruct b; [auto|cbn in Hl; lia].
  - destruct (IH (skipn k b)) as [vs [E [Hn Hv]]].
    + rewrite skipn_length. lia.
    + rewrite <- (firstn_skipn k b) in Hb. apply Forall_app in Hb. tauto.
    + assert (Hf : Forall is_byte (firstn k b)).
      { rewrite <- (firstn_skipn k b) in Hb. apply Forall_app in Hb. tauto. }
      assert (Hfl : length (firstn k b) = k) by (rewrite firstn_length; lia).
      exists (be_value (firstn k b) :: vs). cbn [map concat length].
      repeat split; [|lia|].
      * rewrite <- E. pose proof (be_bytes_be_value _ Hf) as E2. rewrite Hfl in E2.
        rewrite E2. symmetry; apply firstn_skipn.
      * constructor; [|exact Hv]. pose proof (be_value_bound _ Hf) as E2. rewrite Hfl in E2.
        exact E2.
Qed.

Lemma read_be_into_ok k cnt bs vs rest :
  (0 < k)%nat -> 0 <= cnt -> Forall is_byte bs ->
  read_be_into (Z.of_nat k) cnt bs = Ok (vs, rest) ->
  bs = concat (map (be_bytes k) vs) ++ rest /\ Z.of_nat (length vs) = cnt /\
  Forall (fun v => 0 <= v < 256 ^ Z.of_nat k) vs /\ Forall is_byte rest.
Proof.
  intros Hk Hc Hb H. unfold read_be_into in H. apply bind_ok in H.
  destruct H as [b [mid [H1 H2]]].
  apply take_bytes_ok in H1; [|apply Z.mul_nonneg_nonneg; lia]. destruct H1 as [-> [Hl _]].
  apply Forall_app in Hb. destruct Hb as [Hb Hr].
  unfold ret in H2. injection H2 as H0 H3. subst rest.
  destruct (split_be k (Z.to_nat cnt) b) as [ws [-> [Hn Hv]]];
    [apply Nat2Z.inj; rewrite Hl, Nat2Z.inj_mul, Z2Nat.id by exact Hc; reflexivity|exact Hb|].
  rewrite Nat2Z.id in H0.
  rewrite chunks_app, map_be_value in H0; auto.
  - subst ws. split; [reflexivity|]. split; [rewrite Hn; apply Z2Nat.id; exact Hc|]. split; [exact Hv|exact Hr].
  - rewrite concat_be_length. clear -Hk; nia.
Qed.

(** Sections of the layout language. *)
Lemma ser_cons f fs : ser (f :: fs) = field_bytes f ++ ser fs.
Proof. reflexivity. Qed.
Lemma ser_nil : ser [] = [].
Proof. reflexivity. Qed.
Lemma ser_app a b : ser (a ++ b) = ser a ++ ser b.
Proof. unfold ser. rewrite map_app, concat_app. reflexivity. Qed.
Lemma ser_map_U k vs : ser (map (U k) vs) = concat (map (be_bytes k) vs).
Proof. unfold ser. rewrite map_map. reflexivity. Qed.

Lemma fields_ok_bytes fs : fields_ok fs -> Forall is_byte (ser fs).
Proof.
  induction 1 as [|f fs H _ IH]; [constructor|].
  rewrite ser_cons. apply Forall_app. split; [|exact IH].
  destruct f as [n v|b]; [apply be_bytes_is_byte|exact H].
Qed.

Lemma Forall_map_U k vs :
  Forall field_ok (map (U k) vs) <-> Forall (fun v => 0 <= v < 256 ^ Z.of_nat k) vs.
Proof. rewrite Forall_map. reflexivity. Qed.

Lemma bytes_eqb_eq a : forall b, bytes_eqb a b = true <-> a = b.
Proof.
  induction a as [|x a IH]; intros [|y b]; cbn; split; intro H; try discriminate; auto.
  - apply andb_prop in H. destruct H as [H1 H2]. apply IH in H2. apply Z.eqb_eq in H1. subst; auto.
  - inversion H; subst. rewrite Z.eqb_refl. apply IH. reflexivity.
Qed.
