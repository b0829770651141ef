(** Proofs that the functions of Text.v write and read numbers as TextSpec.v says. *)
From Coq Require Import Ascii String ZArith List Bool Lia.
From Verif Require Import Base Text TextFacts TextSpec.
Open Scope Z_scope.

Lemma digit_of_digit c d : digit_of c = Some d <-> digit c d.
Proof.
  split.
  - unfold digit_of. destruct (Z.leb_spec 48 (Z.of_nat (nat_of_ascii c))); cbn [andb]; [|discriminate].
    destruct (Z.leb_spec (Z.of_nat (nat_of_ascii c)) 57); [|discriminate]. intro E. injection E as E. split; [lia|]. subst d.
    assert (K : exists k, (k < 10)%nat /\ nat_of_ascii c = (48 + k)%nat) by (exists (nat_of_ascii c - 48)%nat; lia). destruct K as (k & K & Q).
    assert (C : c = ascii_of_nat (48 + k)) by (rewrite <- Q; symmetry; apply ascii_nat_embedding). rewrite Q, C. clear C Q. replace (Z.to_nat (Z.of_nat (48 + k) - 48)) with k by lia.
    do 10 (destruct k as [|k]; [reflexivity|]). lia.
  - intros [B G]. assert (K : d = 0 \/ d = 1 \/ d = 2 \/ d = 3 \/ d = 4 \/ d = 5 \/ d = 6 \/ d = 7 \/ d = 8 \/ d = 9) by lia.
    repeat (destruct K as [->|K]; [injection G as <-; reflexivity|]). subst. injection G as <-. reflexivity.
Qed.
Lemma numeral_more p acc s n : numeral p acc -> digits_value acc s = Some n -> numeral (p ++ s) n.
Proof.
  revert p acc. induction s as [|c s IH]; intros p acc D V; cbn in V; [injection V as <-; now rewrite append_nil|].
  destruct (digit_of c) as [d|] eqn:E; [|discriminate]. apply digit_of_digit in E.
  replace (p ++ String c s)%string with ((p ++ String c "") ++ s)%string by (rewrite append_assoc; reflexivity).
  apply (IH _ (acc * 10 + d)); [|exact V]. replace (acc * 10 + d) with (10 * acc + d) by lia. now constructor.
Qed.
Lemma numeral_spec s n : numeral s n <-> s <> EmptyString /\ digits_value 0 s = Some n.
Proof.
  split.
  - intro D. induction D as [c d B|s n c d D [NE IH] B]; apply digit_of_digit in B.
    + split; [discriminate|]. cbn [digits_value]. rewrite B. reflexivity.
    + split; [destruct s; discriminate|]. rewrite digits_value_app, IH. cbn [digits_value]. rewrite B. f_equal. lia.
  - intros [NE V]. destruct s as [|c s]; [contradiction|]. cbn [digits_value] in V. destruct (digit_of c) as [d|] eqn:E; [|discriminate].
    apply digit_of_digit in E. apply (numeral_more (String c "") (0 * 10 + d) s n); [|exact V]. now constructor.
Qed.
Lemma numeral_chars c s n : numeral s n -> is_digit c = false -> contains c s = false.
Proof.
  intros H D. induction H as [e d B|s n e d H IH B]; apply digit_of_digit in B; rewrite ?contains_app, ?IH; cbn; rewrite orb_false_r;
    (destruct (Ascii.eqb_spec c e) as [->|]; [|reflexivity]); unfold is_digit in D; rewrite B in D; discriminate.
Qed.
Lemma digit_of_range c d : digit_of c = Some d -> 0 <= d <= 9.
Proof. intro H. apply digit_of_digit in H. apply H. Qed.
(** The value of digits after a number. *)
Lemma digits_value_shift s : forall acc n, digits_value acc s = Some n ->
  exists v, digits_value 0 s = Some v /\ n = acc * 10 ^ Z.of_nat (String.length s) + v /\ 0 <= v < 10 ^ Z.of_nat (String.length s).
Proof.
  induction s as [|c s IH]; intros acc n H; cbn [digits_value String.length] in *.
  - injection H as <-. exists 0. cbn. repeat split; lia.
  - destruct (digit_of c) as [d|] eqn:E; [|discriminate]. apply digit_of_range in E.
    destruct (IH _ _ H) as (v & V & -> & B). destruct (digits_value (0 * 10 + d) s) as [w|] eqn:W.
    + destruct (IH _ _ W) as (v' & V' & -> & B'). rewrite V in V'. injection V' as <-. eexists. split; [reflexivity|].
      rewrite Nat2Z.inj_succ, Z.pow_succ_r by lia. nia.
    + exfalso. assert (X : forall acc acc' s, digits_value acc s <> None -> digits_value acc' s <> None).
      { clear. intros acc acc' s. revert acc acc'. induction s; intros acc acc'; cbn; [discriminate|]. destruct (digit_of a); [apply IHs|auto]. }
      apply (X 0 (0 * 10 + d) s); congruence.
Qed.
Lemma digits_value_inj s : forall s' n, String.length s = String.length s' -> digits_value 0 s = Some n -> digits_value 0 s' = Some n -> s = s'.
Proof.
  induction s as [|c s IH]; intros [|c' s'] n L H H'; try discriminate L; [reflexivity|]. injection L as L. cbn [digits_value] in H, H'.
  destruct (digit_of c) as [d|] eqn:E; [|discriminate]. destruct (digit_of c') as [d'|] eqn:E'; [|discriminate].
  destruct (digits_value_shift _ _ _ H) as (v & V & Q & B). destruct (digits_value_shift _ _ _ H') as (v' & V' & Q' & B'). rewrite <- L in Q', B'.
  assert (d = d') by nia. subst d'. assert (v = v') by lia. subst v'. f_equal; [|exact (IH s' v L V V')].
  apply digit_of_digit in E, E'. destruct E as [_ E], E' as [_ E']. congruence.
Qed.
Lemma padded_unique w s s' n : padded w s n -> padded w s' n -> s = s'.
Proof.
  assert (X : forall s s', padded w s n -> padded w s' n -> (String.length s <= String.length s')%nat).
  { clear s s'. intros s s' (N & L & Z0) (N' & L' & Z0'). apply numeral_spec in N, N'. destruct N as [NE V], N' as [NE' V'].
    destruct (le_lt_dec (String.length s) (String.length s')) as [|G]; [assumption|exfalso].
    destruct s as [|c s]; [contradiction|]. cbn [String.length digits_value] in *. destruct (digit_of c) as [d|] eqn:E; [|discriminate].
    destruct (digits_value_shift _ _ _ V) as (v & _ & Q & B). destruct (digits_value_shift _ _ _ V') as (v' & V2 & Q' & B').
    rewrite V' in V2. injection V2 as <-. pose proof (digit_of_range _ _ E) as D.
    assert (P : 10 ^ Z.of_nat (String.length s') <= 10 ^ Z.of_nat (String.length s)) by (apply Z.pow_le_mono_r; lia).
    assert (d <> 0).
    { intros ->. apply digit_of_digit in E. destruct E as [_ E]. injection E as <-. apply (Z0 ltac:(lia) s). reflexivity. }
    nia. }
  intros P P'. pose proof (X s s' P P') as A. pose proof (X s' s P' P) as B. destruct P as (N & _), P' as (N' & _). apply numeral_spec in N, N'.
  apply (digits_value_inj s s' n); [lia|apply N|apply N'].
Qed.
Lemma dec_no_zero n r : 0 <= n -> dec n = String "0" r -> r = EmptyString.
Proof.
  intros N E. destruct (dec_spec n N) as (_ & _ & V). rewrite E in V. cbn [digits_value] in V. change (digit_of "0") with (Some 0) in V.
  destruct r as [|c r]; [reflexivity|exfalso]. destruct (digits_value_shift _ _ _ V) as (v & _ & Q & B).
  pose proof (dec_length_le (S (Z.to_nat (Z.log2 n))) n EmptyString (String.length (String c r)) ltac:(lia) ltac:(cbn; lia)) as L.
  fold (dec n) in L. rewrite E in L. cbn [String.length] in L. lia.
Qed.
Lemma padded_dec_pad w n s : 0 <= n -> (0 < w)%nat -> (padded w s n <-> s = dec_pad w n).
Proof.
  intros N W. assert (P : padded w (dec_pad w n) n).
  { destruct (dec_pad_spec w n N) as (_ & NE & V). split; [apply numeral_spec; auto|]. unfold dec_pad in *. rewrite append_length, zeros_length.
    split; [lia|]. intros L r. replace (w - String.length (dec n))%nat with O by lia. cbn [zeros append]. intro E.
    apply dec_no_zero in E as R; [|exact N]. subst r. rewrite E in L. cbn in L. lia. }
  split; [intro H; exact (padded_unique w _ _ n H P)|intros ->; exact P].
Qed.
Lemma plain_dec n s : 0 <= n -> (plain s n <-> s = dec n).
Proof.
  intro N. unfold plain. rewrite padded_dec_pad by (try assumption; lia). unfold dec_pad. destruct (dec_spec n N) as (_ & NE & _).
  replace (1 - String.length (dec n))%nat with O; [reflexivity|]. destruct (dec n); [contradiction|]. cbn. lia.
Qed.
