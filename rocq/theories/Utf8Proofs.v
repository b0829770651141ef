(** The check of Base.v accepts exactly the encodings of text. *)
From Coq Require Import ZArith List Bool Lia.
From Verif Require Import Base Utf8Spec.
Import ListNotations.
Open Scope Z_scope.

Lemma in_range_true lo hi b : lo <= b <= hi -> in_range lo hi b = true.
Proof. intro H. unfold in_range. apply andb_true_intro. split; apply Z.leb_le; lia. Qed.
Lemma in_range_false lo hi b : b < lo \/ hi < b -> in_range lo hi b = false.
Proof. intro H. unfold in_range. apply andb_false_iff. destruct H; [left|right]; apply Z.leb_gt; lia. Qed.
Lemma in_range_inv lo hi b : in_range lo hi b = true -> lo <= b <= hi.
Proof. unfold in_range. intro H. apply andb_prop in H. destruct H as [A B]. apply Z.leb_le in A, B. lia. Qed.
Lemma div_by c k : 0 < k -> c = k * (c / k) + c mod k /\ 0 <= c mod k < k.
Proof. intro H. split; [apply Z.div_mod; lia|apply Z.mod_pos_bound; lia]. Qed.
Lemma digits2 c : 128 <= c < 2048 -> exists a b, utf8 c = [192 + a; 128 + b] /\ c = 64 * a + b /\ 0 <= b < 64.
Proof.
  intro H. unfold utf8. rewrite (proj2 (Z.ltb_ge c 128)), (proj2 (Z.ltb_lt c 2048)) by lia.
  destruct (div_by c 64 ltac:(lia)). do 2 eexists. split; [reflexivity|]. split; assumption.
Qed.
Lemma digits3 c : 2048 <= c < 65536 ->
  exists a b d, utf8 c = [224 + a; 128 + b; 128 + d] /\ c = 4096 * a + 64 * b + d /\ 0 <= b < 64 /\ 0 <= d < 64.
Proof.
  intro H. unfold utf8. rewrite (proj2 (Z.ltb_ge c 128)), (proj2 (Z.ltb_ge c 2048)), (proj2 (Z.ltb_lt c 65536)) by lia.
  destruct (div_by c 64 ltac:(lia)). destruct (div_by (c / 64) 64 ltac:(lia)) as [E ?].
  rewrite Z.div_div in E by lia. change (64 * 64) with 4096 in E.
  do 3 eexists. split; [reflexivity|]. repeat split; lia.
Qed.
Lemma digits4 c : 65536 <= c ->
  exists a b d e, utf8 c = [240 + a; 128 + b; 128 + d; 128 + e] /\ c = 262144 * a + 4096 * b + 64 * d + e /\
    0 <= b < 64 /\ 0 <= d < 64 /\ 0 <= e < 64.
Proof.
  intro H. unfold utf8. rewrite (proj2 (Z.ltb_ge c 128)), (proj2 (Z.ltb_ge c 2048)), (proj2 (Z.ltb_ge c 65536)) by lia.
  destruct (div_by c 64 ltac:(lia)). destruct (div_by (c / 64) 64 ltac:(lia)) as [E ?].
  destruct (div_by (c / 4096) 64 ltac:(lia)) as [E2 ?].
  rewrite Z.div_div in E, E2 by lia. change (64 * 64) with 4096 in E. change (4096 * 64) with 262144 in E2.
  do 4 eexists. split; [reflexivity|]. repeat split; lia.
Qed.

Ltac ranges := repeat match goal with
  | |- context [in_range ?lo ?hi ?b] =>
      first [rewrite (in_range_true lo hi b) by lia | rewrite (in_range_false lo hi b) by lia]
  | |- context [?a =? ?b] => first [rewrite (proj2 (Z.eqb_eq a b)) by lia | rewrite (proj2 (Z.eqb_neq a b)) by lia]
  end; cbn [orb andb].
Lemma utf8_step c s : scalar c -> utf8_valid (utf8 c ++ s) = utf8_valid s.
Proof.
  intro S. destruct (Z.lt_ge_cases c 128) as [A|A].
  { unfold utf8. rewrite (proj2 (Z.ltb_lt c 128)) by lia. cbn [app utf8_valid].
    rewrite in_range_true; [reflexivity|]. destruct S; lia. }
  destruct (Z.lt_ge_cases c 2048) as [B|B].
  { destruct (digits2 c ltac:(lia)) as (a & b & -> & E & Hb). cbn [app utf8_valid]. ranges. reflexivity. }
  destruct (Z.lt_ge_cases c 65536) as [C|C].
  { destruct (digits3 c ltac:(lia)) as (a & b & d & -> & E & Hb & Hd). cbn [app utf8_valid].
    destruct (Z.eq_dec a 0) as [->|N0]; [ranges; reflexivity|].
    destruct (Z.eq_dec a 13) as [->|N1].
    - destruct S as [S|S]; [|exfalso; lia]. ranges. reflexivity.
    - destruct (Z.lt_ge_cases a 13); ranges; reflexivity. }
  destruct (digits4 c C) as (a & b & d & e & -> & E & Hb & Hd & He). cbn [app utf8_valid].
  assert (c <= 1114111) by (destruct S; lia).
  destruct (Z.eq_dec a 0) as [->|N0]; [ranges; reflexivity|].
  destruct (Z.eq_dec a 4) as [->|N1]; [ranges; reflexivity|]. ranges. reflexivity.
Qed.

Lemma enc2 a b : 2 <= a <= 31 -> 0 <= b < 64 -> scalar (64 * a + b) /\ utf8 (64 * a + b) = [192 + a; 128 + b].
Proof.
  intros A B. split; [left; lia|].
  destruct (digits2 (64 * a + b) ltac:(lia)) as (a' & b' & -> & E & H). replace a' with a by lia. replace b' with b by lia. reflexivity.
Qed.
Lemma enc3 a b d : 0 <= a <= 15 -> 0 <= b < 64 -> 0 <= d < 64 -> (a = 0 -> 32 <= b) -> (a = 13 -> b < 32) ->
  scalar (4096 * a + 64 * b + d) /\ utf8 (4096 * a + 64 * b + d) = [224 + a; 128 + b; 128 + d].
Proof.
  intros A B D Z0 Z1. split; [unfold scalar; lia|].
  destruct (digits3 (4096 * a + 64 * b + d) ltac:(lia)) as (a' & b' & d' & -> & E & H & H').
  replace a' with a by lia. replace b' with b by lia. replace d' with d by lia. reflexivity.
Qed.
Lemma enc4 a b d e : 0 <= a <= 4 -> 0 <= b < 64 -> 0 <= d < 64 -> 0 <= e < 64 -> (a = 0 -> 16 <= b) -> (a = 4 -> b < 16) ->
  scalar (262144 * a + 4096 * b + 64 * d + e) /\
  utf8 (262144 * a + 4096 * b + 64 * d + e) = [240 + a; 128 + b; 128 + d; 128 + e].
Proof.
  intros A B D E0 Z0 Z1. split; [right; lia|].
  destruct (digits4 (262144 * a + 4096 * b + 64 * d + e) ltac:(lia)) as (a' & b' & d' & e' & -> & E & H & H' & H'').
  replace a' with a by lia. replace b' with b by lia. replace d' with d by lia. replace e' with e by lia. reflexivity.
Qed.
Lemma is_text_cons c l s : scalar c -> utf8 c = l -> is_text s -> is_text (l ++ s).
Proof. intros S <- (t & F & ->). exists (c :: t). split; [constructor; assumption|reflexivity]. Qed.
Ltac inv_and := repeat match goal with H : _ && _ = true |- _ => apply andb_prop in H; destruct H end.

Lemma utf8_valid_text s : utf8_valid s = true <-> is_text s.
Proof.
  split.
  - remember (length s) as n eqn:N. revert s N. induction n as [n IH] using lt_wf_ind. intros s N H.
    destruct s as [|b0 r0]; [exists []; split; [constructor|reflexivity]|]. cbn [utf8_valid] in H.
    destruct (in_range 0 127 b0) eqn:R0.
    { apply in_range_inv in R0. apply (is_text_cons b0 [b0]); [left; lia| |].
      - unfold utf8. rewrite (proj2 (Z.ltb_lt b0 128)) by lia. reflexivity.
      - apply (IH (length r0)); [subst n; cbn; lia|reflexivity|exact H]. }
    destruct r0 as [|b1 r1]; [discriminate|]. destruct (in_range 194 223 b0) eqn:R1.
    { inv_and. apply in_range_inv in R1, H. destruct (enc2 (b0 - 192) (b1 - 128) ltac:(lia) ltac:(lia)) as [S E].
      replace (192 + (b0 - 192)) with b0 in E by lia. replace (128 + (b1 - 128)) with b1 in E by lia.
      apply (is_text_cons _ [b0; b1] r1 S E). apply (IH (length r1)); [subst n; cbn; lia|reflexivity|assumption]. }
    destruct r1 as [|b2 r2]; [discriminate|].
    assert (T3 : 224 <= b0 <= 239 -> 128 <= b1 <= 191 -> 128 <= b2 <= 191 -> (b0 = 224 -> 160 <= b1) -> (b0 = 237 -> b1 <= 159) ->
                 utf8_valid r2 = true -> is_text (b0 :: b1 :: b2 :: r2)).
    { intros B0 B1 B2 Z0 Z1 V. destruct (enc3 (b0 - 224) (b1 - 128) (b2 - 128) ltac:(lia) ltac:(lia) ltac:(lia) ltac:(lia) ltac:(lia)) as [S E].
      replace (224 + (b0 - 224)) with b0 in E by lia. replace (128 + (b1 - 128)) with b1 in E by lia.
      replace (128 + (b2 - 128)) with b2 in E by lia.
      apply (is_text_cons _ [b0; b1; b2] r2 S E). apply (IH (length r2)); [subst n; cbn; lia|reflexivity|assumption]. }
    destruct (b0 =? 224) eqn:R2.
    { apply Z.eqb_eq in R2. inv_and. apply in_range_inv in H, H1. apply T3; try lia. assumption. }
    apply Z.eqb_neq in R2. destruct (in_range 225 236 b0 || in_range 238 239 b0) eqn:R3.
    { inv_and. apply in_range_inv in H, H1. apply T3; try lia; try assumption;
        apply orb_true_iff in R3; destruct R3 as [R3|R3]; apply in_range_inv in R3; lia. }
    destruct (b0 =? 237) eqn:R4.
    { apply Z.eqb_eq in R4. inv_and. apply in_range_inv in H, H1. apply T3; try lia. assumption. }
    destruct r2 as [|b3 r3]; [discriminate|]. inv_and. apply in_range_inv in H1, H2.
    assert (K : 240 <= b0 <= 244 /\ 128 <= b1 <= 191 /\ (b0 = 240 -> 144 <= b1) /\ (b0 = 244 -> b1 <= 143)).
    { destruct (b0 =? 240) eqn:R5; [apply Z.eqb_eq in R5; apply in_range_inv in H; lia|]. apply Z.eqb_neq in R5.
      destruct (in_range 241 243 b0) eqn:R6; [apply in_range_inv in R6, H; lia|].
      destruct (b0 =? 244) eqn:R7; [apply Z.eqb_eq in R7; apply in_range_inv in H; lia|discriminate]. }
    destruct K as (K0 & K1 & K2 & K3).
    destruct (enc4 (b0 - 240) (b1 - 128) (b2 - 128) (b3 - 128) ltac:(lia) ltac:(lia) ltac:(lia) ltac:(lia) ltac:(lia) ltac:(lia)) as [S E].
    replace (240 + (b0 - 240)) with b0 in E by lia. replace (128 + (b1 - 128)) with b1 in E by lia.
    replace (128 + (b2 - 128)) with b2 in E by lia. replace (128 + (b3 - 128)) with b3 in E by lia.
    apply (is_text_cons _ [b0; b1; b2; b3] r3 S E). apply (IH (length r3)); [subst n; cbn; lia|reflexivity|assumption].
  - intros (t & F & ->). induction F as [|c t S F IH]; [reflexivity|]. cbn [map concat]. rewrite utf8_step by exact S. exact IH.
Qed.
