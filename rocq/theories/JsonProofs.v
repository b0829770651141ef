(** Proofs of the property about the texts of answers (C81). *)
From Coq Require Import Ascii String ZArith List Bool Lia Arith.
From Verif Require Import Base Text TextFacts TextSpec TextSpecProofs Utf8Spec Utf8Proofs FetchModel SwissModel NcTextModel ServiceModel ServiceSpec ServiceProofs RfcModel RfcProofs JsonModel JsonSpec.
Import ListNotations.
Open Scope Z_scope.

(** ** Pieces *)

Lemma code_eqb c d : (code c =? code d) = Ascii.eqb c d.
Proof.
  unfold code. destruct (Ascii.eqb_spec c d) as [->|N]; [apply Z.eqb_refl|]. apply Z.eqb_neq. intro E. apply N.
  rewrite <- (ascii_nat_embedding c), <- (ascii_nat_embedding d). f_equal. lia.
Qed.
Lemma code_is c d : code c = code d -> c = d.
Proof. intro E. apply Z.eqb_eq in E. rewrite code_eqb in E. now apply Ascii.eqb_eq. Qed.
Lemma code_not c d : c <> d -> (code c =? code d) = false.
Proof. intro N. rewrite code_eqb. now apply Ascii.eqb_neq. Qed.

Lemma is_blank_in c : is_blank c = true <-> In c [" "; "009"; "010"; "013"]%char.
Proof.
  unfold is_blank. change 32 with (code " "). change 10 with (code "010"). change 9 with (code "009"). change 13 with (code "013"). rewrite !code_eqb.
  destruct (Ascii.eqb_spec c " ") as [->|A]; [split; [now left|reflexivity]|]. destruct (Ascii.eqb_spec c "010") as [->|B]; [split; [right; right; now left|reflexivity]|].
  destruct (Ascii.eqb_spec c "009") as [->|D]; [split; [right; now left|reflexivity]|]. destruct (Ascii.eqb_spec c "013") as [->|E]; [split; [right; right; right; now left|reflexivity]|].
  split; [discriminate|]. intros [H|[H|[H|[H|[]]]]]; congruence.
Qed.
Lemma skip_blanks_app w s : blank w -> skip_blanks (w ++ s) = skip_blanks s.
Proof. intro B. induction B as [|c w I B IH]; [reflexivity|]. apply is_blank_in in I. cbn. now rewrite I. Qed.
Lemma skip_blanks_blank w : blank w -> skip_blanks w = ""%string.
Proof. intro B. rewrite <- (append_nil w). now rewrite skip_blanks_app. Qed.
Lemma skip_blanks_some s : exists w, blank w /\ s = (w ++ skip_blanks s)%string.
Proof.
  induction s as [|c s (w & B & E)]; [exists ""%string; split; [constructor|reflexivity]|]. cbn. destruct (is_blank c) eqn:I.
  - exists (String c w). split; [constructor; [now apply is_blank_in|exact B]|]. cbn. now rewrite <- E.
  - exists ""%string. split; [constructor|reflexivity].
Qed.
Definition no_blank (s : string) : Prop := match s with String c _ => is_blank c = false | EmptyString => True end.
Lemma skip_blanks_no s : no_blank s -> skip_blanks s = s.
Proof. destruct s as [|c s]; [reflexivity|]. cbn. intros ->. reflexivity. Qed.
Lemma blank_app w w' : blank w -> blank w' -> blank (w ++ w').
Proof. intros B B'. induction B; [exact B'|]. cbn. now constructor. Qed.

(** ** Numbers *)

Lemma digits_spec s : digits s <-> exists v, digits_value 0 s = Some v.
Proof.
  split.
  - intros [->|(n & N)]; [now exists 0|]. apply numeral_spec in N. exists n. apply N.
  - intros (v & V). destruct s as [|c s]; [now left|]. right. exists v. apply numeral_spec. split; [discriminate|exact V].
Qed.
Lemma digits_cons c d r : digit_of c = Some d -> digits r -> digits (String c r).
Proof. intros D R. apply digits_spec in R. destruct R as [v V]. apply digits_spec. cbn. rewrite D. exact (digits_value_any _ _ _ _ V). Qed.
Lemma digits_head c r : digits (String c r) -> (exists d, digit_of c = Some d) /\ digits r.
Proof.
  intro R. apply digits_spec in R. destruct R as [v V]. cbn in V. destruct (digit_of c) as [d|]; [|discriminate]. split; [now exists d|].
  apply digits_spec. exact (digits_value_any _ _ _ _ V).
Qed.
Lemma span_digits_some s a b : span_digits s = (a, b) -> s = (a ++ b)%string /\ digits a /\ no_digit b.
Proof.
  revert a b. induction s as [|c s IH]; intros a b E; cbn in E; [injection E as <- <-; repeat split; now left|].
  destruct (digit_of c) as [d|] eqn:D.
  - destruct (span_digits s) as [a' b']. injection E as <- <-. destruct (IH _ _ eq_refl) as (-> & A & B). split; [reflexivity|]. split; [exact (digits_cons _ _ _ D A)|exact B].
  - injection E as <- <-. split; [reflexivity|]. split; [now left|exact D].
Qed.
Lemma span_digits_ok a : forall b, digits a -> no_digit b -> span_digits (a ++ b) = (a, b).
Proof.
  induction a as [|c a IH]; intros b A B; cbn.
  - destruct b as [|c b]; [reflexivity|]. cbn in *. now rewrite B.
  - apply digits_head in A. destruct A as [(d & D) A]. rewrite D, (IH b A B). reflexivity.
Qed.
Lemma some_digits_some s a b : some_digits s = Some (a, b) -> s = (a ++ b)%string /\ (exists n, numeral a n) /\ no_digit b.
Proof.
  unfold some_digits. destruct (span_digits s) as [x y] eqn:E. destruct x as [|c x]; [discriminate|]. intro Q. apply some_pair in Q. destruct Q as [<- <-].
  apply span_digits_some in E. destruct E as (-> & D & N). split; [reflexivity|]. split; [|exact N]. destruct D as [D|D]; [discriminate|exact D].
Qed.
Lemma some_digits_ok a b n : numeral a n -> no_digit b -> some_digits (a ++ b) = Some (a, b).
Proof.
  intros N B. unfold some_digits. rewrite (span_digits_ok a b); [|right; now exists n|exact B]. apply numeral_spec in N. destruct N as [N _]. destruct a; [contradiction|reflexivity].
Qed.
(** The text goes on with nothing that could belong to a number. *)
Definition stops (s : string) : Prop := match s with String c _ => digit_of c = None /\ c <> "."%char /\ c <> "e"%char /\ c <> "E"%char | EmptyString => True end.
Lemma stops_no_digit s : stops s -> no_digit s.
Proof. destruct s; [easy|]. cbn. tauto. Qed.
Lemma strip_not p c s : (forall r, String c s <> (String p "" ++ r)%string) -> strip (String p "") (String c s) = None.
Proof. intro N. cbn. destruct (Ascii.eqb_spec p c) as [->|]; [exfalso; exact (N s eq_refl)|reflexivity]. Qed.
Lemma read_fraction_some s f r : read_fraction s = Some (f, r) -> s = (f ++ r)%string /\ (f = ""%string \/ exists ds n, numeral ds n /\ f = ("." ++ ds)%string).
Proof.
  unfold read_fraction. destruct (strip "." s) as [q|] eqn:E.
  - intro Q. apply bind_some in Q. destruct Q as ([ds r'] & D & Q). apply some_pair in Q. destruct Q as [<- <-]. apply strip_some in E. subst s.
    apply some_digits_some in D. destruct D as (-> & (n & N) & _). split; [reflexivity|]. right. now exists ds, n.
  - intro Q. apply some_pair in Q. destruct Q as [<- <-]. split; [reflexivity|now left].
Qed.
Lemma maybe_some l s p r : maybe l s = (p, r) -> s = (p ++ r)%string /\ (p = ""%string \/ In p l).
Proof.
  unfold maybe. destruct (strip_one (map (fun p => (p, p)) l) s) as [[a q]|] eqn:E; intro Q; injection Q as <- <-; [|split; [reflexivity|now left]].
  apply strip_one_some in E. destruct E as (p & I & ->). apply in_map_iff in I. destruct I as (x & X & I). injection X as <- <-. split; [reflexivity|now right].
Qed.
Lemma read_exponent_some s f r : read_exponent s = Some (f, r) -> s = (f ++ r)%string /\
  (f = ""%string \/ exists e g ds n, (e = "e" \/ e = "E")%string /\ (g = "" \/ g = "+" \/ g = "-")%string /\ numeral ds n /\ f = (e ++ g ++ ds)%string).
Proof.
  unfold read_exponent. destruct (maybe ["e"; "E"]%string s) as [e q] eqn:E. destruct e as [|c e].
  - intro Q. apply some_pair in Q. destruct Q as [<- <-]. split; [reflexivity|now left].
  - apply maybe_some in E. destruct E as [-> [E|E]]; [discriminate|]. destruct (maybe ["+"; "-"]%string q) as [g q'] eqn:G. intro Q. apply bind_some in Q. destruct Q as ([ds r'] & D & Q).
    apply some_pair in Q. destruct Q as [<- <-]. apply maybe_some in G. destruct G as [-> G]. apply some_digits_some in D. destruct D as (-> & (n & N) & _).
    split; [cbn; rewrite !append_assoc; reflexivity|]. right. exists (String c e), g, ds, n. split; [destruct E as [E|[E|[]]]; rewrite <- E; auto|].
    split; [|auto]. destruct G as [G|[G|[G|[]]]]; rewrite ?G; auto; rewrite <- G; auto.
Qed.
Lemma read_int_some s i r : read_int s = Some (i, r) -> s = (i ++ r)%string /\ (i = "0"%string \/ exists c d q, digit c d /\ d <> 0 /\ digits q /\ i = String c q).
Proof.
  unfold read_int. destruct s as [|c s]; [discriminate|]. destruct (digit_of c) as [d|] eqn:D; [|discriminate]. destruct d as [|p|p].
  - destruct (span_digits s) as [a b] eqn:E. destruct a; [|discriminate]. intro Q. apply some_pair in Q. destruct Q as [<- <-]. split; [reflexivity|]. left.
    apply digit_of_digit in D. destruct D as [_ D]. cbn in D. injection D as <-. reflexivity.
  - destruct (span_digits s) as [a b] eqn:E. intro Q. apply some_pair in Q. destruct Q as [<- <-]. apply span_digits_some in E. destruct E as (-> & A & _). split; [reflexivity|].
    right. exists c, (Zpos p), a. split; [now apply digit_of_digit|]. split; [discriminate|]. auto.
  - apply digit_of_range in D. lia.
Qed.
Lemma read_number_some s t r : read_number s = Some (t, r) -> s = (t ++ r)%string /\ number t.
Proof.
  unfold read_number. destruct (maybe ["-"]%string s) as [g q] eqn:G. intro Q. apply bind_some in Q. destruct Q as ([i q1] & I & Q). apply bind_some in Q. destruct Q as ([f q2] & F & Q).
  apply bind_some in Q. destruct Q as ([e q3] & E & Q). apply some_pair in Q. destruct Q as [<- <-]. apply maybe_some in G. destruct G as [-> G]. apply read_int_some in I. destruct I as [-> I].
  apply read_fraction_some in F. destruct F as [-> F]. apply read_exponent_some in E. destruct E as [-> E]. split; [rewrite !append_assoc; reflexivity|].
  exists g, i, f, e. split; [reflexivity|]. split; [destruct G as [G|[G|[]]]; auto|]. auto.
Qed.
Definition no_dot (s : string) : Prop := match s with String c _ => c <> "."%char | EmptyString => True end.
Definition no_e (s : string) : Prop := match s with String c _ => c <> "e"%char /\ c <> "E"%char | EmptyString => True end.
Lemma read_fraction_ok f r : (f = ""%string /\ no_dot r) \/ (exists ds n, numeral ds n /\ f = ("." ++ ds)%string) /\ no_digit r -> read_fraction (f ++ r) = Some (f, r).
Proof.
  intros [[-> N]|[(ds & n & D & ->) N]]; unfold read_fraction.
  - cbn [append]. destruct r as [|c r]; [reflexivity|]. cbn [no_dot] in N. rewrite strip_not; [reflexivity|]. intros q E. injection E as E _. congruence.
  - rewrite append_assoc, (proj2 (strip_some "." _ (ds ++ r)) eq_refl), (some_digits_ok ds r n D N). reflexivity.
Qed.
Lemma digit_start ds n : numeral ds n -> exists c d r, ds = String c r /\ digit_of c = Some d.
Proof.
  intro N. assert (D : digits ds) by (right; now exists n). apply numeral_spec in N. destruct N as [N _]. destruct ds as [|c r]; [contradiction|].
  apply digits_head in D. destruct D as [(d & D) _]. now exists c, d, r.
Qed.
Lemma read_exponent_ok f r : (f = ""%string /\ no_e r) \/ (exists e g ds n, (e = "e" \/ e = "E")%string /\ (g = "" \/ g = "+" \/ g = "-")%string /\ numeral ds n /\ f = (e ++ g ++ ds)%string) /\ no_digit r ->
  read_exponent (f ++ r) = Some (f, r).
Proof.
  intros [[-> N]|[(e & g & ds & n & E & G & D & ->) N]]; unfold read_exponent.
  - cbn [append]. destruct r as [|c r]; [reflexivity|]. cbn [no_e] in N. destruct N as [N N']. unfold maybe. cbn [map strip_one strip].
    destruct (Ascii.eqb_spec "e" c) as [Q|]; [now symmetry in Q|]. destruct (Ascii.eqb_spec "E" c) as [Q|]; [now symmetry in Q|]. reflexivity.
  - assert (M : maybe ["+"; "-"]%string (g ++ ds ++ r) = (g, (ds ++ r)%string)).
    { destruct G as [->|[->| ->]]; [|reflexivity..]. destruct (digit_start ds n D) as (c & d & q & -> & X). cbn [append]. unfold maybe. cbn [map strip_one strip].
      destruct (Ascii.eqb_spec "+" c) as [<-|]; [discriminate|]. destruct (Ascii.eqb_spec "-" c) as [<-|]; [discriminate|]. reflexivity. }
    destruct E as [->| ->]; cbn [append]; unfold maybe at 1; cbn [map strip_one strip]; cbv [Ascii.eqb Bool.eqb]; cbn [append]; rewrite append_assoc, M, (some_digits_ok ds r n D N); reflexivity.
Qed.
Lemma read_int_ok i r : (i = "0"%string \/ exists c d q, digit c d /\ d <> 0 /\ digits q /\ i = String c q) -> no_digit r -> read_int (i ++ r) = Some (i, r).
Proof.
  intros [->|(c & d & q & D & NZ & Q & ->)] N; unfold read_int; cbn [append].
  - change (digit_of "0") with (Some 0). destruct r as [|c r]; [reflexivity|]. cbn in N. cbn. now rewrite N.
  - apply digit_of_digit in D. rewrite D, (span_digits_ok q r Q N). destruct d; [contradiction|reflexivity..].
Qed.
Lemma read_number_ok t r : number t -> stops r -> read_number (t ++ r) = Some (t, r).
Proof.
  intros (g & i & f & e & -> & G & I & F & E) S. unfold read_number. rewrite !append_assoc.
  assert (SE : no_digit (e ++ r) /\ no_dot (e ++ r)).
  { destruct E as [->|(x & y & ds & n & [->| ->] & _ & _ & ->)]; [|split; [reflexivity|discriminate]..]. destruct r as [|c r]; [split; exact Logic.I|]. cbn in *. tauto. }
  assert (SF : no_digit (f ++ e ++ r)) by (destruct F as [->|(ds & n & _ & ->)]; [exact (proj1 SE)|reflexivity]).
  assert (M : maybe ["-"]%string (g ++ i ++ f ++ e ++ r) = (g, (i ++ f ++ e ++ r)%string)).
  { destruct G as [->| ->]; [|reflexivity]. cbn [append]. destruct I as [->|(c & d & q & D & _ & _ & ->)]; [reflexivity|]. apply digit_of_digit in D. unfold maybe. cbn [append map strip_one strip].
    destruct (Ascii.eqb_spec "-" c) as [<-|]; [discriminate|reflexivity]. }
  rewrite M, (read_int_ok i _ I SF). cbn [bind]. rewrite read_fraction_ok; [|destruct F as [->|F]; [left; split; [reflexivity|tauto]|right; split; [exact F|tauto]]]. cbn [bind].
  rewrite read_exponent_ok; [reflexivity|]. destruct E as [->|E]; [left; split; [reflexivity|]; destruct r; cbn in *; tauto|right; split; [exact E|now apply stops_no_digit]].
Qed.

(** ** Strings *)

Lemma hex_value_some c d : hex_value c = Some d <-> hex_digit c d.
Proof.
  split.
  - destruct c as [[|] [|] [|] [|] [|] [|] [|] [|]]; intro H; vm_compute in H; try discriminate H; injection H as <-; (split; [lia|]); (left; reflexivity) || (right; reflexivity).
  - intros [B G]. assert (K : exists k, (k < 16)%nat /\ d = Z.of_nat k) by (exists (Z.to_nat d); lia). destruct K as (k & K & ->). rewrite Nat2Z.id in G. clear B.
    do 16 (destruct k as [|k]; [destruct G as [G|G]; injection G as <-; reflexivity|]). lia.
Qed.
Lemma hex4_some a b c d n : hex4 a b c d = Some n <-> hex_number (String a (String b (String c (String d "")))) n.
Proof.
  unfold hex4. split.
  - intro Q. apply bind_some in Q. destruct Q as (w & W & Q). apply bind_some in Q. destruct Q as (x & X & Q). apply bind_some in Q. destruct Q as (y & Y & Q).
    apply bind_some in Q. destruct Q as (z & Z' & Q). injection Q as <-. exists a, b, c, d, w, x, y, z. rewrite <- !hex_value_some. repeat split; try assumption. lia.
  - intros (a' & b' & c' & d' & w & x & y & z & E & W & X & Y & Z' & ->). injection E as <- <- <- <-. apply hex_value_some in W, X, Y, Z'. rewrite W, X, Y, Z'. cbn [bind]. f_equal. lia.
Qed.
Lemma simple_escape_some e v : simple_escape e = Some v <-> In (e, v) letter_escapes.
Proof.
  split.
  - destruct e as [[|] [|] [|] [|] [|] [|] [|] [|]]; intro H; vm_compute in H; try discriminate H; injection H as <-; vm_compute; tauto.
  - intro I. repeat (destruct I as [I|I]; [injection I as <- <-; reflexivity|]). destruct I.
Qed.
Lemma push_char_utf8 n : push_char n = str_of (utf8 n).
Proof. reflexivity. Qed.
Lemma prepend_some p o t r : prepend p o = Some (t, r) -> exists t', o = Some (t', r) /\ t = (p ++ t')%string.
Proof. unfold prepend. intro Q. apply bind_some in Q. destruct Q as ([t' r'] & -> & Q). apply some_pair in Q. destruct Q as [<- <-]. now exists t'. Qed.
Lemma not_surrogate n : is_low n = false -> is_high n = false -> 0 <= n <= 65535 -> scalar n.
Proof. unfold is_low, is_high, scalar. intros L H B. destruct (Z.leb_spec 0xDC00 n), (Z.leb_spec n 0xDFFF), (Z.leb_spec 0xD800 n), (Z.leb_spec n 0xDBFF); cbn in *; try discriminate; lia. Qed.
Lemma scalar_not n : scalar n -> is_low n = false /\ is_high n = false.
Proof. unfold is_low, is_high, scalar. intro S. destruct (Z.leb_spec 0xDC00 n), (Z.leb_spec n 0xDFFF), (Z.leb_spec 0xD800 n), (Z.leb_spec n 0xDBFF); cbn; auto; lia. Qed.
Lemma is_low_range n : is_low n = true <-> 56320 <= n <= 57343.
Proof. unfold is_low. rewrite andb_true_iff, !Z.leb_le. lia. Qed.
Lemma is_high_range n : is_high n = true <-> 55296 <= n <= 56319.
Proof. unfold is_high. rewrite andb_true_iff, !Z.leb_le. lia. Qed.
Lemma hex_number_range s n : hex_number s n -> 0 <= n <= 65535.
Proof. intros (a & b & c & d & w & x & y & z & _ & [W _] & [X _] & [Y _] & [Z' _] & ->). lia. Qed.
Lemma read_body_some n : forall s t r, (String.length s <= n)%nat -> read_body s = Some (t, r) -> exists b, s = (b ++ String "034" r)%string /\ spells b t.
Proof.
  induction n as [|n IH]; intros [|c s] t r L E; cbn [String.length] in L; try discriminate E; [lia|]. cbn [read_body] in E.
  change 34 with (code "034") in E. change 92 with (code "\") in E. rewrite !code_eqb in E.
  destruct (Ascii.eqb_spec c "034") as [->|N1]; [apply some_pair in E; destruct E as [<- <-]; exists ""%string; split; [reflexivity|constructor]|].
  destruct (Ascii.eqb_spec c "\") as [->|N2].
  - destruct s as [|e r1]; [discriminate|]. cbn [String.length] in L. change 117 with (code "u") in E. rewrite !code_eqb in E. destruct (Ascii.eqb_spec e "u") as [->|N3].
    + destruct r1 as [|a1 [|a2 [|a3 [|a4 r2]]]]; try discriminate E. cbn [String.length] in L. destruct (hex4 a1 a2 a3 a4) as [k|] eqn:H; [|discriminate].
      apply hex4_some in H. destruct (is_low k) eqn:Lo; [discriminate|]. destruct (is_high k) eqn:Hi.
      * destruct r2 as [|x [|y [|b1 [|b2 [|b3 [|b4 r3]]]]]]; try discriminate E. cbn [String.length] in L. rewrite !code_eqb in E.
        destruct (Ascii.eqb_spec x "\") as [->|]; [|discriminate]. destruct (Ascii.eqb_spec y "u") as [->|]; [|discriminate]. cbn [andb] in E.
        destruct (hex4 b1 b2 b3 b4) as [m|] eqn:H'; [|discriminate]. apply hex4_some in H'. destruct (is_low m) eqn:Lo'; [|discriminate].
        apply prepend_some in E. destruct E as (t' & E & ->). apply IH in E; [|lia]. destruct E as (b & -> & S). apply is_low_range in Lo'. apply is_high_range in Hi.
        exists ("\u" ++ String a1 (String a2 (String a3 (String a4 ""))) ++ "\u" ++ String b1 (String b2 (String b3 (String b4 ""))) ++ b)%string. split; [reflexivity|].
        rewrite push_char_utf8. replace (65536 + (k - 55296) * 1024 + (m - 56320)) with (65536 + 1024 * (k - 55296) + (m - 56320)) by lia. now apply sp_pair.
      * apply prepend_some in E. destruct E as (t' & E & ->). apply IH in E; [|lia]. destruct E as (b & -> & S).
        exists ("\u" ++ String a1 (String a2 (String a3 (String a4 ""))) ++ b)%string. split; [reflexivity|]. rewrite push_char_utf8. apply sp_code; [exact H| |exact S].
        apply not_surrogate; [assumption..|]. exact (hex_number_range _ _ H).
    + destruct (simple_escape e) as [v|] eqn:V; [|discriminate]. apply simple_escape_some in V. apply prepend_some in E. destruct E as (t' & E & ->). apply IH in E; [|lia].
      destruct E as (b & -> & S). exists (String "\" (String e b)). split; [reflexivity|]. now apply sp_letter.
  - destruct (Z.ltb_spec (code c) 32) as [|B]; [discriminate|]. apply prepend_some in E. destruct E as (t' & E & ->). apply IH in E; [|lia]. destruct E as (b & -> & S).
    exists (String c b). split; [reflexivity|]. apply sp_char; [|exact S]. split; [exact B|]. auto.
Qed.
Lemma read_body_ok b t r : spells b t -> read_body (b ++ String "034" r) = Some (t, r).
Proof.
  intro S. induction S as [|c b t (B & N1 & N2) S IH|e v b t I S IH|h n b t H SC S IH|h n h' n' b t H H' R R' S IH].
  - reflexivity.
  - cbn [append read_body]. change 34 with (code "034"). change 92 with (code "\"). rewrite !code_not by assumption. destruct (Z.ltb_spec (code c) 32); [lia|]. rewrite IH. reflexivity.
  - cbn [append read_body]. change (code "\" =? 34) with false. change (code "\" =? 92) with true. cbv beta iota. apply simple_escape_some in I.
    assert (E : (code e =? 117) = false).
    { destruct (Z.eqb_spec (code e) 117) as [E|]; [|reflexivity]. change 117 with (code "u") in E. apply code_is in E. subst e. discriminate I. }
    rewrite E, I, IH. reflexivity.
  - pose proof H as (a & b' & c & d & _ & _ & _ & _ & -> & _). apply hex4_some in H. destruct (scalar_not n SC) as [L Hi]. cbn [append read_body].
    change (code "\" =? 34) with false. change (code "\" =? 92) with true. change (code "u" =? 117) with true. cbv beta iota. rewrite H, L, Hi, IH, push_char_utf8. reflexivity.
  - pose proof H as (a & b' & c & d & _ & _ & _ & _ & -> & _). pose proof H' as (a2 & b2 & c2 & d2 & _ & _ & _ & _ & -> & _). apply hex4_some in H, H'. cbn [append read_body].
    change (code "\" =? 34) with false. change (code "\" =? 92) with true. change (code "u" =? 117) with true. cbv beta iota. rewrite H, H'.
    assert (L : is_low n = false) by (destruct (is_low n) eqn:Q; [apply is_low_range in Q; lia|reflexivity]). rewrite L, (proj2 (is_high_range n) R), (proj2 (is_low_range n') R').
    cbn [andb]. rewrite IH, push_char_utf8. cbn [prepend bind]. replace (65536 + (n - 55296) * 1024 + (n' - 56320)) with (65536 + 1024 * (n - 55296) + (n' - 56320)) by lia. reflexivity.
Qed.
Lemma read_string_some s t r : read_string s = Some (t, r) -> exists b, s = (b ++ String "034" r)%string /\ string_denotes b t.
Proof.
  unfold read_string. intro Q. apply bind_some in Q. destruct Q as ([t' r'] & E & Q). destruct (utf8_valid (bytes_of t')) eqn:U; [|discriminate]. apply some_pair in Q. destruct Q as [<- <-].
  apply (read_body_some _ _ _ _ (Nat.le_refl _)) in E. destruct E as (b & -> & S). exists b. split; [reflexivity|]. split; [exact S|]. now apply utf8_valid_text.
Qed.
Lemma read_string_ok b t r : string_denotes b t -> read_string (b ++ String "034" r) = Some (t, r).
Proof. intros [S U]. unfold read_string. rewrite (read_body_ok b t r S). cbn [bind]. apply utf8_valid_text in U. now rewrite U. Qed.

(** ** Values *)

Scheme denotes_m := Minimality for denotes Sort Prop with elements_m := Minimality for elements Sort Prop with members_m := Minimality for members Sort Prop.
Combined Scheme grammar_ind from denotes_m, elements_m, members_m.

Lemma digit_code c d : digit_of c = Some d -> code c = 48 + d /\ 0 <= d <= 9.
Proof.
  unfold digit_of, code. intro H. destruct (Z.leb_spec 48 (Z.of_nat (nat_of_ascii c))); cbn [andb] in H; [|discriminate].
  destruct (Z.leb_spec (Z.of_nat (nat_of_ascii c)) 57); [|discriminate]. injection H as <-. lia.
Qed.
Lemma number_start t : number t -> exists c q, t = String c q /\ (code c = 45 \/ 48 <= code c <= 57).
Proof.
  intros (g & i & f & e & -> & [->| ->] & I & _ & _); [|exists "-"%char; eexists; split; [reflexivity|left; reflexivity]]. cbn [append].
  destruct I as [->|(c & d & q & D & _ & _ & ->)]; [exists "0"%char; eexists; split; [reflexivity|right; unfold code; cbn; lia]|]. apply digit_of_digit, digit_code in D.
  exists c. eexists. split; [reflexivity|]. right. lia.
Qed.
Lemma blank_code c : is_blank c = true -> code c <= 32.
Proof. unfold is_blank. intro H. repeat (apply orb_true_iff in H; destruct H as [H|H]); apply Z.eqb_eq in H; lia. Qed.
Lemma not_blank c : 32 < code c -> is_blank c = false.
Proof. intro H. destruct (is_blank c) eqn:E; [|reflexivity]. apply blank_code in E. lia. Qed.
Lemma list_max_lt l n : (list_max l < n)%nat -> forall x, In x l -> (x < n)%nat.
Proof. intros H x I. assert (F : Forall (fun k => k <= list_max l)%nat l) by (apply list_max_le; lia). rewrite Forall_forall in F. specialize (F x I). lia. Qed.
Lemma list_max_le_all l n : (forall x, In x l -> (x < n)%nat) -> (0 < n)%nat -> (list_max l < n)%nat.
Proof. intros H P. assert (F : (list_max l <= pred n)%nat) by (apply list_max_le, Forall_forall; intros x I; specialize (H x I); lia). lia. Qed.
Lemma in_quotes_app t r : (in_quotes t ++ r)%string = String "034" (t ++ String "034" r)%string.
Proof. unfold in_quotes. cbn. now rewrite append_assoc. Qed.
Lemma in_quotes_length t : String.length (in_quotes t) = (2 + String.length t)%nat.
Proof. unfold in_quotes. cbn. rewrite append_length. cbn. lia. Qed.

Section Values.
  Variable representable : string -> bool.
  Let str := string_denotes.
  Let num := fun t => representable t = true.
  Notation read := (read_value representable).

  Lemma denotes_start t j : denotes str num t j -> exists c q, t = String c q /\ 32 < code c /\ c <> "]"%char /\ c <> "}"%char.
  Proof.
    intro D. destruct D; try (eexists; eexists; split; [reflexivity|]; split; [unfold code; cbn; lia|split; discriminate]).
    apply number_start in H. destruct H as (c & q & -> & H). exists c, q. split; [reflexivity|]. split; [lia|]. split; intros ->; unfold code in H; cbn in H; lia.
  Qed.
  Lemma elements_start t l : elements str num t l -> exists w c q, t = (w ++ String c q)%string /\ blank w /\ 32 < code c /\ c <> "]"%char.
  Proof.
    intro E. destruct E as [w t w' j B D B'|w t w' j r l B D B' E]; destruct (denotes_start _ _ D) as (c & q & -> & H & N & _); exists w, c; cbn [append]; eexists; (split; [reflexivity|auto]).
  Qed.
  Lemma members_start t l : members str num t l -> exists w q, t = (w ++ String "034" q)%string /\ blank w.
  Proof. intro E. destruct E; exists w; rewrite in_quotes_app; eexists; (split; [reflexivity|assumption]). Qed.

  Lemma read_blank fuel depth w s : blank w -> read fuel depth (w ++ s) = read fuel depth s.
  Proof. intro B. destruct fuel; [reflexivity|]. cbn. now rewrite skip_blanks_app. Qed.
  Lemma stops_blank w c r : blank w -> 32 < code c -> digit_of c = None /\ c <> "."%char /\ c <> "e"%char /\ c <> "E"%char -> stops (w ++ String c r).
  Proof.
    intros B _ S. destruct B as [|b w I B]; [exact S|]. cbn. destruct I as [<-|[<-|[<-|[<-|[]]]]]; repeat split; try reflexivity; discriminate.
  Qed.
  Lemma skip_to w c r : blank w -> is_blank c = false -> skip_blanks (w ++ String c r) = String c r.
  Proof. intros B N. rewrite skip_blanks_app by exact B. now apply skip_blanks_no. Qed.

  Lemma reads_all :
    (forall t j, denotes str num t j -> forall fuel depth r, (String.length t <= fuel)%nat -> (nesting j < depth)%nat -> stops r ->
       read fuel depth (t ++ r) = Some (j, r)) /\
    (forall t l, elements str num t l -> forall fuel depth r, (String.length t < fuel)%nat -> (forall j, In j l -> (nesting j < depth)%nat) ->
       read_elements representable fuel depth (t ++ "]" ++ r) = Some (l, r)) /\
    (forall t l, members str num t l -> forall fuel depth r, (String.length t < fuel)%nat -> (forall m, In m l -> (nesting (snd m) < depth)%nat) ->
       read_members representable fuel depth (t ++ "}" ++ r) = Some (l, r)).
  Proof.
    apply grammar_ind.
    - intros [|f] d r L N S; [cbn in L; lia|reflexivity].
    - intros [|f] d r L N S; [cbn in L; lia|reflexivity].
    - intros [|f] d r L N S; [cbn in L; lia|reflexivity].
    - intros t H R [|f] d r L N S; destruct (number_start t H) as (c & q & E & C); [rewrite E in L; cbn in L; lia|].
      pose proof (read_number_ok t r H S) as Q. rewrite E in Q |- *. cbn [append] in *. cbn [read_value]. rewrite skip_blanks_no by (apply not_blank; lia).
      repeat match goal with |- context [code c =? ?n] => destruct (Z.eqb_spec (code c) n); [lia|] end. rewrite Q. cbn [bind]. rewrite <- E. unfold num in R. now rewrite R.
    - intros t s H [|f] d r L N S; [cbn in L; lia|]. rewrite in_quotes_app. cbn [read_value]. rewrite skip_blanks_no by reflexivity.
      change (code "034" =? 110) with false. change (code "034" =? 116) with false. change (code "034" =? 102) with false. change (code "034" =? 34) with true. cbv beta iota.
      rewrite (read_string_ok t s r H). reflexivity.
    - intros w B [|f] [|[|d]] r L N S; cbn in L, N; try lia. cbn [append read_value]. rewrite skip_blanks_no by reflexivity. rewrite append_assoc.
      change (code "[" =? 110) with false. change (code "[" =? 116) with false. change (code "[" =? 102) with false. change (code "[" =? 34) with false. change (code "[" =? 91) with true. cbv beta iota.
      cbn [append]. rewrite skip_to by (assumption || reflexivity). rewrite (proj2 (strip_some "]" (String "]" r) r) eq_refl). reflexivity.
    - intros t l E IH [|f] [|[|d]] r L N S; cbn [nesting String.length append] in L, N; try lia. cbn [append read_value]. rewrite skip_blanks_no by reflexivity. rewrite append_assoc.
      change (code "[" =? 110) with false. change (code "[" =? 116) with false. change (code "[" =? 102) with false. change (code "[" =? 34) with false. change (code "[" =? 91) with true. cbv beta iota.
      rewrite append_length in L. cbn [String.length] in L.
      assert (NB : strip "]" (skip_blanks (t ++ "]" ++ r)) = None).
      { destruct (elements_start t l E) as (w & c & q & -> & B & C & NC). rewrite append_assoc. cbn [append]. rewrite skip_to by (exact B || (apply not_blank; exact C)).
        apply strip_not. intros x X. injection X as X _. now apply NC. }
      rewrite NB, IH; [reflexivity|lia|]. intros j I. apply (list_max_lt (map nesting l)); [lia|]. now apply in_map.
    - intros w B [|f] [|[|d]] r L N S; cbn in L, N; try lia. cbn [append read_value]. rewrite skip_blanks_no by reflexivity. rewrite append_assoc.
      change (code "{" =? 110) with false. change (code "{" =? 116) with false. change (code "{" =? 102) with false. change (code "{" =? 34) with false. change (code "{" =? 91) with false.
      change (code "{" =? 123) with true. cbv beta iota.
      cbn [append]. rewrite skip_to by (assumption || reflexivity). rewrite (proj2 (strip_some "}" (String "}" r) r) eq_refl). reflexivity.
    - intros t l E IH [|f] [|[|d]] r L N S; cbn [nesting String.length append] in L, N; try lia. cbn [append read_value]. rewrite skip_blanks_no by reflexivity. rewrite append_assoc.
      change (code "{" =? 110) with false. change (code "{" =? 116) with false. change (code "{" =? 102) with false. change (code "{" =? 34) with false. change (code "{" =? 91) with false.
      change (code "{" =? 123) with true. cbv beta iota.
      rewrite append_length in L. cbn [String.length] in L.
      assert (NB : strip "}" (skip_blanks (t ++ "}" ++ r)) = None).
      { destruct (members_start t l E) as (w & q & -> & B). rewrite append_assoc. cbn [append]. rewrite skip_to by (exact B || reflexivity). reflexivity. }
      rewrite NB, IH; [reflexivity|lia|]. intros m I. apply (list_max_lt (map (fun m => nesting (snd m)) l)); [lia|]. now apply (in_map (fun m => nesting (snd m))).
    - intros w t w' j B D IH B' [|f] d r L N; [lia|]. rewrite !append_length in L. cbn [read_elements]. rewrite !append_assoc, read_blank by exact B.
      rewrite (IH f d (w' ++ "]" ++ r)%string); [|lia|apply N; now left|apply stops_blank; [exact B'|unfold code; cbn; lia|repeat split; try reflexivity; discriminate]].
      cbn [bind]. cbn [append]. rewrite skip_to by (exact B' || reflexivity). reflexivity.
    - intros w t w' j q l B D IH B' E IH' [|f] d r L N; [lia|]. rewrite !append_length in L. cbn [String.length] in L. cbn [read_elements]. rewrite !append_assoc, read_blank by exact B.
      rewrite (IH f d (w' ++ "," ++ q ++ "]" ++ r)%string); [|lia|apply N; now left|apply stops_blank; [exact B'|unfold code; cbn; lia|repeat split; try reflexivity; discriminate]].
      cbn [bind]. cbn [append]. rewrite skip_to by (exact B' || reflexivity).
      change (strip_one [(","%string, true); ("]"%string, false)] (String "," (q ++ String "]" r))) with (Some (true, (q ++ String "]" r)%string)). cbv beta iota.
      cbn [append] in IH'. rewrite IH'; [reflexivity|lia|intros j' I; apply N; now right].
    - intros w k name w1 w2 t w' j B K B1 B2 D IH B' [|f] d r L N; [lia|]. rewrite !append_length, in_quotes_length in L. cbn [String.length] in L. cbn [read_members].
      rewrite !append_assoc, in_quotes_app. rewrite skip_to by (exact B || reflexivity). match goal with |- context [strip (String "034" "") (String "034" ?x)] => rewrite (proj2 (strip_some (String "034" "") (String "034" x) x) eq_refl) end. cbn [bind].
      rewrite (read_string_ok k name _ K). cbn [bind]. cbn [append]. rewrite skip_to by (exact B1 || reflexivity). match goal with |- context [strip ":" (String ":" ?x)] => rewrite (proj2 (strip_some ":" (String ":" x) x) eq_refl) end. cbn [bind].
      rewrite read_blank by exact B2.
      rewrite (IH f d (w' ++ String "}" r)%string); [|lia|apply (N (name, j)); now left|apply stops_blank; [exact B'|unfold code; cbn; lia|repeat split; try reflexivity; discriminate]].
      cbn [bind]. rewrite skip_to by (exact B' || reflexivity). reflexivity.
    - intros w k name w1 w2 t w' j q l B K B1 B2 D IH B' E IH' [|f] d r L N; [lia|]. rewrite !append_length, in_quotes_length in L. cbn [String.length] in L. cbn [read_members].
      rewrite !append_assoc, in_quotes_app. rewrite skip_to by (exact B || reflexivity). match goal with |- context [strip (String "034" "") (String "034" ?x)] => rewrite (proj2 (strip_some (String "034" "") (String "034" x) x) eq_refl) end. cbn [bind].
      rewrite (read_string_ok k name _ K). cbn [bind]. cbn [append]. rewrite skip_to by (exact B1 || reflexivity). match goal with |- context [strip ":" (String ":" ?x)] => rewrite (proj2 (strip_some ":" (String ":" x) x) eq_refl) end. cbn [bind].
      rewrite read_blank by exact B2.
      rewrite (IH f d (w' ++ String "," (q ++ String "}" r))%string); [|lia|apply (N (name, j)); now left|apply stops_blank; [exact B'|unfold code; cbn; lia|repeat split; try reflexivity; discriminate]].
      cbn [bind]. rewrite skip_to by (exact B' || reflexivity).
      change (strip_one [(","%string, true); ("}"%string, false)] (String "," (q ++ String "}" r))) with (Some (true, (q ++ String "}" r)%string)). cbv beta iota.
      cbn [append] in IH'. rewrite IH'; [reflexivity|lia|intros m I; apply N; now right].
  Qed.

  Lemma strip_one_some a b s x r : strip_one [(a, true); (b, false)]%string s = Some (x, r) -> s = ((if x then a else b) ++ r)%string.
  Proof.
    cbn [strip_one]. destruct (strip a s) as [q|] eqn:A; [intro Q; injection Q as <- <-; now apply strip_some|].
    destruct (strip b s) as [q|] eqn:B; [intro Q; injection Q as <- <-; now apply strip_some|discriminate].
  Qed.
  Lemma read_sound fuel :
    (forall depth s j r, (1 <= depth)%nat -> read fuel depth s = Some (j, r) -> exists w t, s = (w ++ t ++ r)%string /\ blank w /\ denotes str num t j /\ (nesting j < depth)%nat) /\
    (forall depth s l r, (1 <= depth)%nat -> read_elements representable fuel depth s = Some (l, r) ->
       exists t, s = (t ++ "]" ++ r)%string /\ elements str num t l /\ forall j, In j l -> (nesting j < depth)%nat) /\
    (forall depth s l r, (1 <= depth)%nat -> read_members representable fuel depth s = Some (l, r) ->
       exists t, s = (t ++ "}" ++ r)%string /\ members str num t l /\ forall m, In m l -> (nesting (snd m) < depth)%nat).
  Proof.
    induction fuel as [|f (IHv & IHe & IHm)]; [split; [|split]; intros d s x r _ Q; discriminate Q|]. split; [|split].
    - intros d s j r P Q. cbn [read_value read_elements read_members] in Q. fold (read_value representable) in Q. fold (read_elements representable) in Q. fold (read_members representable) in Q. destruct (skip_blanks_some s) as (w & B & E). destruct (skip_blanks s) as [|c q] eqn:K; [discriminate|].
      assert (D : exists t, String c q = (t ++ r)%string /\ denotes str num t j /\ (nesting j < d)%nat).
      { clear E B K w s.
        destruct (code c =? 110).
        { destruct (strip "null" (String c q)) as [r'|] eqn:E; [|discriminate]. cbn [bind] in Q. apply some_pair in Q. destruct Q as [<- <-]. apply strip_some in E. exists "null"%string. repeat split; [exact E|constructor|cbn; lia]. }
        destruct (code c =? 116).
        { destruct (strip "true" (String c q)) as [r'|] eqn:E; [|discriminate]. cbn [bind] in Q. apply some_pair in Q. destruct Q as [<- <-]. apply strip_some in E. exists "true"%string. repeat split; [exact E|constructor|cbn; lia]. }
        destruct (code c =? 102).
        { destruct (strip "false" (String c q)) as [r'|] eqn:E; [|discriminate]. cbn [bind] in Q. apply some_pair in Q. destruct Q as [<- <-]. apply strip_some in E. exists "false"%string. repeat split; [exact E|constructor|cbn; lia]. }
        destruct (code c =? 34) eqn:C.
        { change 34 with (code "034") in C. apply Z.eqb_eq, code_is in C. subst c. destruct (read_string q) as [[t r']|] eqn:E; [|discriminate]. cbn [bind] in Q. apply some_pair in Q. destruct Q as [<- <-].
          apply read_string_some in E. destruct E as (b & -> & S). exists (in_quotes b). rewrite in_quotes_app. repeat split; [now constructor|cbn; lia]. }
        clear C. destruct (code c =? 91) eqn:C.
        { change 91 with (code "[") in C. apply Z.eqb_eq, code_is in C. subst c. destruct d as [|[|d]]; try discriminate.
          destruct (strip "]" (skip_blanks q)) as [r'|] eqn:E.
          - apply some_pair in Q. destruct Q as [<- <-]. apply strip_some in E. destruct (skip_blanks_some q) as (w & B & K). rewrite E in K. subst q.
            exists ("[" ++ w ++ "]")%string. cbn [append]. rewrite !append_assoc. repeat split; [now constructor|cbn; lia].
          - destruct (read_elements representable f (S d) q) as [[l r']|] eqn:R; [|discriminate]. cbn [bind] in Q. apply some_pair in Q. destruct Q as [<- <-].
            apply IHe in R; [|lia]. destruct R as (t & -> & L & N). exists ("[" ++ t ++ "]")%string. cbn [append]. rewrite !append_assoc. repeat split; [now constructor|].
            cbn [nesting]. apply -> Nat.succ_lt_mono. apply list_max_le_all; [|lia]. intros x I. apply in_map_iff in I. destruct I as (j & <- & I). now apply N. }
        clear C. destruct (code c =? 123) eqn:C.
        { change 123 with (code "{") in C. apply Z.eqb_eq, code_is in C. subst c. destruct d as [|[|d]]; try discriminate.
          destruct (strip "}" (skip_blanks q)) as [r'|] eqn:E.
          - apply some_pair in Q. destruct Q as [<- <-]. apply strip_some in E. destruct (skip_blanks_some q) as (w & B & K). rewrite E in K. subst q.
            exists ("{" ++ w ++ "}")%string. cbn [append]. rewrite !append_assoc. repeat split; [now constructor|cbn; lia].
          - destruct (read_members representable f (S d) q) as [[l r']|] eqn:R; [|discriminate]. cbn [bind] in Q. apply some_pair in Q. destruct Q as [<- <-].
            apply IHm in R; [|lia]. destruct R as (t & -> & L & N). exists ("{" ++ t ++ "}")%string. cbn [append]. rewrite !append_assoc. repeat split; [now constructor|].
            cbn [nesting]. apply -> Nat.succ_lt_mono. apply list_max_le_all; [|lia]. intros x I. apply in_map_iff in I. destruct I as (j & <- & I). now apply N. }
        destruct (read_number (String c q)) as [[t r']|] eqn:E; [|discriminate]. cbn [bind] in Q. destruct (representable t) eqn:R; [|discriminate]. apply some_pair in Q. destruct Q as [<- <-].
        apply read_number_some in E. destruct E as [E N]. exists t. repeat split; [exact E|now constructor|cbn; lia]. }
      destruct D as (t & T & D & N). exists w, t. rewrite <- T. now repeat split.
    - intros d s l r P Q. cbn [read_value read_elements read_members] in Q. fold (read_value representable) in Q. fold (read_elements representable) in Q. fold (read_members representable) in Q. destruct (read f d s) as [[j s']|] eqn:R; [|discriminate]. cbn [bind] in Q. apply IHv in R; [|exact P]. destruct R as (w & t & -> & B & D & N).
      destruct (skip_blanks_some s') as (w' & B' & K). destruct (strip_one _ (skip_blanks s')) as [[[] r']|] eqn:O; [| |discriminate].
      + destruct (read_elements representable f d r') as [[l' r'']|] eqn:L; [|discriminate]. cbn [bind] in Q. apply some_pair in Q. destruct Q as [<- <-].
        apply strip_one_some in O. rewrite O in K. subst s'. apply IHe in L; [|exact P]. destruct L as (u & -> & L & M).
        exists (w ++ t ++ w' ++ "," ++ u)%string. rewrite !append_assoc. repeat split; [now constructor|]. intros x [<-|I]; [exact N|now apply M].
      + apply some_pair in Q. destruct Q as [<- <-]. apply strip_one_some in O. rewrite O in K. subst s'.
        exists (w ++ t ++ w')%string. rewrite !append_assoc. repeat split; [now constructor|]. intros x [<-|[]]. exact N.
    - intros d s l r P Q. cbn [read_value read_elements read_members] in Q. fold (read_value representable) in Q. fold (read_elements representable) in Q. fold (read_members representable) in Q. destruct (skip_blanks_some s) as (w & B & K). destruct (strip _ (skip_blanks s)) as [s1|] eqn:S1; [|discriminate]. apply strip_some in S1.
      rewrite S1 in K. subst s. clear S1. cbn [bind] in Q. destruct (read_string s1) as [[k s2]|] eqn:S2; [|discriminate]. apply read_string_some in S2. destruct S2 as (b & -> & S2). cbn [bind] in Q.
      destruct (skip_blanks_some s2) as (w1 & B1 & K). destruct (strip ":" (skip_blanks s2)) as [s3|] eqn:S3; [|discriminate]. apply strip_some in S3. rewrite S3 in K. subst s2. clear S3. cbn [bind] in Q.
      destruct (read f d s3) as [[j s']|] eqn:R; [|discriminate]. cbn [bind] in Q. apply IHv in R; [|exact P]. destruct R as (w2 & t & -> & B2 & D & N).
      destruct (skip_blanks_some s') as (w' & B' & K). destruct (strip_one _ (skip_blanks s')) as [[[] r']|] eqn:O; [| |discriminate].
      + destruct (read_members representable f d r') as [[l' r'']|] eqn:L; [|discriminate]. cbn [bind] in Q. apply some_pair in Q. destruct Q as [<- <-].
        apply strip_one_some in O. rewrite O in K. subst s'. apply IHm in L; [|exact P]. destruct L as (u & -> & L & M).
        exists (w ++ in_quotes b ++ w1 ++ ":" ++ w2 ++ t ++ w' ++ "," ++ u)%string. rewrite !append_assoc, in_quotes_app. repeat split; [now constructor|]. intros x [<-|I]; [exact N|now apply M].
      + apply some_pair in Q. destruct Q as [<- <-]. apply strip_one_some in O. rewrite O in K. subst s'.
        exists (w ++ in_quotes b ++ w1 ++ ":" ++ w2 ++ t ++ w')%string. rewrite !append_assoc, in_quotes_app. repeat split; [now constructor|]. intros x [<-|[]]. exact N.
  Qed.

  Lemma read_json_exact text j : read_json representable text = Some j <-> json_text_of representable text j /\ (nesting j <= 127)%nat.
  Proof.
    unfold read_json. split.
    - intro H. destruct (read_value representable (String.length text) 128 text) as [[j' r]|] eqn:R; [|discriminate]. cbn [bind] in H.
      destruct (skip_blanks_some r) as (w' & B' & K). destruct (skip_blanks r); [|discriminate]. injection H as <-. rewrite append_nil in K. subst w'.
      apply (proj1 (read_sound _)) in R; [|apply Nat.leb_le; reflexivity]. destruct R as (w & t & E & B & D & N). split; [|now apply Nat.lt_succ_r].
      exists w, t, r. repeat split; assumption.
    - intros [(w & t & w' & -> & B & D & B') N]. rewrite read_blank by exact B. rewrite (proj1 reads_all t j D).
      + cbn [bind]. now rewrite skip_blanks_blank.
      + rewrite !append_length. lia.
      + now apply Nat.lt_succ_r.
      + destruct B' as [|c w' I B']; [exact Logic.I|]. destruct I as [<-|[<-|[<-|[<-|[]]]]]; repeat split; try reflexivity; discriminate.
  Qed.
End Values.

(** ** Forms *)

Lemma spells_form t s : spells t s -> string_form t.
Proof.
  intro S. induction S; [constructor|now constructor|now apply (sf_letter e v)|now apply (sf_code h n)|].
  apply (sf_code h n); [assumption|]. now apply (sf_code h' n').
Qed.
Lemma grammar_mono (str str' : string -> string -> Prop) (num num' : string -> Prop) : (forall t s, str t s -> str' t s) -> (forall t, num t -> num' t) ->
  (forall t j, denotes str num t j -> denotes str' num' t j) /\ (forall t l, elements str num t l -> elements str' num' t l) /\
  (forall t l, members str num t l -> members str' num' t l).
Proof. intros HS HN. apply grammar_ind; intros; constructor; auto. Qed.
Lemma text_form representable text j : json_text_of representable text j -> json_form text.
Proof.
  intros (w & t & w' & -> & B & D & B'). exists j, w, t, w'. repeat split; try assumption. revert D. apply grammar_mono; [|auto]. intros x s [S _]. exact (spells_form x s S).
Qed.
Lemma read_json_refuses representable text : ~ json_form text -> read_json representable text = None.
Proof. intro N. destruct (read_json representable text) as [j|] eqn:R; [|reflexivity]. exfalso. apply N. apply read_json_exact in R. exact (text_form _ _ _ (proj1 R)). Qed.
Lemma one_value representable text j j' : json_text_of representable text j -> json_text_of representable text j' -> j = j'.
Proof.
  assert (R : forall j n, json_text_of representable text j -> (nesting j < n)%nat -> exists r, read_value representable (String.length text) n text = Some (j, r)).
  { intros i n (w & t & w' & -> & B & D & B') N. exists w'. rewrite read_blank by exact B. apply (proj1 (reads_all representable)); [exact D|rewrite !append_length; lia|exact N|].
    destruct B' as [|c w' I B']; [exact Logic.I|]. destruct I as [<-|[<-|[<-|[<-|[]]]]]; repeat split; try reflexivity; discriminate. }
  intros D D'. destruct (R j (S (nesting j + nesting j')) D ltac:(lia)) as [r E]. destruct (R j' (S (nesting j + nesting j')) D' ltac:(lia)) as [r' E']. congruence.
Qed.

(** ** Writing *)

Lemma bytes_range c : 0 <= code c < 256.
Proof. unfold code. pose proof (nat_ascii_bounded c). lia. Qed.
Lemma escape_hex c : hex4 "0" "0" (ServiceModel.hex_digit (Nat.div (nat_of_ascii c) 16)) (ServiceModel.hex_digit (Nat.modulo (nat_of_ascii c) 16)) = Some (code c).
Proof. destruct c as [[] [] [] [] [] [] [] []]; vm_compute; reflexivity. Qed.
Lemma str_of_code c : str_of [code c] = String c "".
Proof. unfold str_of, code. cbn [map string_of_list_ascii]. now rewrite Nat2Z.id, ascii_nat_embedding. Qed.
Lemma escape_spell c t s : spells t s -> spells (escape_char c ++ t) (String c s).
Proof.
  intro S. unfold escape_char.
  repeat match goal with |- context [Nat.eqb (nat_of_ascii c) ?n] =>
    destruct (Nat.eqb_spec (nat_of_ascii c) n) as [E|];
    [apply (f_equal ascii_of_nat) in E; rewrite ascii_nat_embedding in E; vm_compute in E; subst c; cbn [append]; apply sp_letter; [|exact S]; unfold letter_escapes; cbn [In]; tauto|] end.
  destruct (Nat.ltb_spec (nat_of_ascii c) 32) as [L|L].
  - pose proof (sp_code _ _ t s (proj1 (hex4_some _ _ _ _ _) (escape_hex c))) as P. assert (C : 0 <= code c < 32) by (unfold code; lia).
    assert (U : utf8 (code c) = [code c]) by (unfold utf8; destruct (Z.ltb_spec (code c) 128); [reflexivity|lia]). rewrite U, str_of_code in P. cbn [append] in P |- *. apply P; [left; lia|exact S].
  - cbn [append]. apply sp_char; [|exact S]. split; [unfold code; lia|]. split; intros ->; vm_compute in n; vm_compute in n0; congruence.
Qed.
Lemma escape_spells s : spells (escape s) s.
Proof. induction s as [|c s IH]; [constructor|]. cbn [escape]. now apply escape_spell. Qed.
Lemma quoted_is s : quoted s = in_quotes (escape s).
Proof. reflexivity. Qed.

Section Write.
  Variable representable : string -> bool.
  Notation den := (denotes string_denotes (fun t => representable t = true)).
  Lemma commas_elements l : l <> [] -> (forall j, In j l -> den (json_text j) j) -> elements string_denotes (fun t => representable t = true) (commas (map json_text l)) l.
  Proof.
    induction l as [|j l IH]; [easy|]. intros _ H. destruct l as [|k l].
    - cbn [map commas]. pose proof (e_one string_denotes (fun t => representable t = true) "" (json_text j) "" j b_none (H j (or_introl eq_refl)) b_none) as P. cbn [append] in P. now rewrite append_nil in P.
    - assert (R : elements string_denotes (fun t => representable t = true) (commas (map json_text (k :: l))) (k :: l)) by (apply IH; [discriminate|intros x I; apply H; now right]).
      exact (e_more string_denotes (fun t => representable t = true) "" (json_text j) "" j _ (k :: l) b_none (H j (or_introl eq_refl)) b_none R).
  Qed.
  Let member_text (m : string * json) : string := (quoted (fst m) ++ ":" ++ json_text (snd m))%string.
  Lemma commas_members l : l <> [] -> (forall m, In m l -> is_text (bytes_of (fst m)) /\ den (json_text (snd m)) (snd m)) ->
    members string_denotes (fun t => representable t = true) (commas (map member_text l)) l.
  Proof.
    induction l as [|[k j] l IH]; [easy|]. intros _ H. destruct (H (k, j) (or_introl eq_refl)) as [K D]. cbn [fst snd] in K, D.
    assert (S : string_denotes (escape k) k) by (split; [apply escape_spells|exact K]). destruct l as [|m l].
    - cbn [map commas]. unfold member_text. cbn [fst snd]. rewrite quoted_is.
      pose proof (m_one string_denotes (fun t => representable t = true) "" (escape k) k "" "" (json_text j) "" j b_none S b_none b_none D b_none) as P. cbn [append] in P. now rewrite append_nil in P.
    - assert (R : members string_denotes (fun t => representable t = true) (commas (map member_text (m :: l))) (m :: l)) by (apply IH; [discriminate|intros x I; apply H; now right]).
      pose proof (m_more string_denotes (fun t => representable t = true) "" (escape k) k "" "" (json_text j) "" j _ (m :: l) b_none S b_none b_none D b_none R) as P.
      change (commas (map member_text ((k, j) :: m :: l))) with (member_text (k, j) ++ "," ++ commas (map member_text (m :: l)))%string. unfold member_text at 1. cbn [fst snd].
      rewrite quoted_is, !append_assoc. exact P.
  Qed.
  Lemma written n : forall j, (nesting j <= n)%nat -> writable representable j -> den (json_text j) j.
  Proof.
    induction n as [|n IH]; intros j N W; destruct W as [|b|t T R|s T|l F|ms F]; cbn [json_text].
    1, 7: constructor. 1, 6: destruct b; constructor. 1, 5: now constructor. 1, 4: rewrite quoted_is; apply d_string; split; [apply escape_spells|exact T].
    1, 2: cbn [nesting] in N; lia.
    - destruct l as [|j l]; [exact (d_empty_array _ _ "" b_none)|]. apply d_array, commas_elements; [discriminate|]. intros x I. apply IH.
      + cbn [nesting] in N. apply Nat.lt_succ_r. apply (list_max_lt (map nesting (j :: l))); [lia|now apply in_map].
      + rewrite Forall_forall in F. now apply F.
    - destruct ms as [|m ms]; [exact (d_empty_object _ _ "" b_none)|]. apply d_object. apply (commas_members (m :: ms)); [discriminate|]. intros x I. rewrite Forall_forall in F. destruct (F x I) as [T Wx].
      split; [exact T|]. apply IH; [|exact Wx].
      cbn [nesting] in N. apply Nat.lt_succ_r. apply (list_max_lt (map (fun m => nesting (snd m)) (m :: ms))); [lia|]. now apply (in_map (fun m => nesting (snd m))).
  Qed.
  Lemma written_text j : writable representable j -> json_text_of representable (json_text j) j.
  Proof. intro W. exists ""%string, (json_text j), ""%string. rewrite append_nil. repeat split; [constructor|exact (written _ _ (le_n _) W)|constructor]. Qed.


  (** ** Requests *)

  Lemma has_first k v ms : (forall m, In m ms -> fst m <> k) -> has_member ((k, v) :: ms) k v.
  Proof. intro H. exists [], ms. split; [reflexivity|exact H]. Qed.
  Lemma has_later m k v ms : fst m <> k -> has_member ms k v -> has_member (m :: ms) k v.
  Proof.
    intros N (e & l & -> & H). exists (m :: e), l. split; [reflexivity|]. intros x [<-|I]; [exact N|now apply H].
  Qed.
  Lemma c81_request_proof rq : Forall (fun s => is_text (bytes_of s)) (rq_collections rq) -> text_of_optional (rq_horizon rq) -> text_of_optional (rq_ref rq) -> text_of_optional (rq_var rq) ->
    exists ms, json_text_of representable (request_body rq) (JObject ms) /\ has_member ms "collections" (JArray (map JString (rq_collections rq))) /\
      has_member ms "forecast:perturbed" (JBool (rq_perturbed rq)) /\ may_have ms "forecast:horizon" (rq_horizon rq) /\
      may_have ms "forecast:reference_datetime" (rq_ref rq) /\ may_have ms "forecast:variable" (rq_var rq) /\
      (forall m, In m ms -> In (fst m) ["collections"; "forecast:perturbed"; "forecast:horizon"; "forecast:reference_datetime"; "forecast:variable"]%string).
  Proof.
    destruct rq as [cs ref hor var per]. cbn [rq_collections rq_horizon rq_ref rq_var rq_perturbed]. intros HC HH HR HV. eexists. split; [apply written_text|].
    - cbn [rq_collections rq_horizon rq_ref rq_var rq_perturbed]. apply w_object. repeat (rewrite Forall_app; split).
      + constructor; [|constructor]. split; [apply utf8_valid_text; vm_compute; reflexivity|]. apply w_array. rewrite Forall_map. revert HC. apply Forall_impl. intros s T. now constructor.
      + destruct hor; constructor; [|constructor]. split; [apply utf8_valid_text; vm_compute; reflexivity|now constructor].
      + constructor; [|constructor]. split; [apply utf8_valid_text; vm_compute; reflexivity|constructor].
      + destruct ref; constructor; [|constructor]. split; [apply utf8_valid_text; vm_compute; reflexivity|now constructor].
      + destruct var; constructor; [|constructor]. split; [apply utf8_valid_text; vm_compute; reflexivity|now constructor].
    - cbn [rq_collections rq_horizon rq_ref rq_var rq_perturbed]. unfold may_have.
      destruct hor, ref, var; cbn [optional app]; repeat split;
        try (repeat first [apply has_first; intros m [<-|[<-|[<-|[<-|[]]]]]; discriminate | apply has_first; intros m [<-|[<-|[<-|[]]]]; discriminate
                          | apply has_first; intros m [<-|[<-|[]]]; discriminate | apply has_first; intros m [<-|[]]; discriminate | apply has_first; intros m []
                          | apply has_later; [discriminate|] ]);
        intros m I; repeat (destruct I as [<-|I]; [first [discriminate|cbn [fst In]; tauto]|]); destruct I.
  Qed.
End Write.

(** ** Answers *)

Section Answers.
  Variables (representable : string -> bool) (te : text_servers).
  Lemma parsed_spec p o : parsed representable p o <-> exists a, p a /\
    o = match a with Ok text => match read_json representable text with Some j => Ok j | None => Err EInvalid end | Err e => Err e | Panic => Panic end.
  Proof.
    unfold parsed, r_bind, r_of. split.
    - intros (a & A & H). exists a. split; [exact A|]. destruct a; exact H.
    - intros (a & A & H). exists a. split; [exact A|]. destruct a; exact H.
  Qed.
  Lemma decoded_text {A} (says : json -> A -> Prop) p o :
    (exists answer, parsed representable p answer /\ decoded says answer o) -> exists answer, p answer /\ answer_decoded representable says answer o.
  Proof.
    intros (answer & P & D). apply parsed_spec in P. destruct P as (a & H & E). exists a. split; [exact H|]. destruct a as [text|e|]; subst answer; try exact D. split.
    - intros j J N. rewrite (proj2 (read_json_exact representable text j) (conj J N)) in D. exact D.
    - intro N. rewrite read_json_refuses in D by exact N. exact D.
  Qed.
  Lemma text_decoded {A} (says : json -> A -> Prop) (p : result string) text j o : p (Ok text) -> json_text_of representable text j -> (nesting j <= 127)%nat -> decoded says (Ok j) o ->
    exists answer, parsed representable p answer /\ decoded says answer o.
  Proof.
    intros P J N D. exists (Ok j). split; [|exact D]. apply parsed_spec. exists (Ok text). split; [exact P|]. now rewrite (proj2 (read_json_exact representable text j) (conj J N)).
  Qed.
  Lemma c81_search_proof rq o : sv_search (swiss_service (json_servers representable te)) rq o ->
    exists answer, te_post te SEARCH_URL (request_body rq) answer /\ answer_decoded representable lists answer o.
  Proof. intro H. apply c67_search_proof in H. exact (decoded_text lists _ _ H). Qed.
  Lemma c81_search_any_proof rq text j o : te_post te SEARCH_URL (request_body rq) (Ok text) -> json_text_of representable text j -> (nesting j <= 127)%nat -> decoded lists (Ok j) o ->
    sv_search (swiss_service (json_servers representable te)) rq o.
  Proof. intros P J N D. apply c67_search_proof. exact (text_decoded lists _ text j o P J N D). Qed.
  Lemma c81_assets_proof o : sv_assets (swiss_service (json_servers representable te)) o ->
    exists answer, te_get te ASSETS_URL answer /\ answer_decoded representable lists_assets answer o.
  Proof. intro H. apply c67_assets_proof in H. exact (decoded_text lists_assets _ _ H). Qed.
  Lemma c81_assets_any_proof text j o : te_get te ASSETS_URL (Ok text) -> json_text_of representable text j -> (nesting j <= 127)%nat -> decoded lists_assets (Ok j) o ->
    sv_assets (swiss_service (json_servers representable te)) o.
  Proof. intros P J N D. apply c67_assets_proof. exact (text_decoded lists_assets _ text j o P J N D). Qed.
End Answers.
