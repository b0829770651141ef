(** Proofs of the property about the texts of points in time (C80). *)
From Coq Require Import Ascii String ZArith List Bool Lia.
From Verif Require Import Base Text TextFacts TextSpec TextSpecProofs ForecastModel ForecastSpec SwissModel SwissSpec SwissProofs RfcModel RfcSpec.
Import ListNotations.
Open Scope Z_scope.

(** ** Pieces *)

Lemma bind_some {A B} (o : option A) (k : A -> option B) b : bind o k = Some b <-> exists a, o = Some a /\ k a = Some b.
Proof. destruct o as [a|]; cbn; split; [now exists a|intros (x & E & K); now injection E as <-|discriminate|now intros (x & E & _)]. Qed.
Lemma some_pair {A B} (a a' : A) (b b' : B) : Some (a, b) = Some (a', b') -> a = a' /\ b = b'.
Proof. intro E. now injection E. Qed.
Lemma strip_some p : forall s r, strip p s = Some r <-> s = (p ++ r)%string.
Proof.
  induction p as [|c p IH]; intros s r; cbn; [split; [intro E; now injection E|now intros ->]|]. destruct s as [|d s]; [easy|].
  destruct (Ascii.eqb c d) eqn:E; [apply Ascii.eqb_eq in E; subst d; rewrite IH; split; [now intros ->|intro Q; now injection Q]|].
  split; [discriminate|]. intro Q. injection Q as <- _. rewrite Ascii.eqb_refl in E. discriminate.
Qed.
Lemma strip_one_some {A} (l : list (string * A)) s a r : strip_one l s = Some (a, r) -> exists p, In (p, a) l /\ s = (p ++ r)%string.
Proof.
  induction l as [|[p b] l IH]; cbn; [discriminate|]. destruct (strip p s) as [q|] eqn:E.
  - intro Q. injection Q as <- <-. exists p. split; [now left|now apply strip_some].
  - intro Q. destruct (IH Q) as (p' & I & ->). exists p'. split; [now right|reflexivity].
Qed.
Lemma scan_number_some k : forall acc s n r,
  scan_number k acc s = Some (n, r) <-> exists t, s = (t ++ r)%string /\ String.length t = k /\ digits_value acc t = Some n.
Proof.
  induction k as [|k IH]; intros acc s n r; cbn.
  - split; [intro E; injection E as <- <-; now exists ""%string|]. intros (t & -> & L & V). destruct t; [|discriminate L]. cbn in *. congruence.
  - destruct s as [|c s]; [split; [discriminate|]; intros (t & E & L & _); destruct t; discriminate|].
    destruct (digit_of c) as [d|] eqn:D.
    + rewrite IH. split.
      * intros (t & -> & L & V). exists (String c t). cbn. rewrite D, L. auto.
      * intros (t & E & L & V). destruct t as [|c' t]; [discriminate|]. injection E as <- ->. cbn in V. rewrite D in V. exists t. auto.
    + split; [discriminate|]. intros (t & E & L & V). destruct t as [|c' t]; [discriminate|]. injection E as <- ->. cbn in V. now rewrite D in V.
Qed.
Lemma scan_written k s n r : (0 < k)%nat -> scan_number k 0 s = Some (n, r) <-> exists t, s = (t ++ r)%string /\ written k t n.
Proof.
  intro K. rewrite scan_number_some. unfold written. split; intros (t & -> & L & V); exists t; (split; [reflexivity|]).
  - split; [|exact L]. apply numeral_spec. split; [destruct t; cbn in *; [lia|discriminate]|exact V].
  - apply numeral_spec in L. tauto.
Qed.
Lemma checked_some lo hi n m : checked lo hi n = Some m <-> m = n /\ lo <= n <= hi.
Proof.
  unfold checked. destruct (Z.leb_spec lo n); cbn; [destruct (Z.leb_spec n hi)|]; split; try discriminate; try lia; intro E; try (injection E as <-; lia).
  destruct E as [-> _]. reflexivity.
Qed.
Lemma written_range k t n : written k t n -> 0 <= n < 10 ^ Z.of_nat k.
Proof. intros [N <-]. apply numeral_spec in N. destruct (digits_value_shift _ _ _ (proj2 N)) as (v & _ & -> & B). lia. Qed.

(** ** Fractions *)

Definition no_digit (s : string) : Prop := match s with String c _ => digit_of c = None | EmptyString => True end.
Lemma digits_value_any ds : forall acc v acc', digits_value acc ds = Some v -> exists w, digits_value acc' ds = Some w.
Proof.
  induction ds as [|e ds IH]; intros acc v acc' V; cbn in *; [now eexists|]. destruct (digit_of e); [|discriminate]. exact (IH _ _ _ V).
Qed.
Lemma span s : exists ds r v, s = (ds ++ r)%string /\ digits_value 0 ds = Some v /\ no_digit r.
Proof.
  induction s as [|c s (ds & r & v & -> & V & N)]; [now exists ""%string, ""%string, 0|].
  destruct (digit_of c) as [d|] eqn:D.
  - assert (X : exists w, digits_value 0 (String c ds) = Some w).
    { cbn. rewrite D. exact (digits_value_any _ _ _ _ V). }
    destruct X as [w W]. exists (String c ds), r, w. auto.
  - exists ""%string, (String c (ds ++ r)), 0. auto.
Qed.
Lemma skip_digits_ok ds : forall acc v r, digits_value acc ds = Some v -> no_digit r -> skip_digits (ds ++ r) = r.
Proof.
  induction ds as [|c ds IH]; intros acc v r V N; cbn in *.
  - destruct r as [|c r]; [reflexivity|]. cbn in *. now rewrite N.
  - destruct (digit_of c); [|discriminate]. exact (IH _ _ _ V N).
Qed.
Lemma scan_up_to_ok k : forall acc n ds v r, digits_value acc ds = Some v -> no_digit r -> exists d1 d2 w, ds = (d1 ++ d2)%string /\
  String.length d1 = Nat.min k (String.length ds) /\ digits_value acc d1 = Some w /\ digits_value w d2 = Some v /\
  scan_up_to k acc n (ds ++ r) = (w, (n + String.length d1)%nat, (d2 ++ r)%string).
Proof.
  induction k as [|k IH]; intros acc n ds v r V N.
  - exists ""%string, ds, acc. cbn. rewrite Nat.add_0_r. destruct (ds ++ r)%string; auto.
  - destruct ds as [|c ds].
    + exists ""%string, ""%string, acc. cbn in *. rewrite Nat.add_0_r. destruct r as [|c r]; [auto|]. cbn in N. rewrite N. auto.
    + cbn in V. cbn [append scan_up_to]. destruct (digit_of c) as [d|] eqn:D; [|discriminate].
      destruct (IH (acc * 10 + d) (S n) ds v r V N) as (d1 & d2 & w & -> & L & W & W2 & E). exists (String c d1), d2, w.
      cbn. rewrite D, E, L. split; [reflexivity|]. split; [reflexivity|]. split; [exact W|]. split; [exact W2|]. f_equal. f_equal. lia.
Qed.
Lemma scan_nanosecond_ok ds r v : numeral ds v -> no_digit r ->
  scan_nanosecond (ds ++ r) = Some (v * 10 ^ 9 / 10 ^ Z.of_nat (String.length ds), r).
Proof.
  intros N D. apply numeral_spec in N. destruct N as [NE V]. unfold scan_nanosecond.
  destruct (scan_up_to_ok 9 0 0 ds v r V D) as (d1 & d2 & w & Q & L & W & W2 & E). rewrite E. cbn [plus].
  destruct (String.length d1) as [|k] eqn:K; [destruct ds; [contradiction|cbn in L; lia]|].
  rewrite (skip_digits_ok _ _ _ _ W2 D). f_equal. f_equal. destruct (digits_value_shift _ _ _ W2) as (x & _ & -> & B).
  rewrite Q, append_length, K in *. clear E. rewrite Nat2Z.inj_add. set (n := Z.of_nat (String.length d2)) in *.
  destruct (Nat.le_gt_cases 9 (S k)) as [H|H].
  - assert (S k = 9%nat) by lia. rewrite H0. change (Z.of_nat 9) with 9. rewrite Z.pow_add_r, Z.sub_diag by lia. rewrite Z.mul_comm with (n := 10 ^ 9) (m := 10 ^ n).
    rewrite Z.div_mul_cancel_r by lia. rewrite Z.mul_1_r, Z.div_add_l, (Z.div_small x) by lia. lia.
  - assert (String.length d2 = 0%nat) by lia. subst n. rewrite H0 in *. cbn [Z.of_nat] in *. rewrite Z.add_0_r. assert (x = 0) by lia. subst x.
    rewrite Z.mul_1_r, Z.add_0_r. replace (10 ^ 9) with (10 ^ (9 - Z.of_nat (S k)) * 10 ^ Z.of_nat (S k)) by (rewrite <- Z.pow_add_r by lia; f_equal; lia).
    rewrite Z.mul_assoc, Z.div_mul by lia. reflexivity.
Qed.
Lemma scan_nanosecond_some s n r : scan_nanosecond s = Some (n, r) ->
  exists ds v, s = (ds ++ r)%string /\ numeral ds v /\ n = v * 10 ^ 9 / 10 ^ Z.of_nat (String.length ds).
Proof.
  destruct (span s) as (ds & q & v & -> & V & N). intro E. destruct ds as [|c ds].
  - exfalso. unfold scan_nanosecond in E. destruct (scan_up_to_ok 9 0 0 "" v q V N) as (d1 & d2 & w & _ & L & _ & _ & X). cbn in L. rewrite X, L in E. discriminate.
  - assert (M : numeral (String c ds) v) by (apply numeral_spec; split; [discriminate|exact V]).
    rewrite (scan_nanosecond_ok _ q v M N) in E. injection E as <- <-. exists (String c ds), v. auto.
Qed.
Lemma fraction_range s n : fraction s n -> 0 <= n < 10 ^ 9.
Proof.
  intros [[_ ->]|(ds & v & _ & N & ->)]; [lia|]. apply numeral_spec in N. destruct (digits_value_shift _ _ _ (proj2 N)) as (x & _ & -> & B).
  set (p := 10 ^ Z.of_nat (String.length ds)) in *. split; [apply Z.div_pos; lia|]. apply Z.div_lt_upper_bound; nia.
Qed.

(** ** Offsets *)

Lemma zone_start z offset r : zone z offset -> no_digit (z ++ r) /\ strip "." (z ++ r) = None.
Proof.
  intros [[[->| ->] _]|(sg & g & hh & h & mm & m & G & _ & _ & _ & _ & -> & _)]; [split; reflexivity..|].
  destruct G as [[-> _]|[[-> _]|[-> _]]]; split; reflexivity.
Qed.
Lemma scan_offset_some s offset r : scan_offset s = Some (offset, r) -> -86340 <= offset <= 86340 -> exists z, s = (z ++ r)%string /\ zone z offset.
Proof.
  unfold scan_offset. destruct (strip_one [("Z"%string, tt); ("z"%string, tt)] s) as [[u q]|] eqn:E.
  - intros Q _. injection Q as <- <-. apply strip_one_some in E. destruct E as (p & [I|[I|[]]] & ->); injection I as <-; eexists; (split; [reflexivity|left; auto]).
  - intros Q B. apply bind_some in Q. destruct Q as ([ng s1] & Q1 & Q). apply bind_some in Q. destruct Q as ([h s2] & Q2 & Q).
    apply bind_some in Q. destruct Q as (s3 & Q3 & Q). apply bind_some in Q. destruct Q as ([m s4] & Q4 & Q). apply bind_some in Q. destruct Q as (m' & Q5 & Q).
    injection Q as <- <-. apply strip_one_some in Q1. destruct Q1 as (sg & I & ->). apply scan_written in Q2; [|lia]. destruct Q2 as (hh & -> & H).
    apply strip_some in Q3. subst s2. apply scan_written in Q4; [|lia]. destruct Q4 as (mm & -> & M). apply checked_some in Q5. destruct Q5 as [-> RM].
    exists (sg ++ hh ++ ":" ++ mm)%string. split; [rewrite !append_assoc; reflexivity|]. right. pose proof (written_range _ _ _ H) as RH. cbn in RH.
    assert (exists g, sign sg g /\ (if ng then - (h * 3600 + m * 60) else h * 3600 + m * 60) = g * (3600 * h + 60 * m)) as (g & G & GE).
    { destruct I as [I|[I|[I|[]]]]; injection I as <- <-; [exists 1|exists (-1)..]; (split; [unfold sign; auto|lia]). }
    exists sg, g, hh, h, mm, m. split; [exact G|]. split; [exact H|]. split; [destruct ng; lia|]. split; [exact M|]. split; [lia|]. split; [reflexivity|exact GE].
Qed.
Lemma scan_offset_ok z offset r : zone z offset -> scan_offset (z ++ r) = Some (offset, r) /\ -86340 <= offset <= 86340.
Proof.
  intros [[[->| ->] ->]|(sg & g & hh & h & mm & m & G & H & RH & M & RM & -> & ->)]; [split; [reflexivity|lia]..|].
  pose proof (written_range _ _ _ H) as H0. pose proof (written_range _ _ _ M) as M0. cbn in H0, M0.
  assert (X : exists ng, strip_one [("Z"%string, tt); ("z"%string, tt)] ((sg ++ hh ++ ":" ++ mm) ++ r) = None /\
    strip_one SIGNS ((sg ++ hh ++ ":" ++ mm) ++ r) = Some (ng, (hh ++ ":" ++ mm ++ r)%string) /\ (if ng then -1 else 1) = g).
  { destruct G as [[-> ->]|[[-> ->]|[-> ->]]]; [exists false|exists true..]; cbn; rewrite !append_assoc; auto. }
  destruct X as (ng & E1 & E2 & E3). unfold scan_offset. rewrite E1, E2. cbn [bind].
  rewrite (proj2 (scan_written 2 (hh ++ ":" ++ mm ++ r) h (":" ++ mm ++ r) ltac:(lia))) by (exists hh; auto). cbn [bind].
  rewrite (proj2 (strip_some ":" (":" ++ mm ++ r) (mm ++ r)) eq_refl). cbn [bind].
  rewrite (proj2 (scan_written 2 (mm ++ r) m r ltac:(lia))) by (exists mm; auto). cbn [bind].
  rewrite (proj2 (checked_some 0 59 m m)) by lia. cbn [bind]. split; [f_equal; f_equal; destruct ng; lia|destruct ng; lia].
Qed.

(** ** The whole text *)

Lemma days_pos y m : days_in_month y m <= 31.
Proof. unfold days_in_month. repeat (destruct (_ : bool)); lia. Qed.

Theorem c80_reads_proof s t offset : parse_rfc3339 s = Some (t, offset) <-> time_written s t offset.
Proof.
  unfold parse_rfc3339. split.
  - intro Q. apply bind_some in Q. destruct Q as ([y s1] & Q1 & Q). apply scan_written in Q1; [|lia]. destruct Q1 as (ty & -> & Y).
    apply bind_some in Q. destruct Q as (s2 & Q2 & Q). apply strip_some in Q2. subst s1.
    apply bind_some in Q. destruct Q as ([mo s3] & Q3 & Q). apply scan_written in Q3; [|lia]. destruct Q3 as (tmo & -> & MO).
    apply bind_some in Q. destruct Q as (mo' & Q4 & Q). apply checked_some in Q4. destruct Q4 as [-> RMO].
    apply bind_some in Q. destruct Q as (s4 & Q5 & Q). apply strip_some in Q5. subst s3.
    apply bind_some in Q. destruct Q as ([d s5] & Q6 & Q). apply scan_written in Q6; [|lia]. destruct Q6 as (td & -> & D).
    apply bind_some in Q. destruct Q as (d' & Q7 & Q). apply checked_some in Q7. destruct Q7 as [-> RD].
    apply bind_some in Q. destruct Q as ([u s6] & Q8 & Q). apply strip_one_some in Q8. destruct Q8 as (sep & SEP & ->).
    apply bind_some in Q. destruct Q as ([h s7] & Q9 & Q). apply scan_written in Q9; [|lia]. destruct Q9 as (th & -> & H).
    apply bind_some in Q. destruct Q as (h' & Qh & Q). apply checked_some in Qh. destruct Qh as [-> RH].
    apply bind_some in Q. destruct Q as (s8 & Q10 & Q). apply strip_some in Q10. subst s7.
    apply bind_some in Q. destruct Q as ([mi s9] & Q11 & Q). apply scan_written in Q11; [|lia]. destruct Q11 as (tmi & -> & MI).
    apply bind_some in Q. destruct Q as (mi' & Qm & Q). apply checked_some in Qm. destruct Qm as [-> RMI].
    apply bind_some in Q. destruct Q as (s10 & Q12 & Q). apply strip_some in Q12. subst s9.
    apply bind_some in Q. destruct Q as ([se s11] & Q13 & Q). apply scan_written in Q13; [|lia]. destruct Q13 as (tse & -> & SE).
    apply bind_some in Q. destruct Q as (se' & Qs & Q). apply checked_some in Qs. destruct Qs as [-> RSE].
    apply bind_some in Q. destruct Q as ([na s12] & Q14 & Q).
    apply bind_some in Q. destruct Q as ([off s13] & Q15 & Q).
    apply bind_some in Q. destruct Q as (off' & Qo & Q). apply checked_some in Qo. destruct Qo as [-> RO].
    destruct s13; [|discriminate]. destruct (Z.leb_spec d (days_in_month y mo)) as [LD|]; [|discriminate]. apply some_pair in Q. destruct Q as [<- <-].
    apply scan_offset_some in Q15; [|lia]. destruct Q15 as (z & -> & ZN). rewrite append_nil in Q14.
    assert (FR : exists fr, s11 = (fr ++ z)%string /\ fraction fr na).
    { destruct (strip "." s11) as [q|] eqn:E.
      - apply strip_some in E. subst s11. apply scan_nanosecond_some in Q14. destruct Q14 as (ds & v & -> & N & ->). exists ("." ++ ds)%string.
        split; [reflexivity|]. right. exists ds, v. auto.
      - injection Q14 as <- <-. exists ""%string. split; [reflexivity|left; auto]. }
    destruct FR as (fr & -> & FR). pose proof (written_range _ _ _ Y) as RY. cbn in RY.
    exists ty, tmo, td, sep, th, tmi, tse, fr, z, se, na. cbn [dt_date dt_hour dt_minute dt_second dt_nano year month day].
    split; [reflexivity|]. split; [exact Y|]. split; [exact MO|]. split; [exact D|]. split; [unfold valid_date; cbn; lia|].
    split; [destruct SEP as [E|[E|[E|[]]]]; injection E as <- _; auto|]. split; [exact H|]. split; [lia|]. split; [exact MI|]. split; [lia|].
    split; [exact SE|]. split; [exact FR|]. split; [|exact ZN]. destruct (Z.eqb_spec se 60); lia.
  - intros (ty & tmo & td & sep & th & tmi & tse & fr & z & se & na & -> & Y & MO & D & VD & SEP & H & RH & MI & RMI & SE & FR & SN & ZN).
    destruct t as [[y mo d] h mi second nano]. cbn [dt_date dt_hour dt_minute dt_second dt_nano year month day] in *.
    destruct VD as (RY & RMO & RD). cbn [year month day] in *.
    pose proof (written_range _ _ _ H) as H0. pose proof (written_range _ _ _ MI) as M0. pose proof (written_range _ _ _ SE) as S0. cbn in H0, M0, S0.
    pose proof (days_pos y mo) as DM. destruct (scan_offset_ok z offset "" ZN) as [OFF RO]. rewrite append_nil in OFF.
    assert (NX : match strip "." (fr ++ z) with Some r => scan_nanosecond r | None => Some (0, (fr ++ z)%string) end = Some (na, z)).
    { destruct (zone_start z offset "" ZN) as [ND NS]. rewrite append_nil in ND, NS. destruct FR as [[-> ->]|(ds & v & -> & N & ->)]; [cbn [append]; now rewrite NS|].
      rewrite append_assoc, (proj2 (strip_some "." ("." ++ ds ++ z) (ds ++ z)) eq_refl). now apply scan_nanosecond_ok. }
    Ltac num k t n := rewrite (proj2 (scan_written k _ n _ (Nat.lt_0_succ _))) by (exists t; auto); cbn [bind].
    num 4%nat ty y. rewrite (proj2 (strip_some "-" _ _) eq_refl). cbn [bind]. num 2%nat tmo mo. rewrite (proj2 (checked_some 1 12 mo mo)) by lia. cbn [bind].
    rewrite (proj2 (strip_some "-" _ _) eq_refl). cbn [bind]. num 2%nat td d. rewrite (proj2 (checked_some 1 31 d d)) by lia. cbn [bind].
    assert (SP : forall r, strip_one [("T"%string, tt); ("t"%string, tt); (" "%string, tt)] (sep ++ r) = Some (tt, r)) by (intro r; destruct SEP as [->|[->| ->]]; reflexivity).
    rewrite SP. cbn [bind]. num 2%nat th h. rewrite (proj2 (checked_some 0 23 h h)) by lia. cbn [bind].
    rewrite (proj2 (strip_some ":" _ _) eq_refl). cbn [bind]. num 2%nat tmi mi. rewrite (proj2 (checked_some 0 59 mi mi)) by lia. cbn [bind].
    rewrite (proj2 (strip_some ":" _ _) eq_refl). cbn [bind]. num 2%nat tse se. rewrite (proj2 (checked_some 0 60 se se)) by lia. cbn [bind].
    rewrite NX. cbn [bind]. rewrite OFF. cbn [bind]. rewrite (proj2 (checked_some _ _ offset offset)) by lia. cbn [bind].
    destruct (Z.leb_spec d (days_in_month y mo)); [|lia]. destruct (Z.eqb_spec se 60); destruct SN as [(? & -> & ->)|(? & -> & ->)]; try lia; reflexivity.
Qed.

Lemma time_written_local s t offset : time_written s t offset -> 1 <= year (dt_date t) <= 9998 -> dt_nano t < 10 ^ 9 -> local_time t offset.
Proof.
  intros (y & mo & d & sep & h & mi & se & fr & z & second & nanos & _ & _ & _ & _ & V & _ & H & RH & MI & RMI & SE & FR & SN & ZN) Y N.
  pose proof (written_range _ _ _ H). pose proof (written_range _ _ _ MI). pose proof (written_range _ _ _ SE). pose proof (fraction_range _ _ FR).
  destruct (scan_offset_ok z offset "" ZN) as [_ RO]. split; [|lia]. split; [exact V|]. lia.
Qed.
Theorem c80_dated_proof sv : ordinary_times sv -> dated parse_rfc3339 sv.
Proof.
  intros O rq features f t offset S I P. apply c80_reads_proof in P. destruct (O rq features f t offset S I P) as [Y N].
  exact (time_written_local _ _ _ P Y N).
Qed.
Theorem c80_leap_proof s t offset : time_written s t offset -> 10 ^ 9 <= dt_nano t -> ref_from_str parse_rfc3339 s = Err EInvalid.
Proof.
  intros W N. unfold ref_from_str. rewrite (proj2 (c80_reads_proof s t offset) W).
  destruct W as (y & mo & d & sep & h & mi & se & fr & z & second & nanos & _ & _ & _ & _ & V & _ & H & RH & MI & RMI & SE & FR & SN & ZN).
  pose proof (fraction_range _ _ FR). assert (Q : dt_second t = 59) by lia. rewrite Q. cbn. now rewrite orb_true_r.
Qed.
Theorem c80_reference_proof s : (forall t offset, time_written s t offset -> 1 <= year (dt_date t) <= 9998) ->
  (exists t offset u, time_written s t offset /\ dt_minute t = 0 /\ dt_second t = 0 /\ dt_hour t mod 3 = 0 /\
     ref_from_str parse_rfc3339 s = Ok u /\ valid_time u /\ instant u = instant t - offset * 10 ^ 9) \/
  ((forall t offset, time_written s t offset -> ~ (dt_minute t = 0 /\ dt_second t = 0 /\ dt_hour t mod 3 = 0)) /\ ref_from_str parse_rfc3339 s = Err EInvalid).
Proof.
  intro Y. destruct (parse_rfc3339 s) as [[t offset]|] eqn:E.
  - pose proof E as W. apply c80_reads_proof in W. pose proof (Y _ _ W) as Yt.
    destruct (Z_lt_le_dec (dt_nano t) (10 ^ 9)) as [N|N].
    + pose proof (time_written_local _ _ _ W Yt N) as L. destruct (proj2 (c53_parse_proof parse_rfc3339 s) t offset E L) as [A B].
      assert (D : dt_minute t = 0 /\ dt_second t = 0 /\ dt_hour t mod 3 = 0 \/ ~ (dt_minute t = 0 /\ dt_second t = 0 /\ dt_hour t mod 3 = 0)) by lia.
      destruct D as [D|D].
      * destruct (A D) as (u & R & V & I). left. exists t, offset, u. tauto.
      * right. split; [|exact (B D)]. intros t' offset' W'. apply c80_reads_proof in W'. rewrite E in W'. apply some_pair in W'. destruct W' as [<- _]. exact D.
    + right. split; [|exact (c80_leap_proof s t offset W N)]. intros t' offset' W'. apply c80_reads_proof in W'. rewrite E in W'. apply some_pair in W'. destruct W' as [<- _].
      destruct W as (y & mo & d & sep & h & mi & se & fr & z & second & nanos & _ & _ & _ & _ & V & _ & H & RH & MI & RMI & SE & FR & SN & ZN).
      pose proof (fraction_range _ _ FR). lia.
  - right. split; [|exact (proj1 (c53_parse_proof parse_rfc3339 s) E)]. intros t offset W. apply c80_reads_proof in W. congruence.
Qed.
(** A time as it is sent to the service. *)
Theorem c80_own_proof t : valid_time t -> parse_rfc3339 (ref_name t) =
  Some ({| dt_date := dt_date t; dt_hour := dt_hour t; dt_minute := dt_minute t; dt_second := dt_second t; dt_nano := 0 |}, 0).
Proof.
  intro V. apply c80_reads_proof. destruct (proj1 (c53_text_proof t (ref_name t) V) eq_refl) as (y & mo & d & h & mi & se & Py & Pm & Pd & Ph & Pi & Ps & E).
  destruct V as (D & H & M & S & _). pose proof D as (Dy & Dm & Dd). pose proof (days_pos (year (dt_date t)) (month (dt_date t))).
  assert (X : forall w s n, padded w s n -> 0 <= n < 10 ^ Z.of_nat w -> (0 < w)%nat -> written w s n).
  { intros w s n P R W. split; [apply P|]. destruct (Nat.eq_dec (String.length s) w) as [|Ne]; [assumption|]. exfalso. destruct P as (N & L & Z0).
    assert (L' : (w < String.length s)%nat) by lia. specialize (Z0 L'). apply numeral_spec in N. destruct N as [_ N]. destruct s as [|c s]; [cbn in L'; lia|].
    cbn [digits_value] in N. destruct (digit_of c) as [k|] eqn:K; [|discriminate]. destruct (digits_value_shift _ _ _ N) as (x & _ & Q & B).
    destruct (Z.eq_dec k 0) as [->|]; [apply digit_of_digit in K; destruct K as [_ K]; injection K as <-; exact (Z0 s eq_refl)|].
    apply digit_of_range in K. cbn [String.length] in L'. assert (10 ^ Z.of_nat w <= 10 ^ Z.of_nat (String.length s)) by (apply Z.pow_le_mono_r; lia). nia. }
  exists y, mo, d, "T"%string, h, mi, se, ""%string, "Z"%string, (dt_second t), 0. cbn [dt_date dt_hour dt_minute dt_second dt_nano].
  split; [rewrite E; reflexivity|].
  assert (P4 : 10 ^ Z.of_nat 4 = 10000) by reflexivity. assert (P2 : 10 ^ Z.of_nat 2 = 100) by reflexivity.
  repeat (split; [first [exact D|apply X; [assumption|lia|lia]|lia|now left|left; split; reflexivity]|]). left. auto.
Qed.
Theorem c80_round_proof t : valid_time t -> ref_from_str parse_rfc3339 (ref_name (ref_latest t)) = Ok (ref_latest t).
Proof.
  intro V. apply c53_round_trip_proof; [exact V|]. rewrite c80_own_proof; [reflexivity|]. exact (proj1 (c53_latest_proof t V)).
Qed.
