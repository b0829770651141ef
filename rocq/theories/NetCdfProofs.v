(** Proofs about the NetCDF reader (C23-C27). *)
From Coq Require Import ZArith List Bool Lia.
From Verif Require Import Base F32 Grib2Model Grib2Spec BaseFacts GeoModel Utf8Spec Utf8Proofs NetCdfModel NetCdfSpec.
Import ListNotations.
Open Scope Z_scope.

(** ** Reading an encoding *)

(** [m] reads exactly the byte strings of [L] and returns [x]; cut short, it fails or, if only padding
    was lost, ends at the end of the file. *)
Definition reads {A} (m : reader A) (L : encoding) (x : A) : Prop :=
  (forall s rest, L s -> m (s ++ rest) = Ok (x, rest)) /\
  (forall c d, L (c ++ d) -> d <> [] -> m c = Err EIo \/ m c = Ok (x, [])).
Definition reads_strict {A} (m : reader A) (L : encoding) (x : A) : Prop :=
  (forall s rest, L s -> m (s ++ rest) = Ok (x, rest)) /\
  (forall c d, L (c ++ d) -> d <> [] -> m c = Err EIo).

Lemma strict_reads {A} (m : reader A) s x : reads_strict m s x -> reads m s x.
Proof. intros [H1 H2]. split; [exact H1|]. intros c d E N. left. eapply H2; eassumption. Qed.
Lemma prefix_cases {A} (s1 s2 c d : list A) : s1 ++ s2 = c ++ d ->
  (exists e, s1 = c ++ e /\ d = e ++ s2 /\ e <> []) \/ (exists e, c = s1 ++ e /\ s2 = e ++ d).
Proof.
  revert c. induction s1 as [|a s1 IH]; intros c E.
  - right. exists c. auto.
  - destruct c as [|b c].
    + left. exists (a :: s1). cbn in E. repeat split; auto. discriminate.
    + cbn in E. injection E as -> E. destruct (IH c E) as [(e & -> & -> & N)|(e & -> & ->)]; [left|right]; exists e; auto.
Qed.
Lemma nil_strict {A} (m : reader A) x : (forall r, m r = Ok (x, r)) -> reads_strict m (exactly []) x.
Proof.
  intro H. split.
  - intros s rest ->. apply H.
  - intros c d E N. unfold exactly in E. apply app_eq_nil in E. destruct E; contradiction.
Qed.
Lemma reads_bind {A B} (m : reader A) (k : A -> reader B) L1 L2 x y :
  reads m L1 x -> reads (k x) L2 y -> reads (bind m k) (L1 +++ L2) y.
Proof.
  intros [P1 T1] [P2 T2]. split.
  - intros s rest (s1 & s2 & -> & H1 & H2). unfold bind. rewrite <- app_assoc, (P1 s1 _ H1). apply P2, H2.
  - intros c d (s1 & s2 & E & H1 & H2) N. symmetry in E. unfold bind.
    destruct (prefix_cases _ _ _ _ E) as [(e & E1 & E2 & N1)|(e & E1 & E2)].
    + subst s1. destruct (T1 c e H1 N1) as [-> | ->]; [now left|].
      destruct s2 as [|b s2].
      * specialize (P2 [] [] H2). cbn in P2. rewrite P2. now right.
      * apply (T2 [] (b :: s2)); [exact H2|discriminate].
    + subst c s2. rewrite (P1 s1 _ H1). apply (T2 e d H2 N).
Qed.
Lemma strict_bind {A B} (m : reader A) (k : A -> reader B) L1 L2 x y :
  reads_strict m L1 x -> reads_strict (k x) L2 y -> reads_strict (bind m k) (L1 +++ L2) y.
Proof.
  intros [P1 T1] [P2 T2]. split.
  - intros s rest (s1 & s2 & -> & H1 & H2). unfold bind. rewrite <- app_assoc, (P1 s1 _ H1). apply P2, H2.
  - intros c d (s1 & s2 & E & H1 & H2) N. symmetry in E. unfold bind.
    destruct (prefix_cases _ _ _ _ E) as [(e & E1 & E2 & N1)|(e & E1 & E2)].
    + subst s1. now rewrite (T1 c e H1 N1).
    + subst c s2. rewrite (P1 s1 _ H1). apply (T2 e d H2 N).
Qed.
Lemma strict_bind_pad {A B} (m : reader A) (k : A -> reader B) (L1 L2 : encoding) x y :
  reads m L1 x -> reads_strict (k x) L2 y -> ~ L2 [] -> reads_strict (bind m k) (L1 +++ L2) y.
Proof.
  intros [P1 T1] [P2 T2] NE. split.
  - intros s rest (s1 & s2 & -> & H1 & H2). unfold bind. rewrite <- app_assoc, (P1 s1 _ H1). apply P2, H2.
  - intros c d (s1 & s2 & E & H1 & H2) N. symmetry in E. unfold bind.
    destruct (prefix_cases _ _ _ _ E) as [(e & E1 & E2 & N1)|(e & E1 & E2)].
    + subst s1. destruct (T1 c e H1 N1) as [-> | ->]; [reflexivity|]. apply (T2 [] s2); [exact H2|]. intros ->. contradiction.
    + subst c s2. rewrite (P1 s1 _ H1). apply (T2 e d H2 N).
Qed.
Lemma followed_nil (L : encoding) s : (L +++ exactly []) s <-> L s.
Proof.
  split.
  - intros (s1 & s2 & -> & H & ->). rewrite app_nil_r. exact H.
  - intro H. exists s, []. rewrite app_nil_r. repeat split. exact H.
Qed.
Lemma reads_equiv {A} (m : reader A) (L L' : encoding) x : (forall s, L' s -> L s) -> reads m L x -> reads m L' x.
Proof. intros E [P T]. split; [intros; apply P; auto|intros; eapply T; eauto]. Qed.
Lemma strict_equiv {A} (m : reader A) (L L' : encoding) x : (forall s, L' s -> L s) -> reads_strict m L x -> reads_strict m L' x.
Proof. intros E [P T]. split; [intros; apply P; auto|intros; eapply T; eauto]. Qed.
Lemma reads_ret_bind {A B} (m : reader A) (k : A -> reader B) L x y :
  reads m L x -> (forall r, k x r = Ok (y, r)) -> reads (bind m k) L y.
Proof.
  intros R K. apply (reads_equiv _ (L +++ exactly [])); [intros s; apply followed_nil|].
  eapply reads_bind; [exact R|]. apply strict_reads, nil_strict, K.
Qed.
Lemma strict_ret_bind {A B} (m : reader A) (k : A -> reader B) L x y :
  reads_strict m L x -> (forall r, k x r = Ok (y, r)) -> reads_strict (bind m k) L y.
Proof.
  intros R K. apply (strict_equiv _ (L +++ exactly [])); [intros s; apply followed_nil|].
  eapply strict_bind; [exact R|]. apply nil_strict, K.
Qed.

Lemma take_strict n b : Z.of_nat (length b) = n -> n <= isize_max -> reads_strict (take_bytes n) (exactly b) b.
Proof.
  intros L M. split.
  - intros s rest ->. apply take_bytes_app; assumption.
  - intros c d E N. unfold exactly in E. subst b. unfold take_bytes. rewrite app_length in L.
    destruct d as [|x d]; [contradiction|]. cbn [length] in L.
    destruct (Z.gtb_spec n isize_max); [lia|]. destruct (Z.leb_spec n (Z.of_nat (length c))); [lia|reflexivity].
Qed.
Lemma be_strict n v : 0 <= v < 256 ^ Z.of_nat n -> Z.of_nat n <= isize_max ->
  reads_strict (read_be (Z.of_nat n)) (exactly (be_bytes n v)) v.
Proof.
  intros Hv Hn. unfold read_be. eapply strict_ret_bind.
  - apply take_strict; [rewrite be_bytes_length; reflexivity|exact Hn].
  - intro r. unfold ret. rewrite be_value_be_bytes by exact Hv. reflexivity.
Qed.
Lemma u32_strict v : fits32 v -> reads_strict read_u32 (exactly (u32 v)) v.
Proof. intro H. apply (be_strict 4); [exact H|unfold isize_max; lia]. Qed.
Lemma into_strict k vs cnt : (0 < k)%nat -> Z.of_nat (length vs) = cnt -> Z.of_nat k * cnt <= isize_max ->
  Forall (fun v => 0 <= v < 256 ^ Z.of_nat k) vs ->
  reads_strict (read_be_into (Z.of_nat k) cnt) (exactly (concat (map (be_bytes k) vs))) vs.
Proof.
  intros Hk Hc Hm Hv. unfold read_be_into. eapply strict_ret_bind.
  - apply take_strict; [rewrite concat_be_length; lia|exact Hm].
  - intro r. unfold ret. rewrite Nat2Z.id, chunks_app, map_be_value; auto. rewrite concat_be_length. nia.
Qed.
Lemma skip_reads n : reads (skip n) (filler (Z.to_nat n)) tt.
Proof.
  split.
  - intros s rest [L _]. unfold skip. rewrite <- L, skipn_app, skipn_all, Nat.sub_diag. reflexivity.
  - intros c d [L _] N. right. unfold skip. rewrite skipn_all2; [reflexivity|]. rewrite app_length in L. lia.
Qed.
Definition pad_skip (len : Z) : reader unit := if 0 <? len mod 4 then skip (4 - len mod 4) else ret tt.
Lemma pad4_Z len : 0 <= len -> Z.of_nat (pad4 (Z.to_nat len)) = (4 - len mod 4) mod 4.
Proof.
  intro H. unfold pad4. pose proof (Z.mod_pos_bound len 4 ltac:(lia)) as B.
  assert (E : Z.of_nat (Z.to_nat len mod 4) = len mod 4) by (rewrite Nat2Z.inj_mod, Z2Nat.id by lia; reflexivity).
  rewrite Nat2Z.inj_mod, Nat2Z.inj_sub, E by lia. reflexivity.
Qed.
Lemma pad_skip_run len r : 0 <= len -> pad_skip len r = Ok (tt, skipn (pad4 (Z.to_nat len)) r).
Proof.
  intro H. pose proof (pad4_Z len H) as E. unfold pad_skip. pose proof (Z.mod_pos_bound len 4 ltac:(lia)) as B.
  destruct (Z.ltb_spec 0 (len mod 4)).
  - unfold skip. rewrite Z.mod_small in E by lia. do 2 f_equal. f_equal. lia.
  - replace (len mod 4) with 0 in E by lia. change ((4 - 0) mod 4) with 0 in E.
    replace (pad4 (Z.to_nat len)) with 0%nat by lia. reflexivity.
Qed.
Lemma pad_reads len : 0 <= len -> reads (pad_skip len) (filler (pad4 (Z.to_nat len))) tt.
Proof.
  intro H. destruct (skip_reads (Z.of_nat (pad4 (Z.to_nat len)))) as [P T]. rewrite Nat2Z.id in P, T.
  assert (E : forall r, pad_skip len r = skip (Z.of_nat (pad4 (Z.to_nat len))) r).
  { intro r. rewrite pad_skip_run by exact H. unfold skip. rewrite Nat2Z.id. reflexivity. }
  split; intros; rewrite E; [apply P; assumption|eapply T; eassumption].
Qed.
Lemma times_strict {A B} (m : reader B) (f : A -> encoding) (g : A -> B) l :
  Forall (fun a => reads_strict m (f a) (g a)) l ->
  reads_strict (read_times (length l) m) (each f l) (map g l).
Proof.
  induction 1 as [|a l H _ IH]; cbn [length read_times map each]; [apply nil_strict; reflexivity|].
  eapply strict_bind; [exact H|]. eapply strict_ret_bind; [exact IH|]. reflexivity.
Qed.
Lemma times_reads {A B} (m : reader B) (f : A -> encoding) (g : A -> B) l :
  Forall (fun a => reads m (f a) (g a)) l ->
  reads (read_times (length l) m) (each f l) (map g l).
Proof.
  induction 1 as [|a l H _ IH]; cbn [length read_times map each]; [apply strict_reads, nil_strict; reflexivity|].
  eapply reads_bind; [exact H|]. eapply reads_ret_bind; [exact IH|]. reflexivity.
Qed.

(** ** C24 *)
Lemma name_reads s : name_ok s -> reads read_name (name_enc s) s.
Proof.
  intros (B & U & F). apply utf8_valid_text in U. unfold read_name, name_enc. eapply reads_bind; [apply strict_reads, u32_strict, F|].
  eapply reads_bind.
  { apply strict_reads. unfold read_n_chars. eapply strict_ret_bind.
    - apply take_strict; [reflexivity|]. unfold fits32, isize_max in *. lia.
    - rewrite U. reflexivity. }
  eapply reads_ret_bind.
  { pose proof (pad_reads (Z.of_nat (length s)) ltac:(lia)) as P. rewrite Nat2Z.id in P. exact P. }
  reflexivity.
Qed.
Lemma bytes_concat_1 l : Forall (fun b => 0 <= b < 256 ^ Z.of_nat 1) l -> concat (map (be_bytes 1) l) = l.
Proof.
  induction 1 as [|b l H _ IH]; [reflexivity|].
  change (concat (map (be_bytes 1) (b :: l))) with (be_bytes 1 b ++ concat (map (be_bytes 1) l)).
  rewrite IH. cbn [be_bytes app]. f_equal.
  change (256 ^ Z.of_nat 1) with 256 in H. change (256 ^ Z.of_nat 0) with 1. rewrite Z.div_1_r. apply Z.mod_small. exact H.
Qed.
Lemma each_u8 l s : each (fun b => exactly (be_bytes 1 b)) l s <-> s = concat (map (be_bytes 1) l).
Proof.
  revert s. induction l as [|b l IH]; intro s; [reflexivity|]. cbn [each map concat]. split.
  - intros (s1 & s2 & -> & -> & H). apply IH in H. subst. reflexivity.
  - intros ->. exists (be_bytes 1 b), (concat (map (be_bytes 1) l)). split; [reflexivity|]. split; [reflexivity|]. now apply IH.
Qed.
(** Values with arbitrary bytes behind them. *)
Lemma values_bytes_length v : length (values_bytes v) = (type_width (wv_type v) * length (wv_bits v))%nat.
Proof. apply concat_be_length. Qed.
Lemma values_reads v : values_ok v ->
  reads (read_values (Z.of_nat (length (wv_bits v))) (wv_type v)) (values_enc v) (values_meaning v).
Proof.
  unfold values_enc. rewrite values_bytes_length. destruct v as [t l]. unfold values_ok, bits_ok, values_bytes, values_meaning.
  cbn [wv_type wv_bits]. intros [F L]. unfold fits32 in L.
  assert (NP : forall (w k : nat), w = (4 * k)%nat -> forall s, filler (pad4 (w * length l)) s -> exactly [] s).
  { intros w k ->. unfold pad4. rewrite <- Nat.mul_assoc, Nat.mul_comm, Nat.mod_mul by lia.
    intros s [Ls _]. apply length_zero_iff_nil. exact Ls. }
  assert (Q : forall (w k : nat) (b : bytes), w = (4 * k)%nat -> forall s, (exactly b +++ filler (pad4 (w * length l))) s -> exactly b s).
  { intros w k b Hw s (s1 & s2 & -> & -> & H). apply (NP w k Hw) in H. rewrite H, app_nil_r. reflexivity. }
  assert (PD : forall w, reads (read_padding (Z.of_nat (length l)) (Z.of_nat w)) (filler (pad4 (w * length l))) tt).
  { intro w. pose proof (pad_reads (Z.of_nat (length l) * Z.of_nat w) ltac:(lia)) as P.
    replace (Z.to_nat (Z.of_nat (length l) * Z.of_nat w)) with (w * length l)%nat in P by nia. exact P. }
  destruct t; cbn [type_width] in *; unfold read_values.
  - rewrite (bytes_concat_1 l F). eapply reads_bind.
    { apply strict_reads. apply take_strict; [reflexivity|]. unfold isize_max. lia. }
    eapply reads_ret_bind; [apply (PD 1%nat)|]. reflexivity.
  - eapply reads_bind.
    { apply strict_reads. rewrite Nat2Z.id. apply (strict_equiv _ (each (fun b => exactly (be_bytes 1 b)) l)); [intros s Hs; apply each_u8; exact Hs|].
      apply (times_strict read_u8 (fun b => exactly (be_bytes 1 b)) (fun x => x)).
      eapply Forall_impl; [|exact F]. intros b Hb. apply (be_strict 1); [exact Hb|unfold isize_max; lia]. }
    rewrite map_id. eapply reads_ret_bind; [apply (PD 1%nat)|]. reflexivity.
  - eapply reads_bind.
    { apply strict_reads. apply (into_strict 2); [lia|reflexivity|unfold isize_max; lia|exact F]. }
    eapply reads_ret_bind; [apply (PD 2%nat)|]. reflexivity.
  - eapply reads_equiv; [apply (Q 4%nat 1%nat); reflexivity|]. eapply reads_ret_bind.
    { apply strict_reads. apply (into_strict 4); [lia|reflexivity|unfold isize_max; lia|exact F]. }
    reflexivity.
  - eapply reads_equiv; [apply (Q 4%nat 1%nat); reflexivity|]. eapply reads_ret_bind.
    { apply strict_reads. apply (into_strict 4); [lia|reflexivity|unfold isize_max; lia|exact F]. }
    reflexivity.
  - eapply reads_equiv; [apply (Q 8%nat 2%nat); reflexivity|]. eapply reads_ret_bind.
    { apply strict_reads. apply (into_strict 8); [lia|reflexivity|unfold isize_max; lia|exact F]. }
    reflexivity.
Qed.

(** ** C23, C26: encodings are read back *)
Lemma type_strict t : reads_strict read_nc_type (exactly (u32 (type_code t))) t.
Proof.
  unfold read_nc_type. eapply strict_ret_bind; [apply u32_strict; unfold fits32; destruct t; cbn; lia|]. destruct t; reflexivity.
Qed.
Lemma attr_reads a : attr_ok a -> reads read_attr (attr_enc a) (attr_meaning a).
Proof.
  intros [N V]. unfold read_attr, attr_enc. eapply reads_bind; [apply name_reads, N|].
  eapply reads_bind; [apply strict_reads, type_strict|]. eapply reads_bind; [apply strict_reads, u32_strict, V|].
  eapply reads_ret_bind; [apply values_reads, V|]. reflexivity.
Qed.
Lemma not_empty b (L : encoding) x : ~ (exactly (x :: b) +++ L) [].
Proof. intros (s1 & s2 & E & -> & _). discriminate. Qed.
Lemma dim_strict d : dim_ok d -> reads_strict read_dim (dim_enc d) d.
Proof.
  intros [N L]. unfold read_dim, dim_enc. eapply strict_bind_pad; [apply name_reads, N| |discriminate].
  eapply strict_ret_bind; [apply u32_strict, L|]. intro r. destruct d; reflexivity.
Qed.
Lemma list_reads {A B} tag (m : reader B) (f : A -> encoding) (g : A -> B) l : fits32 tag -> tag <> 0 ->
  fits32 (Z.of_nat (length l)) -> Forall (fun a => reads m (f a) (g a)) l ->
  reads (read_list tag m) (list_enc tag f l) (map g l).
Proof.
  intros T0 T1 L F. unfold read_list, list_enc. destruct l as [|a l].
  - eapply reads_bind; [apply strict_reads, u32_strict; unfold fits32; lia|].
    eapply reads_ret_bind; [apply strict_reads, u32_strict; unfold fits32; lia|]. reflexivity.
  - eapply reads_bind; [apply strict_reads, u32_strict, T0|]. eapply reads_bind; [apply strict_reads, u32_strict, L|].
    destruct (Z.eqb_spec tag 0); [contradiction|]. rewrite Z.eqb_refl. cbn [andb].
    replace (0 <? Z.of_nat (length (a :: l))) with true by (symmetry; apply Z.ltb_lt; cbn [length]; lia).
    rewrite Nat2Z.id. apply times_reads. exact F.
Qed.
Lemma list_strict {A B} tag (m : reader B) (f : A -> encoding) (g : A -> B) l : fits32 tag -> tag <> 0 ->
  fits32 (Z.of_nat (length l)) -> Forall (fun a => reads_strict m (f a) (g a)) l ->
  reads_strict (read_list tag m) (list_enc tag f l) (map g l).
Proof.
  intros T0 T1 L F. unfold read_list, list_enc. destruct l as [|a l].
  - eapply strict_bind; [apply u32_strict; unfold fits32; lia|].
    eapply strict_ret_bind; [apply u32_strict; unfold fits32; lia|]. reflexivity.
  - eapply strict_bind; [apply u32_strict, T0|]. eapply strict_bind; [apply u32_strict, L|].
    destruct (Z.eqb_spec tag 0); [contradiction|]. rewrite Z.eqb_refl. cbn [andb].
    replace (0 <? Z.of_nat (length (a :: l))) with true by (symmetry; apply Z.ltb_lt; cbn [length]; lia).
    rewrite Nat2Z.id. apply times_strict. exact F.
Qed.
Lemma list_not_empty {A} tag (f : A -> encoding) l : ~ list_enc tag f l [].
Proof. destruct l; apply not_empty. Qed.
Lemma attrs_reads l : list_ok attr_ok l -> reads read_attr_list (list_enc 12 attr_enc l) (map attr_meaning l).
Proof.
  intros [F L]. apply list_reads; [unfold fits32; lia|lia|exact L|]. eapply Forall_impl; [|exact F]. apply attr_reads.
Qed.
Lemma var_strict v : var_ok v -> reads_strict read_var (var_enc v) (var_meaning v).
Proof.
  intros (N & [D1 D2] & A & S & B). unfold read_var, var_enc.
  eapply strict_bind_pad; [apply name_reads, N| |apply not_empty].
  eapply strict_bind; [apply u32_strict, D2|]. rewrite Nat2Z.id.
  eapply strict_bind.
  { apply (times_strict read_u32 (fun d => exactly (u32 d)) (fun x => x)). eapply Forall_impl; [|exact D1]. apply u32_strict. }
  eapply strict_bind_pad; [apply attrs_reads, A| |apply not_empty].
  eapply strict_bind; [apply type_strict|]. eapply strict_bind; [apply u32_strict, S|].
  eapply strict_ret_bind; [apply (be_strict 8); [exact B|unfold isize_max; lia]|].
  intro r. rewrite map_id. reflexivity.
Qed.
Lemma header_strict h : header_ok h -> reads_strict read_header (header_enc h) (header_meaning h).
Proof.
  intros (R & [D1 D2] & A & [V1 V2]). unfold read_header, header_enc.
  eapply strict_bind.
  { unfold read_magic. eapply strict_equiv; [|eapply (strict_bind _ _ (exactly [67; 68; 70]) (exactly (be_bytes 1 2)))].
    - intros s ->. exists [67; 68; 70], [2]. repeat split.
    - unfold read_n_chars. eapply strict_ret_bind; [apply take_strict; [reflexivity|unfold isize_max; lia]|]. reflexivity.
    - eapply strict_ret_bind; [apply (be_strict 1 2); [cbn; lia|unfold isize_max; lia]|]. reflexivity. }
  eapply strict_bind; [apply u32_strict, R|].
  eapply strict_bind.
  { apply list_strict with (g := fun d => d); [unfold fits32; lia|lia|exact D2|]. eapply Forall_impl; [|exact D1]. apply dim_strict. }
  eapply strict_bind_pad; [apply attrs_reads, A| |apply list_not_empty].
  eapply strict_ret_bind.
  { apply list_strict; [unfold fits32; lia|lia|exact V2|]. eapply Forall_impl; [|exact V1]. apply var_strict. }
  intro r. rewrite map_id. reflexivity.
Qed.

(** ** Whatever is accepted is an encoding *)
Definition accepts {A W} (m : reader A) (enc : W -> encoding) (ok : W -> Prop) (mean : W -> A) : Prop :=
  forall bs x rest, Forall is_byte bs -> m bs = Ok (x, rest) ->
  exists w s, ok w /\ enc w s /\ bs = s ++ rest /\ mean w = x.
(** The same, but the padding at the end may be missing at the end of the file. *)
Definition accepts_pad {A W} (m : reader A) (enc : W -> encoding) (ok : W -> Prop) (mean : W -> A) : Prop :=
  forall bs x rest, Forall is_byte bs -> m bs = Ok (x, rest) ->
  rest = [] \/ exists w s, ok w /\ enc w s /\ bs = s ++ rest /\ mean w = x.

Lemma u32_accepts : accepts read_u32 (fun v => exactly (u32 v)) fits32 (fun v => v).
Proof. intros bs x rest B H. apply (read_be_ok 4) in H; [|exact B]. destruct H as (-> & H & _). exists x, (u32 x). repeat split; tauto. Qed.
Lemma u64_accepts : accepts read_u64 (fun v => exactly (be_bytes 8 v)) (fun v => 0 <= v < 2 ^ 64) (fun v => v).
Proof. intros bs x rest B H. apply (read_be_ok 8) in H; [|exact B]. destruct H as (-> & H & _). exists x, (be_bytes 8 x). repeat split; tauto. Qed.
Lemma type_accepts : accepts read_nc_type (fun t => exactly (u32 (type_code t))) (fun _ => True) (fun t => t).
Proof.
  intros bs x rest B H. apply bind_ok in H. destruct H as (n & mid & H1 & H2).
  apply u32_accepts in H1; [|exact B]. destruct H1 as (w & s & _ & -> & -> & ->).
  exists x, (u32 n). split; [exact I|].
  repeat match type of H2 with
  | (if n =? ?k then _ else _) _ = _ => destruct (Z.eqb_spec n k); [subst n; injection H2 as <- <-; repeat split|]
  end. discriminate.
Qed.
Lemma times_accepts {A W} (m : reader A) enc (ok : W -> Prop) mean : accepts m enc ok mean ->
  forall n bs l rest, Forall is_byte bs -> read_times n m bs = Ok (l, rest) ->
  exists ws s, Forall ok ws /\ each enc ws s /\ bs = s ++ rest /\ map mean ws = l /\ length ws = n.
Proof.
  intro R. induction n as [|n IH]; intros bs l rest B H; cbn [read_times] in H.
  - injection H as <- <-. exists [], []. repeat split. constructor.
  - apply bind_ok in H. destruct H as (x & mid & H1 & H). apply bind_ok in H. destruct H as (l' & mid' & H2 & H3).
    injection H3 as <- <-. apply R in H1; [|exact B]. destruct H1 as (w & s & W1 & W2 & -> & <-).
    apply Forall_app in B. destruct B as [B1 B2]. apply IH in H2; [|exact B2].
    destruct H2 as (ws & s' & V1 & V2 & -> & <- & <-). exists (w :: ws), (s ++ s'). split; [constructor; assumption|].
    split; [exists s, s'; auto|]. rewrite app_assoc. repeat split.
Qed.
Lemma times_accepts_pad {A W} (m : reader A) enc (ok : W -> Prop) mean : accepts_pad m enc ok mean ->
  (forall x r, m [] <> Ok (x, r)) ->
  forall n bs l rest, Forall is_byte bs -> read_times n m bs = Ok (l, rest) -> rest = [] \/
  exists ws s, Forall ok ws /\ each enc ws s /\ bs = s ++ rest /\ map mean ws = l /\ length ws = n.
Proof.
  intros R E. induction n as [|n IH]; intros bs l rest B H; cbn [read_times] in H.
  - injection H as <- <-. right. exists [], []. repeat split. constructor.
  - apply bind_ok in H. destruct H as (x & mid & H1 & H). apply bind_ok in H. destruct H as (l' & mid' & H2 & H3).
    injection H3 as <- <-. apply R in H1; [|exact B]. destruct H1 as [->|(w & s & W1 & W2 & -> & <-)].
    + left. destruct n as [|n]; cbn [read_times] in H2; [injection H2 as _ <-; reflexivity|].
      apply bind_ok in H2. destruct H2 as (y & mid & H2 & _). exfalso. exact (E _ _ H2).
    + apply Forall_app in B. destruct B as [B1 B2]. apply IH in H2; [|exact B2].
      destruct H2 as [->|(ws & s' & V1 & V2 & -> & <- & <-)]; [now left|right].
      exists (w :: ws), (s ++ s'). split; [constructor; assumption|].
      split; [exists s, s'; auto|]. rewrite app_assoc. repeat split.
Qed.
Lemma list_accepts {A W} tag (m : reader A) enc (ok : W -> Prop) mean : accepts m enc ok mean ->
  accepts (read_list tag m) (list_enc tag enc) (list_ok ok) (map mean).
Proof.
  intros R bs l rest B H. unfold read_list in H. apply bind_ok in H. destruct H as (t & mid & H1 & H).
  apply u32_accepts in H1; [|exact B]. destruct H1 as (? & s1 & T & -> & -> & ->). apply Forall_app in B. destruct B as [_ B].
  apply bind_ok in H. destruct H as (n & mid2 & H1 & H). apply u32_accepts in H1; [|exact B].
  destruct H1 as (? & s2 & N & -> & -> & ->). apply Forall_app in B. destruct B as [_ B]. unfold fits32 in N.
  destruct (Z.eqb_spec t 0); [destruct (Z.eqb_spec n 0)|]; cbn [andb] in H.
  { subst t n. injection H as <- <-. exists [], (u32 0 ++ u32 0). split; [split; [constructor|unfold fits32; cbn; lia]|].
    split; [exists (u32 0), (u32 0); repeat split|]. split; reflexivity. }
  all: (destruct (Z.eqb_spec t tag); [destruct (Z.ltb_spec 0 n)|]; cbn [andb] in H; try discriminate).
  all: (apply (times_accepts m enc ok mean R) in H; [|exact B]); destruct H as (ws & s & W1 & W2 & -> & <- & L).
  all: exists ws, (u32 t ++ u32 n ++ s).
  all: (split; [split; [exact W1|unfold fits32; lia]|]).
  all: (split; [|split; [rewrite <- !app_assoc; reflexivity|reflexivity]]).
  all: destruct ws as [|w ws]; [cbn in L; lia|]; subst tag; unfold list_enc; rewrite L, Z2Nat.id by lia.
  all: exists (u32 t), (u32 n ++ s); split; [reflexivity|]; split; [reflexivity|]; exists (u32 n), s; repeat split; exact W2.
Qed.
Lemma list_accepts_pad {A W} tag (m : reader A) enc (ok : W -> Prop) mean : accepts_pad m enc ok mean ->
  (forall x r, m [] <> Ok (x, r)) -> accepts_pad (read_list tag m) (list_enc tag enc) (list_ok ok) (map mean).
Proof.
  intros R E bs l rest B H. unfold read_list in H. apply bind_ok in H. destruct H as (t & mid & H1 & H).
  apply u32_accepts in H1; [|exact B]. destruct H1 as (? & s1 & T & -> & -> & ->). apply Forall_app in B. destruct B as [_ B].
  apply bind_ok in H. destruct H as (n & mid2 & H1 & H). apply u32_accepts in H1; [|exact B].
  destruct H1 as (? & s2 & N & -> & -> & ->). apply Forall_app in B. destruct B as [_ B]. unfold fits32 in N.
  destruct (Z.eqb_spec t 0); [destruct (Z.eqb_spec n 0)|]; cbn [andb] in H.
  { subst t n. injection H as <- <-. right. exists [], (u32 0 ++ u32 0). split; [split; [constructor|unfold fits32; cbn; lia]|].
    split; [exists (u32 0), (u32 0); repeat split|]. split; reflexivity. }
  all: (destruct (Z.eqb_spec t tag); [destruct (Z.ltb_spec 0 n)|]; cbn [andb] in H; try discriminate).
  all: (apply (times_accepts_pad m enc ok mean R E) in H; [|exact B]); destruct H as [->|(ws & s & W1 & W2 & -> & <- & L)]; [now left|right].
  all: exists ws, (u32 t ++ u32 n ++ s).
  all: (split; [split; [exact W1|unfold fits32; lia]|]).
  all: (split; [|split; [rewrite <- !app_assoc; reflexivity|reflexivity]]).
  all: destruct ws as [|w ws]; [cbn in L; lia|]; subst tag; unfold list_enc; rewrite L, Z2Nat.id by lia.
  all: exists (u32 t), (u32 n ++ s); split; [reflexivity|]; split; [reflexivity|]; exists (u32 n), s; repeat split; exact W2.
Qed.
(** Skipped padding was there, or the file has ended. *)
Lemma pad_cases len r : Forall is_byte r ->
  skipn (pad4 len) r = [] \/ exists p, filler (pad4 len) p /\ r = p ++ skipn (pad4 len) r.
Proof.
  intro B. destruct (le_lt_dec (pad4 len) (length r)).
  - right. exists (firstn (pad4 len) r). split; [|now rewrite firstn_skipn]. split; [apply firstn_length_le; assumption|].
    rewrite <- (firstn_skipn (pad4 len) r) in B. apply Forall_app in B. tauto.
  - left. apply skipn_all2. lia.
Qed.
(** Reading a name from any bytes. *)
Lemma name_any bs s rest : Forall is_byte bs -> read_name bs = Ok (s, rest) ->
  name_ok s /\ exists r, bs = u32 (Z.of_nat (length s)) ++ s ++ r /\ rest = skipn (pad4 (length s)) r.
Proof.
  intros B H. apply bind_ok in H. destruct H as (n & mid & H1 & H).
  apply u32_accepts in H1; [|exact B]. destruct H1 as (? & s1 & T & -> & -> & ->). apply Forall_app in B. destruct B as [_ B].
  unfold fits32 in T. apply bind_ok in H. destruct H as (s' & mid2 & H1 & H). apply bind_ok in H1. destruct H1 as (b & mid3 & H1 & H2).
  apply take_bytes_ok in H1; [|lia]. destruct H1 as (-> & L & _). destruct (utf8_valid b) eqn:U; [|discriminate].
  injection H2 as <- <-. apply Forall_app in B. destruct B as [B1 B2].
  change ((pad_skip n;;; ret b) mid3 = Ok (s, rest)) in H. apply bind_ok in H. destruct H as ([] & mid4 & H1 & H2).
  rewrite pad_skip_run in H1 by lia. injection H1 as <-. injection H2 as <- <-.
  split; [apply utf8_valid_text in U; unfold name_ok, fits32; rewrite L; auto|]. exists mid3. rewrite L. split; [reflexivity|].
  f_equal. f_equal. lia.
Qed.
Lemma name_accepts : accepts_pad read_name name_enc name_ok (fun s => s).
Proof.
  intros bs s rest B H. apply name_any in H; [|exact B]. destruct H as (K & r & -> & ->).
  apply Forall_app in B. destruct B as [_ B]. apply Forall_app in B. destruct B as [_ B].
  destruct (pad_cases (length s) r B) as [->|(p & P & E)]; [now left|right].
  exists s, (u32 (Z.of_nat (length s)) ++ s ++ p). split; [exact K|]. split; [|split; [rewrite <- !app_assoc, <- E; reflexivity|reflexivity]].
  exists (u32 (Z.of_nat (length s))), (s ++ p). split; [reflexivity|]. split; [reflexivity|]. exists s, p. repeat split; apply P.
Qed.
(** Reading values from any bytes. *)
Lemma values_run w r : values_ok w ->
  read_values (Z.of_nat (length (wv_bits w))) (wv_type w) (values_bytes w ++ r) =
  Ok (values_meaning w, skipn (pad4 (length (values_bytes w))) r).
Proof.
  rewrite values_bytes_length. destruct w as [t l]. unfold values_ok, bits_ok, values_bytes, values_meaning.
  cbn [wv_type wv_bits]. intros [F L]. unfold fits32 in L.
  assert (PD : forall w r, read_padding (Z.of_nat (length l)) (Z.of_nat w) r = Ok (tt, skipn (pad4 (w * length l)) r)).
  { intros w r'. change (pad_skip (Z.of_nat (length l) * Z.of_nat w) r' = Ok (tt, skipn (pad4 (w * length l)) r')).
    rewrite pad_skip_run by lia. do 4 f_equal. nia. }
  assert (P0 : forall k w : nat, w = (4 * k)%nat -> pad4 (w * length l) = 0%nat).
  { intros k w ->. unfold pad4. rewrite <- Nat.mul_assoc, Nat.mul_comm, Nat.mod_mul by lia. reflexivity. }
  assert (PI : forall k w : nat, (0 < k <= 8)%nat -> k = w -> Forall (fun b => 0 <= b < 256 ^ Z.of_nat k) l ->
    read_be_into (Z.of_nat k) (Z.of_nat (length l)) (concat (map (be_bytes k) l) ++ r) = Ok (l, r)).
  { intros k w K _ F'. apply (proj1 (into_strict k l (Z.of_nat (length l)) ltac:(lia) eq_refl ltac:(unfold isize_max; nia) F')). reflexivity. }
  destruct t; cbn [type_width] in *; unfold read_values.
  - rewrite (bytes_concat_1 l F). rewrite (bind_ok_step _ _ _ l r).
    + rewrite (bind_ok_step _ _ _ _ _ (PD 1%nat r)). reflexivity.
    + apply take_bytes_app; [reflexivity|unfold isize_max; lia].
  - rewrite (bind_ok_step _ _ _ l r).
    + rewrite (bind_ok_step _ _ _ _ _ (PD 1%nat r)). reflexivity.
    + rewrite Nat2Z.id. assert (S : reads_strict (read_times (length l) read_u8) (each (fun b => exactly (be_bytes 1 b)) l) (map (fun x => x) l)).
      { apply times_strict. eapply Forall_impl; [|exact F]. intros b Hb. apply (be_strict 1); [exact Hb|unfold isize_max; lia]. }
      rewrite map_id in S. apply S. apply each_u8. reflexivity.
  - rewrite (bind_ok_step _ _ _ l r) by (apply (PI 2%nat 2%nat); [lia|reflexivity|exact F]).
    rewrite (bind_ok_step _ _ _ _ _ (PD 2%nat r)). reflexivity.
  - rewrite (bind_ok_step _ _ _ l r) by (apply (PI 4%nat 4%nat); [lia|reflexivity|exact F]). rewrite (P0 1%nat 4%nat eq_refl). reflexivity.
  - rewrite (bind_ok_step _ _ _ l r) by (apply (PI 4%nat 4%nat); [lia|reflexivity|exact F]). rewrite (P0 1%nat 4%nat eq_refl). reflexivity.
  - rewrite (bind_ok_step _ _ _ l r) by (apply (PI 8%nat 8%nat); [lia|reflexivity|exact F]). rewrite (P0 2%nat 8%nat eq_refl). reflexivity.
Qed.
Lemma values_short t cnt bs : fits32 cnt -> Z.of_nat (length bs) < cnt * Z.of_nat (type_width t) ->
  read_values cnt t bs = Err EIo.
Proof.
  intros F L. unfold fits32 in F.
  assert (T : forall n, Z.of_nat (length bs) < n -> n <= isize_max -> take_bytes n bs = Err EIo).
  { intros n H1 H2. unfold take_bytes. destruct (Z.gtb_spec n isize_max); [lia|].
    destruct (Z.leb_spec n (Z.of_nat (length bs))); [lia|reflexivity]. }
  assert (TI : forall k, 0 < k <= 8 -> Z.of_nat (length bs) < cnt * k -> read_be_into k cnt bs = Err EIo).
  { intros k K H. unfold read_be_into, bind. rewrite T; [reflexivity|lia|unfold isize_max; nia]. }
  destruct t; cbn [type_width] in L; unfold read_values, bind.
  - rewrite T; [reflexivity|lia|unfold isize_max; lia].
  - replace (read_times (Z.to_nat cnt) read_u8 bs) with (@Err (list Z * bytes) EIo); [reflexivity|].
    symmetry. assert (H : (length bs < Z.to_nat cnt)%nat) by lia. clear -H. revert bs H.
    induction (Z.to_nat cnt) as [|n IH]; intros bs H; [lia|]. cbn [read_times]. destruct bs as [|b bs]; [reflexivity|].
    assert (R : read_u8 (b :: bs) = Ok (be_value [b], bs)).
    { unfold read_u8, read_be. rewrite (bind_ok_step _ _ _ [b] bs); [reflexivity|].
      apply (take_bytes_app 1 [b] bs); [reflexivity|unfold isize_max; lia]. }
    rewrite (bind_ok_step _ _ _ _ _ R). unfold bind. rewrite IH; [reflexivity|]. cbn [length] in H. lia.
  - rewrite TI; [reflexivity|lia|lia].
  - rewrite TI; [reflexivity|lia|lia].
  - rewrite TI; [reflexivity|lia|lia].
  - rewrite TI; [reflexivity|lia|lia].
Qed.
Lemma values_any t cnt bs : fits32 cnt -> Forall is_byte bs -> cnt * Z.of_nat (type_width t) <= Z.of_nat (length bs) ->
  let size := Z.to_nat (cnt * Z.of_nat (type_width t)) in
  exists w, wv_type w = t /\ Z.of_nat (length (wv_bits w)) = cnt /\ bits_ok w /\ values_bytes w = firstn size bs /\
    read_values cnt t bs = Ok (values_meaning w, skipn (size + pad4 size) bs).
Proof.
  intros F B L size. unfold fits32 in F.
  destruct (split_be (type_width t) (Z.to_nat cnt) (firstn size bs)) as (vs & E & N & V).
  { rewrite firstn_length_le by (unfold size; lia). unfold size. nia. }
  { rewrite <- (firstn_skipn size bs) in B. apply Forall_app in B. tauto. }
  exists {| wv_type := t; wv_bits := vs |}. cbn [wv_type wv_bits].
  assert (C : Z.of_nat (length vs) = cnt) by lia.
  assert (K : values_ok {| wv_type := t; wv_bits := vs |}) by (split; [exact V|unfold fits32; cbn [wv_bits]; lia]).
  split; [reflexivity|]. split; [exact C|]. split; [exact V|]. split; [symmetry; exact E|].
  pose proof (values_run _ (skipn size bs) K) as R. cbn [wv_type wv_bits] in R.
  assert (EB : values_bytes {| wv_type := t; wv_bits := vs |} = firstn size bs) by (symmetry; exact E).
  rewrite EB in R. rewrite firstn_skipn, C in R. rewrite R. rewrite firstn_length_le by (unfold size; lia).
  do 2 f_equal. generalize (pad4 size). intro p. clear. revert bs. induction size as [|n IH]; intro bs; [reflexivity|].
  destruct bs as [|b bs]; [now rewrite !skipn_nil|]. apply (IH bs).
Qed.
Lemma values_accepts cnt t bs v rest : fits32 cnt -> Forall is_byte bs -> read_values cnt t bs = Ok (v, rest) ->
  rest = [] \/ exists w s, values_ok w /\ wv_type w = t /\ Z.of_nat (length (wv_bits w)) = cnt /\ values_enc w s /\
    bs = s ++ rest /\ values_meaning w = v.
Proof.
  intros F B H. destruct (Z_lt_le_dec (Z.of_nat (length bs)) (cnt * Z.of_nat (type_width t))) as [C|C].
  { rewrite values_short in H by assumption. discriminate. }
  destruct (values_any t cnt bs F B C) as (w & <- & L & K & E & R). rewrite R in H. injection H as <- <-.
  set (size := Z.to_nat (cnt * Z.of_nat (type_width (wv_type w)))) in *.
  assert (LS : length (firstn size bs) = size) by (apply firstn_length_le; unfold size; lia).
  assert (B2 : Forall is_byte (skipn size bs)) by (rewrite <- (firstn_skipn size bs) in B; apply Forall_app in B; tauto).
  assert (SK : skipn (size + pad4 size) bs = skipn (pad4 size) (skipn size bs)).
  { generalize (pad4 size). intro p. clear. revert bs. induction size as [|n IH]; intro bs; [reflexivity|].
    destruct bs as [|b bs]; [now rewrite !skipn_nil|]. apply (IH bs). }
  rewrite SK. destruct (pad_cases size _ B2) as [->|(p & P & EP)]; [now left|right].
  exists w, (values_bytes w ++ p). split; [split; [exact K|rewrite L; exact F]|]. split; [reflexivity|]. split; [exact L|].
  split; [|split; [|reflexivity]].
  - exists (values_bytes w), p. split; [reflexivity|]. split; [reflexivity|]. rewrite E, LS. exact P.
  - rewrite E, <- app_assoc, <- EP, firstn_skipn. reflexivity.
Qed.
Ltac next_bind H x mid H1 := apply bind_ok in H; destruct H as (x & mid & H1 & H).
Lemma fb_intro (L1 L2 : encoding) a b : L1 a -> L2 b -> (L1 +++ L2) (a ++ b).
Proof. intros. exists a, b. auto. Qed.
Lemma attr_accepts : accepts_pad read_attr attr_enc attr_ok attr_meaning.
Proof.
  intros bs a rest B H. unfold read_attr in H. next_bind H name m1 H1. apply name_accepts in H1; [|exact B].
  destruct H1 as [->|(nm & s1 & N1 & N2 & -> & <-)]; [discriminate H|].
  apply Forall_app in B. destruct B as [_ B]. next_bind H t m2 H1. apply type_accepts in H1; [|exact B].
  destruct H1 as (t' & s2 & _ & T & -> & <-). apply Forall_app in B. destruct B as [_ B].
  next_bind H n m3 H1. apply u32_accepts in H1; [|exact B]. destruct H1 as (n' & s3 & F & C & -> & <-).
  apply Forall_app in B. destruct B as [_ B]. next_bind H v m4 H1. injection H as <- <-.
  apply values_accepts in H1; [|exact F|exact B]. destruct H1 as [->|(w & s4 & W1 & <- & <- & W2 & -> & <-)]; [now left|right].
  exists {| wa_name := nm; wa_values := w |}, (s1 ++ s2 ++ s3 ++ s4). split; [split; assumption|].
  split; [|split; [rewrite <- !app_assoc; reflexivity|reflexivity]].
  repeat (apply fb_intro; [assumption|]). exact W2.
Qed.
Lemma attrs_accepts : accepts_pad read_attr_list (list_enc 12 attr_enc) (list_ok attr_ok) (map attr_meaning).
Proof. apply list_accepts_pad; [exact attr_accepts|]. intros x r. discriminate. Qed.
Lemma dim_accepts : accepts read_dim dim_enc dim_ok (fun d => d).
Proof.
  intros bs a rest B H. unfold read_dim in H. next_bind H name m1 H1. apply name_accepts in H1; [|exact B].
  destruct H1 as [->|(nm & s1 & N1 & N2 & -> & <-)]; [discriminate H|].
  apply Forall_app in B. destruct B as [_ B]. next_bind H n m2 H1. injection H as <- <-.
  apply u32_accepts in H1; [|exact B]. destruct H1 as (n' & s3 & F & C & -> & <-).
  exists {| dim_name := nm; dim_length := n' |}, (s1 ++ s3). split; [split; assumption|].
  split; [|split; [rewrite <- !app_assoc; reflexivity|reflexivity]]. apply fb_intro; assumption.
Qed.
Lemma var_accepts : accepts read_var var_enc var_ok var_meaning.
Proof.
  intros bs a rest B H. unfold read_var in H. next_bind H name m1 H1. apply name_accepts in H1; [|exact B].
  destruct H1 as [->|(nm & s1 & N1 & N2 & -> & <-)]; [discriminate H|].
  apply Forall_app in B. destruct B as [_ B]. next_bind H n m2 H1. apply u32_accepts in H1; [|exact B].
  destruct H1 as (n' & s2 & F & C & -> & <-). apply Forall_app in B. destruct B as [_ B]. unfold fits32 in F.
  next_bind H dims m3 H1. apply (times_accepts _ _ _ _ u32_accepts) in H1; [|exact B].
  destruct H1 as (ds & s3 & D1 & D2 & -> & <- & D3). rewrite map_id in H. apply Forall_app in B. destruct B as [_ B].
  next_bind H attrs m4 H1. apply attrs_accepts in H1; [|exact B].
  destruct H1 as [->|(ats & s4 & A1 & A2 & -> & <-)]; [discriminate H|]. apply Forall_app in B. destruct B as [_ B].
  next_bind H t m5 H1. apply type_accepts in H1; [|exact B]. destruct H1 as (t' & s5 & _ & T & -> & <-).
  apply Forall_app in B. destruct B as [_ B]. next_bind H sz m6 H1. apply u32_accepts in H1; [|exact B].
  destruct H1 as (z & s6 & Z1 & Z2 & -> & <-). apply Forall_app in B. destruct B as [_ B]. next_bind H bg m7 H1.
  injection H as <- <-. apply u64_accepts in H1; [|exact B]. destruct H1 as (b & s7 & B1 & B2 & -> & <-).
  exists {| wr_name := nm; wr_dims := ds; wr_attrs := ats; wr_type := t'; wr_size := z; wr_begin := b |},
    (s1 ++ s2 ++ s3 ++ s4 ++ s5 ++ s6 ++ s7).
  split; [|split; [|split; [rewrite <- !app_assoc; reflexivity|reflexivity]]].
  - unfold var_ok. cbn. split; [exact N1|]. split; [split; [exact D1|unfold fits32; lia]|]. auto.
  - unfold var_enc. cbn [wr_name wr_dims wr_attrs wr_type wr_size wr_begin]. rewrite D3, Z2Nat.id by lia.
    repeat (apply fb_intro; [assumption|]). exact B2.
Qed.
Lemma magic_accepts bs x rest : Forall is_byte bs -> read_magic bs = Ok (x, rest) ->
  x = ([67; 68; 70], 2) /\ bs = [67; 68; 70; 2] ++ rest.
Proof.
  intros B H. unfold read_magic in H. next_bind H m m1 H1. next_bind H1 b m0 H2.
  apply take_bytes_ok in H2; [|lia]. destruct H2 as (-> & _ & _). destruct (utf8_valid b); [|discriminate].
  injection H1 as <- <-. apply Forall_app in B. destruct B as [_ B]. next_bind H v m2 H1.
  apply (read_be_ok 1) in H1; [|exact B]. destruct H1 as (-> & _ & _).
  destruct (bytes_eqb b [67; 68; 70]) eqn:E1; [|discriminate]. destruct (Z.eqb_spec v 2); [|discriminate].
  injection H as <- <-. apply bytes_eqb_eq in E1. subst. split; reflexivity.
Qed.
Lemma header_accepts : accepts read_header header_enc header_ok header_meaning.
Proof.
  intros bs h rest B H. unfold read_header in H. next_bind H m m1 H1. apply magic_accepts in H1; [|exact B].
  destruct H1 as (-> & ->). apply Forall_app in B. destruct B as [_ B].
  next_bind H n m2 H1. apply u32_accepts in H1; [|exact B].
  destruct H1 as (n' & s2 & F & C & -> & <-). apply Forall_app in B. destruct B as [_ B].
  next_bind H dims m3 H1. apply (list_accepts _ _ _ _ _ dim_accepts) in H1; [|exact B].
  destruct H1 as (ds & s3 & D1 & D2 & -> & <-). rewrite map_id in H. apply Forall_app in B. destruct B as [_ B].
  next_bind H attrs m4 H1. apply attrs_accepts in H1; [|exact B].
  destruct H1 as [->|(ats & s4 & A1 & A2 & -> & <-)]; [discriminate H|]. apply Forall_app in B. destruct B as [_ B].
  next_bind H vs m5 H1. injection H as <- <-. apply (list_accepts _ _ _ _ _ var_accepts) in H1; [|exact B].
  destruct H1 as (vrs & s5 & V1 & V2 & -> & <-).
  exists {| wh_recs := n'; wh_dims := ds; wh_attrs := ats; wh_vars := vrs |}, ([67; 68; 70; 2] ++ s2 ++ s3 ++ s4 ++ s5).
  split; [|split; [|split; [rewrite <- !app_assoc; reflexivity|reflexivity]]].
  - split; [exact F|]. split; [exact D1|]. split; [exact A1|exact V1].
  - unfold header_enc. cbn [wh_recs wh_dims wh_attrs wh_vars]. apply fb_intro; [reflexivity|].
    repeat (apply fb_intro; [assumption|]). exact V2.
Qed.

(** ** C25 *)
Lemma byte_size_width t : byte_size t = Z.of_nat (type_width t).
Proof. destruct t; reflexivity. Qed.
Lemma bytes_eqb_refl b : bytes_eqb b b = true.
Proof. apply bytes_eqb_eq. reflexivity. Qed.
Lemma bytes_eqb_neq a b : bytes_eqb a b = false <-> a <> b.
Proof. rewrite <- not_true_iff_false, bytes_eqb_eq. tauto. Qed.
Lemma find_var_first h name v : find_var h name = Some v <-> first_var h name v.
Proof.
  unfold find_var, first_var. induction (h_vars h) as [|u l IH]; cbn [find].
  - split; [discriminate|]. intros (b & a & E & _). destruct b; discriminate.
  - destruct (bytes_eqb (var_name u) name) eqn:E.
    + apply bytes_eqb_eq in E. split.
      * intros [= ->]. exists [], l. auto.
      * intros (b & a & E' & N & F). destruct b as [|u' b]; injection E' as -> ->; [reflexivity|]. inversion F. contradiction.
    + apply bytes_eqb_neq in E. rewrite IH. split.
      * intros (b & a & -> & N & F). exists (u :: b), a. repeat split; [exact N|constructor; assumption].
      * intros (b & a & E' & N & F). destruct b as [|u' b]; injection E' as -> ->; [contradiction|].
        exists b, a. inversion F. auto.
Qed.
Lemma header_var_bounds file h rest v : Forall is_byte file -> read_header file = Ok (h, rest) -> In v (h_vars h) ->
  fits32 (var_size v) /\ 0 <= var_begin v.
Proof.
  intros B H I. apply header_accepts in H; [|exact B]. destruct H as (w & s & (_ & _ & _ & V & _) & _ & _ & <-).
  cbn [header_meaning h_vars] in I. apply in_map_iff in I. destruct I as (u & <- & I).
  rewrite Forall_forall in V. specialize (V u I). destruct V as (_ & _ & _ & S & Bg). cbn. split; [exact S|lia].
Qed.
Lemma announced_bound v : fits32 (var_size v) -> fits32 (announced v).
Proof.
  unfold fits32, announced. intro F. assert (0 < Z.of_nat (type_width (var_type v)) <= 8) by (destruct (var_type v); cbn; lia).
  split; [apply Z.div_pos; lia|]. apply Z.le_lt_trans with (var_size v); [|lia]. apply Z.div_le_upper_bound; nia.
Qed.
Lemma data_by_var file h name : Forall is_byte file -> (forall v, In v (h_vars h) -> fits32 (var_size v) /\ 0 <= var_begin v) ->
  (forall v, find_var h name = Some v -> data_present file v ->
     exists w, wv_type w = var_type v /\ Z.of_nat (length (wv_bits w)) = announced v /\ bits_ok w /\
       values_bytes w = firstn (length (values_bytes w)) (skipn (Z.to_nat (var_begin v)) file) /\
       read_data_by_var file h name = Ok (values_meaning w)) /\
  (forall v, find_var h name = Some v -> ~ data_present file v -> read_data_by_var file h name = Err EIo) /\
  (find_var h name = None -> read_data_by_var file h name = Err EInvalid).
Proof.
  intros B V. unfold read_data_by_var, entry_count. split; [|split].
  - intros v E [P1 P2]. rewrite E. assert (I : In v (h_vars h)).
    { apply find_var_first in E. destruct E as (b & a & -> & _). apply in_or_app. right. now left. }
    destruct (V v I) as [S _]. destruct (Z.ltb_spec isize_max (var_begin v)); [unfold isize_max in *; lia|].
    rewrite byte_size_width. change (var_size v / Z.of_nat (type_width (var_type v))) with (announced v).
    assert (LS : Z.of_nat (length (skipn (Z.to_nat (var_begin v)) file)) = Z.max 0 (Z.of_nat (length file) - var_begin v)).
    { rewrite skipn_length. lia. }
    assert (B2 : Forall is_byte (skipn (Z.to_nat (var_begin v)) file)).
    { rewrite <- (firstn_skipn (Z.to_nat (var_begin v)) file) in B. apply Forall_app in B. tauto. }
    destruct (values_any (var_type v) (announced v) _ (announced_bound v S) B2 ltac:(lia)) as (w & T & L & K & VB & R).
    exists w. repeat split; try assumption.
    + rewrite VB at 1. rewrite values_bytes_length. f_equal. rewrite T. clear -L. nia.
    + rewrite R. reflexivity.
  - intros v E NP. rewrite E. assert (I : In v (h_vars h)).
    { apply find_var_first in E. destruct E as (b & a & -> & _). apply in_or_app. right. now left. }
    destruct (V v I) as [S Z0]. destruct (Z.ltb_spec isize_max (var_begin v)); [reflexivity|].
    rewrite byte_size_width. change (var_size v / Z.of_nat (type_width (var_type v))) with (announced v).
    rewrite values_short; [reflexivity|apply announced_bound, S|]. rewrite skipn_length.
    assert (~ announced v * Z.of_nat (type_width (var_type v)) <= Z.max 0 (Z.of_nat (length file) - var_begin v)).
    { intro Q. apply NP. split; [unfold isize_max in *; lia|exact Q]. }
    lia.
  - intro E. rewrite E. reflexivity.
Qed.
Lemma map_get_insert k k' v m : map_get k' (map_insert k v m) = if bytes_eqb k k' then Some v else map_get k' m.
Proof.
  unfold map_get, map_insert. cbn [find fst]. destruct (bytes_eqb k k') eqn:E; [reflexivity|].
  apply bytes_eqb_neq in E. f_equal. induction m as [|[a b] m IH]; [reflexivity|]. cbn [filter find fst].
  destruct (bytes_eqb a k) eqn:E1; cbn [negb find fst].
  - apply bytes_eqb_eq in E1. subst a. apply bytes_eqb_neq in E. rewrite E. exact IH.
  - destruct (bytes_eqb a k'); [reflexivity|exact IH].
Qed.
Lemma data_map_get file h names : forall m d, read_data_map file h names m = Ok d -> forall k,
  (In k names -> exists v, read_data_by_var file h k = Ok v /\ map_get k d = Some v) /\
  (~ In k names -> map_get k d = map_get k m).
Proof.
  induction names as [|n names IH]; intros m d H k; cbn [read_data_map] in H.
  - injection H as <-. split; [intros []|reflexivity].
  - destruct (read_data_by_var file h n) as [v|e|] eqn:R; try discriminate. cbn [obind] in H.
    destruct (IH _ _ H k) as [H1 H2]. split.
    + intros [->|I]; [|apply H1, I]. destruct (in_dec (list_eq_dec Z.eq_dec) k names) as [I|I]; [apply H1, I|].
      exists v. split; [exact R|]. rewrite (H2 I), map_get_insert, bytes_eqb_refl. reflexivity.
    + intro I. rewrite H2 by (intro; apply I; now right). rewrite map_get_insert.
      replace (bytes_eqb n k) with false; [reflexivity|]. symmetry. apply bytes_eqb_neq. intros ->. apply I. now left.
Qed.
Lemma data_map_ok file h names : forall m, (forall k, In k names -> exists v, read_data_by_var file h k = Ok v) ->
  exists d, read_data_map file h names m = Ok d.
Proof.
  induction names as [|n names IH]; intros m H; cbn [read_data_map]; [eauto|].
  destruct (H n (or_introl eq_refl)) as (v & ->). cbn [obind]. apply IH. intros k I. apply H. now right.
Qed.
Lemma data_map_err file h names : forall m, (forall k, read_data_by_var file h k <> Panic) ->
  (exists k, In k names /\ forall v, read_data_by_var file h k <> Ok v) ->
  exists e, read_data_map file h names m = Err e.
Proof.
  induction names as [|n names IH]; intros m NP (k & I & H); [destruct I|]. cbn [read_data_map].
  destruct (read_data_by_var file h n) as [v|e|] eqn:R; cbn [obind]; [|eauto|exfalso; exact (NP n R)].
  apply IH; [exact NP|]. destruct I as [->|I]; [exfalso; exact (H v R)|eauto].
Qed.

Lemma c23_round_trip_proof : forall h bs rest, header_ok h -> header_enc h bs ->
  read_header (bs ++ rest) = Ok (header_meaning h, rest).
Proof. intros h bs rest K E. apply (proj1 (header_strict h K)). exact E. Qed.

Lemma c23_encodable_proof : forall h, header_ok h -> exists bs, header_enc h bs /\ Forall is_byte bs.
Proof.
  assert (FI : forall n, exists s, filler n s /\ Forall is_byte s).
  { intro n. exists (repeat 0 n). assert (Forall is_byte (repeat 0 n)) by (apply Forall_forall; intros x I; apply repeat_spec in I; subst; unfold is_byte; lia).
    split; [split; [apply repeat_length|]|]; assumption. }
  assert (SQ : forall L1 L2 : encoding, (exists s, L1 s /\ Forall is_byte s) -> (exists s, L2 s /\ Forall is_byte s) ->
    exists s, (L1 +++ L2) s /\ Forall is_byte s).
  { intros L1 L2 (a & A1 & A2) (b & B1 & B2). exists (a ++ b). split; [apply fb_intro; assumption|apply Forall_app; auto]. }
  assert (EX : forall n v, exists s, exactly (be_bytes n v) s /\ Forall is_byte s) by (intros n v; exists (be_bytes n v); split; [reflexivity|apply be_bytes_is_byte]).
  assert (EA : forall A (f : A -> encoding) l, Forall (fun a => exists s, f a s /\ Forall is_byte s) l -> exists s, each f l s /\ Forall is_byte s).
  { intros A f l. induction 1; cbn [each]; [exists []; split; [reflexivity|constructor]|]. apply SQ; assumption. }
  assert (LI : forall A tag (f : A -> encoding) l, Forall (fun a => exists s, f a s /\ Forall is_byte s) l -> exists s, list_enc tag f l s /\ Forall is_byte s).
  { intros A tag f l F. destruct l; [apply SQ; apply EX|]. apply SQ; [apply EX|]. apply SQ; [apply EX|]. apply EA. exact F. }
  assert (NA : forall s, name_ok s -> exists b, name_enc s b /\ Forall is_byte b).
  { intros s (B & _). apply SQ; [apply EX|]. apply SQ; [exists s; split; [reflexivity|exact B]|apply FI]. }
  assert (VA : forall w, exists b, values_enc w b /\ Forall is_byte b).
  { intro w. apply SQ; [|apply FI]. exists (values_bytes w). split; [reflexivity|]. unfold values_bytes.
    apply Forall_concat, Forall_map, Forall_forall. intros x _. apply be_bytes_is_byte. }
  assert (AT : forall a, attr_ok a -> exists b, attr_enc a b /\ Forall is_byte b).
  { intros a [N _]. apply SQ; [apply NA, N|]. apply SQ; [apply EX|]. apply SQ; [apply EX|]. apply VA. }
  intros h (_ & [D _] & [A _] & [V _]). apply SQ.
  { exists [67; 68; 70; 2]. split; [reflexivity|]. repeat constructor; unfold is_byte; lia. }
  apply SQ; [apply EX|]. apply SQ.
  { apply LI. eapply Forall_impl; [|exact D]. intros d [N _]. apply SQ; [apply NA, N|apply EX]. }
  apply SQ; [apply LI; eapply Forall_impl; [|exact A]; apply AT|].
  apply LI. eapply Forall_impl; [|exact V]. intros v (N & _ & [VA' _] & _).
  apply SQ; [apply NA, N|]. apply SQ; [apply EX|]. apply SQ; [apply EA, Forall_forall; intros x _; apply EX|].
  apply SQ; [apply LI; eapply Forall_impl; [|exact VA']; apply AT|]. apply SQ; [apply EX|]. apply SQ; apply EX.
Qed.

Lemma c24_least_proof : forall n, ((n + pad4 n) mod 4 = 0 /\ forall k, (n + k) mod 4 = 0 -> pad4 n <= k)%nat.
Proof.
  intro n. pose proof (Nat.div_mod n 4 ltac:(lia)) as D. pose proof (Nat.mod_upper_bound n 4 ltac:(lia)) as U.
  unfold pad4. set (r := (n mod 4)%nat) in *. set (q := (n / 4)%nat) in *. clearbody r q. subst n.
  assert (M : forall k, ((4 * q + r + k) mod 4 = (r + k) mod 4)%nat).
  { intro k. replace (4 * q + r + k)%nat with (r + k + q * 4)%nat by lia. apply Nat.mod_add. lia. }
  split.
  - rewrite M. destruct r as [|[|[|[|r]]]]; [reflexivity..|lia].
  - intros k H. rewrite M in H. destruct r as [|[|[|[|r]]]]; cbn [Nat.sub]; [apply Nat.le_0_l| | | |lia].
    + change ((4 - 1) mod 4)%nat with 3%nat. destruct k as [|[|[|k]]]; [discriminate..|lia].
    + change ((4 - 2) mod 4)%nat with 2%nat. destruct k as [|[|k]]; [discriminate..|lia].
    + change ((4 - 3) mod 4)%nat with 1%nat. destruct k as [|k]; [discriminate|lia].
Qed.

Lemma c24_name_proof : forall bs s rest, Forall is_byte bs -> read_name bs = Ok (s, rest) ->
  (exists r, bs = be_bytes 4 (Z.of_nat (length s)) ++ s ++ r) /\ is_text s /\
  rest = skipn (4 + length s + pad4 (length s)) bs.
Proof.
  intros bs s rest B H. apply name_any in H; [|exact B]. destruct H as ((_ & U & _) & r & -> & ->).
  split; [unfold u32; eauto|]. split; [exact U|]. rewrite app_assoc, skipn_app.
  assert (L : length (u32 (Z.of_nat (length s)) ++ s) = (4 + length s)%nat) by (rewrite app_length; unfold u32; rewrite be_bytes_length; reflexivity).
  rewrite (skipn_all2 (u32 (Z.of_nat (length s)) ++ s)) by lia. rewrite L. cbn [app]. f_equal. lia.
Qed.

Lemma c24_refused_proof : forall s r, Z.of_nat (length s) < 2 ^ 32 -> ~ is_text s ->
  read_name (be_bytes 4 (Z.of_nat (length s)) ++ s ++ r) = Err EUtf8.
Proof.
  intros s r F N. unfold read_name. unfold bind at 1. assert (F' : fits32 (Z.of_nat (length s))) by (unfold fits32; lia).
  rewrite (proj1 (strict_reads _ _ _ (u32_strict (Z.of_nat (length s)) F'))) by reflexivity.
  unfold bind at 1, read_n_chars. unfold bind at 1.
  assert (T : take_bytes (Z.of_nat (length s)) (s ++ r) = Ok (s, r)).
  { apply (proj1 (take_strict (Z.of_nat (length s)) s eq_refl ltac:(unfold isize_max; lia))). reflexivity. }
  rewrite T. destruct (utf8_valid s) eqn:U; [|reflexivity]. exfalso. apply N, utf8_valid_text, U.
Qed.

Lemma c24_values_proof : forall t cnt bs, 0 <= cnt < 2 ^ 32 -> Forall is_byte bs ->
  let size := Z.to_nat (cnt * Z.of_nat (type_width t)) in
  (cnt * Z.of_nat (type_width t) <= Z.of_nat (length bs) ->
     exists w, wv_type w = t /\ Z.of_nat (length (wv_bits w)) = cnt /\ bits_ok w /\ values_bytes w = firstn size bs /\
       read_values cnt t bs = Ok (values_meaning w, skipn (size + pad4 size) bs)) /\
  (Z.of_nat (length bs) < cnt * Z.of_nat (type_width t) -> read_values cnt t bs = Err EIo).
Proof. intros t cnt bs F B size. split; [apply values_any; assumption|apply values_short; exact F]. Qed.

Lemma c25_values_proof : forall names file d, Forall is_byte file -> read_document names file = Ok d ->
  (exists rest, read_header file = Ok (doc_header d, rest)) /\
  (forall name, In name names -> exists v w, first_var (doc_header d) name v /\ data_present file v /\
     wv_type w = var_type v /\ Z.of_nat (length (wv_bits w)) = announced v /\ bits_ok w /\
     values_bytes w = firstn (length (values_bytes w)) (skipn (Z.to_nat (var_begin v)) file) /\
     map_get name (doc_data d) = Some (values_meaning w)) /\
  (forall name, ~ In name names -> map_get name (doc_data d) = None).
Proof.
  intros names file d B H. unfold read_document in H. destruct (read_header file) as [[h rest]|e|] eqn:R; try discriminate.
  cbn [obind] in H. destruct (read_data_map file h names []) as [m|e|] eqn:M; try discriminate. injection H as <-.
  cbn [doc_header doc_data]. split; [eauto|].
  assert (VB : forall v, In v (h_vars h) -> fits32 (var_size v) /\ 0 <= var_begin v) by (intros; eapply header_var_bounds; eassumption).
  split; intros name I; destruct (data_map_get _ _ _ _ _ M name) as [M1 M2].
  - destruct (M1 I) as (x & X1 & X2). destruct (data_by_var file h name B VB) as (Q1 & Q2 & Q3).
    destruct (find_var h name) as [v|] eqn:F; [|rewrite Q3 in X1 by reflexivity; discriminate].
    assert (P : data_present file v).
    { unfold data_present. destruct (Z_lt_le_dec (var_begin v) (2 ^ 63)); [destruct (Z_le_gt_dec (announced v * Z.of_nat (type_width (var_type v))) (Z.max 0 (Z.of_nat (length file) - var_begin v)))|].
      - split; [|assumption]. split; [|assumption]. apply VB. apply find_var_first in F. destruct F as (b & a & -> & _). apply in_or_app. right. now left.
      - exfalso. rewrite (Q2 v eq_refl) in X1; [discriminate|]. intros [_ P]. lia.
      - exfalso. rewrite (Q2 v eq_refl) in X1; [discriminate|]. intros [P _]. lia. }
    destruct (Q1 v eq_refl P) as (w & W1 & W2 & W3 & W4 & W5). rewrite W5 in X1. injection X1 as <-.
    exists v, w. split; [apply find_var_first; exact F|]. auto 10.
  - rewrite (M2 I). reflexivity.
Qed.

Lemma c25_complete_proof : forall names file h rest, Forall is_byte file -> read_header file = Ok (h, rest) ->
  ((forall name, In name names -> exists v, first_var h name v /\ data_present file v) ->
     exists d, read_document names file = Ok d) /\
  (forall name, In name names -> (forall v, first_var h name v -> ~ data_present file v) ->
     exists e, read_document names file = Err e).
Proof.
  intros names file h rest B R. unfold read_document. rewrite R. cbn [obind].
  assert (VB : forall v, In v (h_vars h) -> fits32 (var_size v) /\ 0 <= var_begin v) by (intros; eapply header_var_bounds; eassumption).
  split.
  - intro H. destruct (data_map_ok file h names []) as (m & ->); [|eexists; reflexivity].
    intros k I. destruct (H k I) as (v & F & P). apply find_var_first in F.
    destruct (data_by_var file h k B VB) as (Q1 & _). destruct (Q1 v F P) as (w & _ & _ & _ & _ & E). eauto.
  - intros name I H. destruct (data_map_err file h names []) as (e & ->); [| |eexists; reflexivity].
    + intros k. destruct (data_by_var file h k B VB) as (Q1 & Q2 & Q3). destruct (find_var h k) as [v|] eqn:F; [|rewrite Q3 by reflexivity; discriminate].
      intro E. assert (NP : ~ data_present file v) by (intro P; destruct (Q1 v eq_refl P) as (w & _ & _ & _ & _ & E'); rewrite E' in E; discriminate).
      rewrite (Q2 v eq_refl NP) in E. discriminate.
    + exists name. split; [exact I|]. intros x E. destruct (data_by_var file h name B VB) as (Q1 & Q2 & Q3).
      destruct (find_var h name) as [v|] eqn:F; [|rewrite Q3 in E by reflexivity; discriminate].
      rewrite (Q2 v eq_refl) in E; [discriminate|]. apply H, find_var_first, F.
Qed.

Lemma c26_magic_proof : forall names file d, Forall is_byte file -> read_document names file = Ok d ->
  exists rest, file = [67; 68; 70; 2] ++ rest.
Proof.
  intros names file d B H. unfold read_document in H. destruct (read_header file) as [[h rest]|e|] eqn:R; try discriminate.
  unfold read_header in R. apply bind_ok in R. destruct R as (m & mid & R & _). apply magic_accepts in R; [|exact B].
  destruct R as [_ ->]. eauto.
Qed.

Lemma c26_truncated_proof : forall h c d names, header_ok h -> header_enc h (c ++ d) -> d <> [] ->
  read_header c = Err EIo /\ read_document names c = Err EIo.
Proof.
  intros h c d names K E N. assert (R : read_header c = Err EIo) by (eapply (proj2 (header_strict h K)); eassumption).
  split; [exact R|]. unfold read_document. rewrite R. reflexivity.
Qed.

Lemma c27_pairs_proof : forall d lats lons,
  map_get CLAT (doc_data d) = Some (DoubleValues lats) -> map_get CLON (doc_data d) = Some (DoubleValues lons) ->
  (length lats <> length lons -> lat_lon_values d = Err EInvalid) /\
  (length lats = length lons -> exists cs, lat_lon_values d = Ok cs /\ length cs = length lats /\
     forall i la lo, nth_error lats i = Some la -> nth_error lons i = Some lo ->
       nth_error cs i = Some (lat_lon_new (f32_of_f64 (to_degrees64 la)) (f32_of_f64 (to_degrees64 lo)))).
Proof.
  intros d lats lons E1 E2. unfold lat_lon_values. rewrite E1, E2. cbn [get_doubles obind].
  destruct (Nat.eqb_spec (length lats) (length lons)) as [E|E]; cbn [negb]; (split; intro H; [try contradiction; auto|try contradiction]).
  eexists. split; [reflexivity|]. rewrite map_length, combine_length. split; [lia|].
  intros i la lo H1 H2. rewrite nth_error_map. assert (C : nth_error (combine lats lons) i = Some (la, lo)).
  { clear -H1 H2. revert lats lons H1 H2. induction i as [|i IH]; intros [|a l] [|b m] H1 H2; try discriminate; cbn in *.
    - congruence.
    - apply IH; assumption. }
  rewrite C. reflexivity.
Qed.

Lemma c27_errors_proof : forall d,
  (map_get CLAT (doc_data d) = None \/ map_get CLON (doc_data d) = None -> lat_lon_values d = Err EInvalid) /\
  (lat_lon_values d = Panic <-> exists a b, map_get CLAT (doc_data d) = Some a /\ map_get CLON (doc_data d) = Some b /\
     ~ ((exists l, a = DoubleValues l) /\ (exists l, b = DoubleValues l))).
Proof.
  intro d. unfold lat_lon_values. split.
  - intros [->| ->]; [reflexivity|]. destruct (map_get CLAT (doc_data d)); reflexivity.
  - destruct (map_get CLAT (doc_data d)) as [a|]; [destruct (map_get CLON (doc_data d)) as [b|]|].
    + split.
      * intro H. exists a, b. split; [reflexivity|]. split; [reflexivity|]. intros [[l ->] [l' ->]]. cbn in H.
        destruct (negb _); discriminate.
      * intros (a' & b' & [= <-] & [= <-] & N). destruct a; try reflexivity. destruct b; try reflexivity.
        exfalso. apply N. eauto.
    + split; [discriminate|]. intros (x & y & _ & [=] & _).
    + split; [discriminate|]. intros (x & y & [=] & _).
Qed.
