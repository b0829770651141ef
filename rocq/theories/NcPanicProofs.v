(** Proofs about the panics of the NetCDF reader (C26). *)
From Coq Require Import ZArith List Bool Lia.
From Verif Require Import Base F32 Grib2Model Grib2Spec BaseFacts GeoModel Utf8Spec Utf8Proofs NetCdfModel NetCdfSpec NetCdfProofs NcPanicSpec.
Import ListNotations.
Open Scope Z_scope.

(** ** Where a panic comes from *)

(** [m] panics only if the bytes start with a string of [bad]. *)
Definition blames {A} (m : reader A) (bad : encoding) : Prop :=
  forall bs, Forall is_byte bs -> m bs = Panic -> exists b r, bs = b ++ r /\ bad b.
Definition nowhere : encoding := fun _ => False.

Lemma accepts_weak {A W} (m : reader A) enc (ok : W -> Prop) mean : accepts m enc ok mean -> accepts_pad m enc ok mean.
Proof. intros R bs x rest B H. right. exact (R bs x rest B H). Qed.
Lemma blames_take n : n <= isize_max -> forall bs, take_bytes n bs <> Panic.
Proof. intros L bs H. unfold take_bytes in H. destruct (Z.gtb_spec n isize_max); [lia|]. destruct (_ <=? _); discriminate. Qed.
Lemma be_never n bs : n <= isize_max -> read_be n bs <> Panic.
Proof.
  intros L H. unfold read_be in H. apply bind_panic in H. destruct H as [H|(x & mid & _ & H)]; [exact (blames_take n L bs H)|discriminate].
Qed.
Lemma u32_never bs : read_u32 bs <> Panic.
Proof. apply be_never. unfold isize_max. lia. Qed.
Lemma u64_never bs : read_u64 bs <> Panic.
Proof. apply be_never. unfold isize_max. lia. Qed.
Lemma u8_never bs : read_u8 bs <> Panic.
Proof. apply be_never. unfold isize_max. lia. Qed.
Lemma chars_never n bs : n <= isize_max -> read_n_chars n bs <> Panic.
Proof.
  intros L H. unfold read_n_chars in H. apply bind_panic in H. destruct H as [H|(x & mid & _ & H)]; [exact (blames_take n L bs H)|].
  destruct (utf8_valid x); discriminate.
Qed.
Lemma name_never bs : Forall is_byte bs -> read_name bs <> Panic.
Proof.
  intros B H. unfold read_name in H. apply bind_panic in H. destruct H as [H|(n & m1 & H1 & H)]; [exact (u32_never bs H)|].
  apply u32_accepts in H1; [|exact B]. destruct H1 as (n' & s & F & _ & _ & <-). unfold fits32 in F.
  apply bind_panic in H. destruct H as [H|(s' & m2 & _ & H)]; [refine (chars_never _ _ _ H); unfold isize_max; lia|].
  apply bind_panic in H. destruct H as [H|(u & m3 & _ & H)]; [|discriminate].
  destruct (0 <? n' mod 4); discriminate.
Qed.
Lemma type_blames : blames read_nc_type bad_type.
Proof.
  intros bs B H. unfold read_nc_type in H. apply bind_panic in H. destruct H as [H|(n & m1 & H1 & H)]; [destruct (u32_never bs H)|].
  apply u32_accepts in H1; [|exact B]. destruct H1 as (n' & s & F & -> & -> & <-).
  exists (u32 n'), m1. split; [reflexivity|]. exists n'. split; [|reflexivity]. split; [exact F|].
  repeat match type of H with (if n' =? ?k then _ else _) _ = _ => destruct (Z.eqb_spec n' k); [discriminate|] end. lia.
Qed.
Lemma values_never cnt t bs : fits32 cnt -> Forall is_byte bs -> read_values cnt t bs <> Panic.
Proof.
  intros F B H. destruct (Z_lt_le_dec (Z.of_nat (length bs)) (cnt * Z.of_nat (type_width t))) as [C|C].
  - rewrite values_short in H by assumption. discriminate.
  - destruct (values_any t cnt bs F B C) as (w & _ & _ & _ & _ & R). rewrite R in H. discriminate.
Qed.
Lemma attr_blames : blames read_attr bad_attr.
Proof.
  intros bs B H. unfold read_attr in H. apply bind_panic in H. destruct H as [H|(nm & m1 & H1 & H)]; [destruct (name_never bs B H)|].
  apply name_accepts in H1; [|exact B]. destruct H1 as [->|(nm' & s1 & N1 & N2 & -> & <-)]; [discriminate H|].
  apply Forall_app in B. destruct B as [_ B]. apply bind_panic in H. destruct H as [H|(t & m2 & H1 & H)].
  { apply type_blames in H; [|exact B]. destruct H as (b & r & -> & T). exists (s1 ++ b), r. rewrite app_assoc. split; [reflexivity|].
    apply fb_intro; [exists nm'; auto|exact T]. }
  exfalso. apply type_accepts in H1; [|exact B]. destruct H1 as (t' & s2 & _ & T & -> & <-). apply Forall_app in B. destruct B as [_ B].
  apply bind_panic in H. destruct H as [H|(n & m3 & H1 & H)]; [exact (u32_never _ H)|].
  apply u32_accepts in H1; [|exact B]. destruct H1 as (n' & s3 & F & C & -> & <-). apply Forall_app in B. destruct B as [_ B].
  apply bind_panic in H. destruct H as [H|(v & m4 & _ & H)]; [exact (values_never _ _ _ F B H)|discriminate].
Qed.
Lemma dim_never bs : Forall is_byte bs -> read_dim bs <> Panic.
Proof.
  intros B H. unfold read_dim in H. apply bind_panic in H. destruct H as [H|(nm & m1 & H1 & H)]; [exact (name_never bs B H)|].
  apply bind_panic in H. destruct H as [H|(n & m2 & _ & H)]; [exact (u32_never _ H)|discriminate].
Qed.
Lemma times_blames {A W} (m : reader A) enc (ok : W -> Prop) mean bad : accepts_pad m enc ok mean ->
  (forall n, read_times n m [] <> Panic) -> blames m bad ->
  forall n bs, Forall is_byte bs -> read_times n m bs = Panic ->
  exists ws s b r, bs = s ++ b ++ r /\ (length ws < n)%nat /\ Forall ok ws /\ each enc ws s /\ bad b.
Proof.
  intros R E P. induction n as [|n IH]; intros bs B H; [discriminate|]. cbn [read_times] in H.
  apply bind_panic in H. destruct H as [H|(x & m1 & H1 & H)].
  { apply P in H; [|exact B]. destruct H as (b & r & -> & Q). exists [], [], b, r. split; [reflexivity|]. split; [cbn; lia|].
    split; [constructor|]. split; [reflexivity|exact Q]. }
  apply bind_panic in H. destruct H as [H|(l & m2 & _ & H)]; [|discriminate].
  apply R in H1; [|exact B]. destruct H1 as [->|(w & s & W1 & W2 & -> & _)]; [destruct (E n H)|].
  apply Forall_app in B. destruct B as [_ B]. apply IH in H; [|exact B].
  destruct H as (ws & s' & b & r & -> & L & F & Q & D). exists (w :: ws), (s ++ s'), b, r.
  split; [now rewrite <- app_assoc|]. split; [cbn [length]; lia|]. split; [constructor; assumption|].
  split; [apply fb_intro; assumption|exact D].
Qed.
Lemma times_nil {A} (m : reader A) n : m [] = Err EIo -> read_times n m [] <> Panic.
Proof. intros M H. destruct n; [discriminate|]. cbn [read_times] in H. unfold bind in H. rewrite M in H. discriminate. Qed.
Lemma list_blames {A W} tag (m : reader A) enc (ok : W -> Prop) mean bad : accepts_pad m enc ok mean -> m [] = Err EIo ->
  blames m bad -> blames (read_list tag m) (bad_list tag ok enc bad).
Proof.
  intros R E P bs B H. unfold read_list in H. apply bind_panic in H. destruct H as [H|(t & m1 & H1 & H)]; [destruct (u32_never _ H)|].
  apply u32_accepts in H1; [|exact B]. destruct H1 as (? & s1 & T & -> & -> & ->). apply Forall_app in B. destruct B as [_ B].
  apply bind_panic in H. destruct H as [H|(n & m2 & H1 & H)]; [destruct (u32_never _ H)|].
  apply u32_accepts in H1; [|exact B]. destruct H1 as (? & s2 & N & -> & -> & ->). apply Forall_app in B. destruct B as [_ B].
  unfold fits32 in N. destruct ((t =? 0) && (n =? 0)); [discriminate|].
  destruct (Z.eqb_spec t tag) as [->|]; [|discriminate]. destruct (Z.ltb_spec 0 n); [|discriminate]. cbn [andb] in H.
  apply (times_blames m enc ok mean bad R (fun k => times_nil m k E) P) in H; [|exact B].
  destruct H as (ws & s & b & r & -> & L & F & Q & D). exists (u32 tag ++ u32 n ++ s ++ b), r.
  split; [now rewrite <- !app_assoc|]. exists (n, ws). split; [split; [lia|exact F]|].
  apply fb_intro; [reflexivity|]. apply fb_intro; [reflexivity|]. apply fb_intro; assumption.
Qed.
Lemma attrs_blames : blames read_attr_list bad_attrs.
Proof. apply (list_blames _ _ _ _ attr_meaning); [exact attr_accepts|reflexivity|exact attr_blames]. Qed.
Lemma var_blames : blames read_var bad_var.
Proof.
  intros bs B H. unfold read_var in H. apply bind_panic in H. destruct H as [H|(nm & m1 & H1 & H)]; [destruct (name_never bs B H)|].
  apply name_accepts in H1; [|exact B]. destruct H1 as [->|(nm' & s1 & N1 & N2 & -> & <-)]; [discriminate H|].
  apply Forall_app in B. destruct B as [_ B].
  apply bind_panic in H. destruct H as [H|(n & m2 & H1 & H)]; [destruct (u32_never _ H)|].
  apply u32_accepts in H1; [|exact B]. destruct H1 as (n' & s2 & F & C & -> & <-). apply Forall_app in B. destruct B as [_ B]. unfold fits32 in F.
  apply bind_panic in H. destruct H as [H|(dims & m3 & H1 & H)].
  { exfalso. apply (times_blames read_u32 _ _ _ nowhere (accepts_weak _ _ _ _ u32_accepts)) in H;
      [|intro k; now apply times_nil|intros b _ Q; destruct (u32_never b Q)|exact B].
    destruct H as (? & ? & ? & ? & _ & _ & _ & _ & D). exact D. }
  apply (times_accepts _ _ _ _ u32_accepts) in H1; [|exact B].
  destruct H1 as (ds & s3 & D1 & D2 & -> & _ & D3). apply Forall_app in B. destruct B as [_ B].
  assert (DS : some (list_ok fits32) dims_enc (s2 ++ s3)).
  { exists ds. split; [split; [exact D1|unfold fits32; lia]|]. unfold dims_enc. rewrite D3, Z2Nat.id by lia. apply fb_intro; assumption. }
  assert (NM : some name_ok name_enc s1) by (exists nm'; auto).
  apply bind_panic in H. destruct H as [H|(attrs & m4 & H1 & H)].
  { apply attrs_blames in H; [|exact B]. destruct H as (b & r & -> & Q). exists (s1 ++ (s2 ++ s3) ++ b), r.
    split; [now rewrite <- !app_assoc|]. apply fb_intro; [exact NM|]. apply fb_intro; [exact DS|]. left. exact Q. }
  apply attrs_accepts in H1; [|exact B].
  destruct H1 as [->|(ats & s4 & A1 & A2 & -> & _)]; [discriminate H|]. apply Forall_app in B. destruct B as [_ B].
  apply bind_panic in H. destruct H as [H|(t & m5 & H1 & H)].
  { apply type_blames in H; [|exact B]. destruct H as (b & r & -> & Q). exists (s1 ++ (s2 ++ s3) ++ s4 ++ b), r.
    split; [now rewrite <- !app_assoc|]. apply fb_intro; [exact NM|]. apply fb_intro; [exact DS|]. right.
    apply fb_intro; [exists ats; auto|exact Q]. }
  exfalso. apply bind_panic in H. destruct H as [H|(sz & m6 & _ & H)]; [exact (u32_never _ H)|].
  apply bind_panic in H. destruct H as [H|(bg & m7 & _ & H)]; [exact (u64_never _ H)|discriminate].
Qed.
Lemma magic_never bs : read_magic bs <> Panic.
Proof.
  intro H. unfold read_magic in H. apply bind_panic in H. destruct H as [H|(m & m1 & _ & H)].
  - refine (chars_never _ _ _ H). unfold isize_max. lia.
  - apply bind_panic in H. destruct H as [H|(v & m2 & _ & H)]; [exact (u8_never _ H)|].
    destruct (negb (bytes_eqb m _)); [discriminate|]. destruct (negb (v =? 2)); discriminate.
Qed.
Lemma header_blames : blames read_header bad_header.
Proof.
  intros bs B H. unfold read_header in H. apply bind_panic in H. destruct H as [H|(m & m1 & H1 & H)]; [destruct (magic_never _ H)|].
  apply magic_accepts in H1; [|exact B]. destruct H1 as (-> & ->). apply Forall_app in B. destruct B as [_ B].
  apply bind_panic in H. destruct H as [H|(n & m2 & H1 & H)]; [destruct (u32_never _ H)|].
  apply u32_accepts in H1; [|exact B]. destruct H1 as (n' & s2 & F & C & -> & <-). apply Forall_app in B. destruct B as [_ B].
  assert (RC : some fits32 (fun n => exactly (u32 n)) s2) by (exists n'; auto).
  apply bind_panic in H. destruct H as [H|(dims & m3 & H1 & H)].
  { exfalso. apply (list_blames 10 read_dim dim_enc dim_ok (fun d => d) nowhere) in H;
      [|apply accepts_weak, dim_accepts|reflexivity|intros b Bb Q; destruct (dim_never b Bb Q)|exact B].
    destruct H as (b & r & _ & ([k l] & _ & (? & ? & _ & _ & ? & ? & _ & _ & ? & ? & _ & _ & D))). exact D. }
  apply (list_accepts _ _ _ _ _ dim_accepts) in H1; [|exact B].
  destruct H1 as (ds & s3 & D1 & D2 & -> & _). apply Forall_app in B. destruct B as [_ B].
  assert (DS : some (list_ok dim_ok) (list_enc 10 dim_enc) s3) by (exists ds; auto).
  apply bind_panic in H. destruct H as [H|(attrs & m4 & H1 & H)].
  { apply attrs_blames in H; [|exact B]. destruct H as (b & r & -> & Q). exists ([67; 68; 70; 2] ++ s2 ++ s3 ++ b), r.
    split; [now rewrite <- !app_assoc|]. apply fb_intro; [reflexivity|]. apply fb_intro; [exact RC|]. apply fb_intro; [exact DS|]. left. exact Q. }
  apply attrs_accepts in H1; [|exact B].
  destruct H1 as [->|(ats & s4 & A1 & A2 & -> & _)]; [discriminate H|]. apply Forall_app in B. destruct B as [_ B].
  apply bind_panic in H. destruct H as [H|(vs & m5 & _ & H)]; [|discriminate].
  apply (list_blames 11 read_var var_enc var_ok var_meaning bad_var) in H;
    [|apply accepts_weak, var_accepts|reflexivity|exact var_blames|exact B].
  destruct H as (b & r & -> & Q). exists ([67; 68; 70; 2] ++ s2 ++ s3 ++ s4 ++ b), r.
  split; [now rewrite <- !app_assoc|]. apply fb_intro; [reflexivity|]. apply fb_intro; [exact RC|]. apply fb_intro; [exact DS|]. right.
  apply fb_intro; [exists ats; auto|exact Q].
Qed.

(** ** Every such string makes the reader panic *)

Definition dooms {A} (m : reader A) (bad : encoding) : Prop := forall b r, bad b -> m (b ++ r) = Panic.
Lemma dooms_bind {A B W} (m : reader A) (k : A -> reader B) (ok : W -> Prop) enc mean bad :
  (forall w, ok w -> reads m (enc w) (mean w)) -> (forall x, dooms (k x) bad) -> dooms (bind m k) (some ok enc +++ bad).
Proof.
  intros R D b r (s1 & s2 & -> & (w & O & E) & Q). rewrite <- app_assoc. unfold bind. rewrite (proj1 (R w O) s1 _ E). apply D, Q.
Qed.
Lemma type_dooms {B} (k : nc_type -> reader B) : dooms (bind read_nc_type k) bad_type.
Proof.
  intros b r (c & (F & N) & ->). unfold read_nc_type, bind at 1 2. rewrite (proj1 (u32_strict c F) (u32 c) r eq_refl).
  repeat match goal with |- context [c =? ?k] => destruct (Z.eqb_spec c k); [lia|] end. reflexivity.
Qed.
Lemma attr_dooms : dooms read_attr bad_attr.
Proof. apply dooms_bind with (mean := fun s => s); [exact name_reads|]. intro x. apply type_dooms. Qed.
Lemma times_dooms {A W} (m : reader A) enc (ok : W -> Prop) mean bad : (forall w, ok w -> reads m (enc w) (mean w)) -> dooms m bad ->
  forall ws n s b r, Forall ok ws -> (length ws < n)%nat -> each enc ws s -> bad b -> read_times n m (s ++ b ++ r) = Panic.
Proof.
  intros R D. induction ws as [|w ws IH]; intros n s b r F L E Q; (destruct n as [|n]; [cbn in L; lia|]); cbn [read_times].
  - cbn [each] in E. unfold exactly in E. rewrite E. unfold bind at 1. cbn [app]. rewrite (D b r Q). reflexivity.
  - cbn [each] in E. destruct E as (s1 & s2 & -> & E1 & E2). inversion F; subst. unfold bind at 1.
    rewrite <- app_assoc, (proj1 (R w ltac:(assumption)) s1 _ E1). unfold bind at 1.
    rewrite IH; [reflexivity|assumption|cbn [length] in L; lia|assumption|assumption].
Qed.
Lemma list_dooms {A W} tag (m : reader A) enc (ok : W -> Prop) mean bad : fits32 tag -> tag <> 0 ->
  (forall w, ok w -> reads m (enc w) (mean w)) -> dooms m bad -> dooms (read_list tag m) (bad_list tag ok enc bad).
Proof.
  intros T T0 R D b r ([n l] & (N & F) & (s1 & s2 & -> & -> & (s3 & s4 & -> & -> & (s5 & s6 & -> & E & Q)))).
  unfold read_list. rewrite <- !app_assoc. unfold bind at 1. rewrite (proj1 (u32_strict tag T) (u32 tag) _ eq_refl).
  assert (FN : fits32 n) by (unfold fits32; lia).
  unfold bind at 1. rewrite (proj1 (u32_strict n FN) (u32 n) _ eq_refl).
  rewrite (proj2 (Z.eqb_neq tag 0) T0). cbn [andb]. rewrite Z.eqb_refl. destruct (Z.ltb_spec 0 n); [|lia]. cbn [andb].
  apply (times_dooms m enc ok mean bad R D l); [exact F|lia|exact E|exact Q].
Qed.
Lemma attrs_dooms : dooms read_attr_list bad_attrs.
Proof. apply list_dooms with (mean := attr_meaning); [unfold fits32; lia|lia|exact attr_reads|exact attr_dooms]. Qed.
Lemma either_dooms {A B} (m : reader A) (k : A -> reader B) b1 b2 : dooms m b1 -> dooms (bind m k) b2 -> dooms (bind m k) (either b1 b2).
Proof. intros D1 D2 b r [Q|Q]; [|exact (D2 b r Q)]. unfold bind. rewrite (D1 b r Q). reflexivity. Qed.
Lemma var_dooms : dooms read_var bad_var.
Proof.
  apply dooms_bind with (mean := fun s => s); [exact name_reads|]. intro nm.
  intros b r (s1 & s2 & -> & (ds & (D1 & D2) & (t1 & t2 & -> & -> & E)) & Q). rewrite <- !app_assoc.
  unfold bind at 1. rewrite (proj1 (u32_strict _ D2) (u32 _) _ eq_refl). rewrite Nat2Z.id.
  assert (RT : reads_strict (read_times (length ds) read_u32) (each (fun d => exactly (u32 d)) ds) (map (fun d => d) ds)).
  { apply times_strict. eapply Forall_impl; [|exact D1]. apply u32_strict. }
  unfold bind at 1. rewrite (proj1 RT t2 _ E). revert Q. apply either_dooms; [exact attrs_dooms|].
  apply dooms_bind with (mean := map attr_meaning); [exact attrs_reads|]. intro. apply type_dooms.
Qed.
Lemma magic_run x : read_magic ([67; 68; 70; 2] ++ x) = Ok (([67; 68; 70], 2), x).
Proof.
  unfold read_magic. change ([67; 68; 70; 2] ++ x) with ([67; 68; 70] ++ [2] ++ x).
  rewrite (bind_ok_step _ _ _ [67; 68; 70] ([2] ++ x)).
  - rewrite (bind_ok_step _ _ _ 2 x); [reflexivity|]. unfold read_u8, read_be.
    rewrite (bind_ok_step _ _ _ [2] x); [reflexivity|]. apply take_bytes_app; [reflexivity|unfold isize_max; lia].
  - unfold read_n_chars. rewrite (bind_ok_step _ _ _ [67; 68; 70] ([2] ++ x)); [reflexivity|].
    apply take_bytes_app; [reflexivity|unfold isize_max; lia].
Qed.
Lemma header_dooms : dooms read_header bad_header.
Proof.
  intros b r (s1 & s2 & -> & -> & Q). rewrite <- app_assoc. unfold read_header, bind at 1.
  rewrite magic_run. revert s2 r Q.
  apply dooms_bind with (mean := fun n => n); [intros n F; apply strict_reads, u32_strict, F|]. intro n.
  apply dooms_bind with (mean := map (fun d => d)).
  { intros ds (D1 & D2). apply strict_reads, list_strict; [unfold fits32; lia|lia|exact D2|]. eapply Forall_impl; [|exact D1]. apply dim_strict. }
  intro ds. apply either_dooms; [exact attrs_dooms|]. apply dooms_bind with (mean := map attr_meaning); [exact attrs_reads|]. intro ats.
  intros b r Q. unfold bind. rewrite (list_dooms 11 read_var var_enc var_ok var_meaning bad_var) with (b := b);
    [reflexivity|unfold fits32; lia|lia|intros v V; apply strict_reads, var_strict, V|exact var_dooms|exact Q].
Qed.

Lemma c26_panic_proof names file : Forall is_byte file ->
  (read_header file = Panic <-> exists b r, file = b ++ r /\ bad_header b) /\
  (read_document names file = Panic <-> exists b r, file = b ++ r /\ bad_header b).
Proof.
  intro B. assert (P : read_header file = Panic <-> exists b r, file = b ++ r /\ bad_header b).
  { split; [apply header_blames, B|]. intros (b & r & -> & Q). apply header_dooms, Q. }
  split; [exact P|]. rewrite <- P. unfold read_document. destruct (read_header file) as [[h rest]|e|] eqn:E; cbn [obind]; [|split; discriminate|tauto].
  split; [|discriminate]. intro H. exfalso.
  assert (N : forall k, read_data_by_var file h k <> Panic).
  { intros k Q. destruct (data_by_var file h k B (fun v => header_var_bounds file h rest v B E)) as (A1 & A2 & A3).
    destruct (find_var h k) as [v|] eqn:Ev; [|rewrite A3 in Q; [discriminate|reflexivity]].
    assert (DP : {data_present file v} + {~ data_present file v}).
    { unfold data_present. destruct (Z_le_dec 0 (var_begin v)); [|right; lia]. destruct (Z_lt_dec (var_begin v) (2 ^ 63)); [|right; lia].
      destruct (Z_le_dec (announced v * Z.of_nat (type_width (var_type v))) (Z.max 0 (Z.of_nat (length file) - var_begin v))); [left; lia|right; lia]. }
    destruct DP as [DP|DP].
    - destruct (A1 v eq_refl DP) as (w & _ & _ & _ & _ & R). rewrite R in Q. discriminate.
    - rewrite (A2 v eq_refl DP) in Q. discriminate. }
  assert (NM : forall l m, read_data_map file h l m <> Panic).
  { induction l as [|k l IH]; intro m; cbn [read_data_map]; [discriminate|].
    destruct (read_data_by_var file h k) eqn:Ek; cbn [obind]; [apply IH|discriminate|destruct (N k Ek)]. }
  unfold omap in H. destruct (read_data_map file h names []) eqn:Em; [discriminate|discriminate|exact (NM _ _ Em)].
Qed.
