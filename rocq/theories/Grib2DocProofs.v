(** Proofs about whole GRIB2 messages: truncation, files with several messages, bytes
    consumed, panics, and the expansion of packed values to data points. *)
From Coq Require Import ZArith List Bool Lia ZifyBool ZifyNat.
From Verif Require Import Base F32 Grib2Model Grib2Spec BaseFacts Grib2Proofs.
Import ListNotations.
Open Scope Z_scope.
Ltac Zify.zify_post_hook ::= Z.div_mod_to_equations.

(** ** Truncation *)

(** A reader that succeeds on [bs ++ ext] either does the same on [bs] or hits the end. *)
Definition cut_safe {A} (m : reader A) : Prop := forall bs ext x rest,
  m (bs ++ ext) = Ok (x, rest) ->
  (exists rest', rest = rest' ++ ext /\ m bs = Ok (x, rest')) \/ m bs = Err EIo.

Lemma cut_take n : cut_safe (take_bytes n).
Proof.
  unfold cut_safe, take_bytes. intros bs ext x rest.
  destruct (n >? isize_max); [discriminate|].
  destruct (n <=? Z.of_nat (length bs)) eqn:E.
  - intro H. left. rewrite app_length in H.
    replace (n <=? Z.of_nat (length bs + length ext)) with true in H by lia.
    injection H as H1 H2. exists (skipn (Z.to_nat n) bs). 
    rewrite firstn_app, skipn_app in *.
    replace (Z.to_nat n - length bs)%nat with 0%nat in * by lia.
    cbn [firstn skipn] in *. rewrite app_nil_r in H1. subst. auto.
  - intros _. right. reflexivity.
Qed.
Lemma cut_ret {A} (a : A) : cut_safe (ret a).
Proof. unfold cut_safe, ret. intros bs ext x rest H. injection H as <- <-. left. eauto. Qed.
Lemma cut_fail {A} e : cut_safe (@fail A e).
Proof. unfold cut_safe, fail. discriminate. Qed.
Lemma cut_panic {A} : cut_safe (@rpanic A).
Proof. unfold cut_safe, rpanic. discriminate. Qed.
Lemma cut_lift {A} (m : outcome A) : cut_safe (lift m).
Proof.
  unfold cut_safe, lift. intros bs ext x rest H. destruct m; try discriminate.
  injection H as <- <-. left; eauto.
Qed.
Lemma cut_bind {A B} (m : reader A) (k : A -> reader B) :
  cut_safe m -> (forall a, cut_safe (k a)) -> cut_safe (bind m k).
Proof.
  intros Hm Hk bs ext x rest H. unfold bind in *.
  destruct (m (bs ++ ext)) as [[a mid]|e|] eqn:E; try discriminate.
  destruct (Hm _ _ _ _ E) as [(mid' & -> & E')|E']; rewrite E'; [|right; reflexivity].
  exact (Hk a _ _ _ _ H).
Qed.
Lemma cut_if {A} (c : bool) (m k : reader A) : cut_safe m -> cut_safe k -> cut_safe (if c then m else k).
Proof. destruct c; auto. Qed.

Ltac cut_step :=
  repeat first
    [ apply cut_take | apply cut_ret | apply cut_fail | apply cut_panic | apply cut_lift
    | apply cut_if | apply cut_bind; [|intro] ].
Lemma cut_be n : cut_safe (read_be n).
Proof. unfold read_be. cut_step. Qed.
Lemma cut_be_into k n : cut_safe (read_be_into k n).
Proof. unfold read_be_into. cut_step. Qed.
Ltac cut_all :=
  repeat unfold read_n_bytes, read_n_chars, read_discipline, read_ref_time_significance,
    read_ref_time, read_production_status, read_processed_data_type,
    read_grid_definition_source, read_optional_point_interpretation, read_shape_of_earth,
    read_resolution_flags, read_scanning_flags, read_lat_lon, read_angle, read_scale_factor_value,
    read_parameter_category, read_i8, read_original_field_type, read_signed,
    read_section1, read_section2, read_section3, read_section4, read_section5, read_section6,
    read_section7, read_section8, read_grid_definition_template, read_template3_0,
    read_template3_101, read_product_definition_template, read_template4_0, read_template4_1,
    read_template4_8, read_data_representation_template, read_template5_0,
    read_u8, read_u16, read_u24, read_u32, read_u64, read_u128;
  repeat first [ apply cut_be | apply cut_be_into | progress cut_step ].

Lemma cut_ignore {A B} (m : reader A) (k : reader B) :
  cut_safe m -> (forall bs ext e, m (bs ++ ext) = Err e -> m bs = Err EIo) ->
  (forall bs, m bs <> Panic) -> cut_safe k -> k [] = Err EIo ->
  cut_safe (ignore_read m ;;; k).
Proof.
  intros Hm He Hp Hk H0 bs ext x rest H. unfold bind, ignore_read in *.
  specialize (Hm bs ext). specialize (He bs ext). pose proof (Hp bs).
  destruct (m (bs ++ ext)) as [[b' r']|e'|].
  - destruct (Hm _ _ eq_refl) as [(r2 & -> & E4)|E4]; rewrite E4.
    + exact (Hk _ _ _ _ H).
    + right. exact H0.
  - rewrite (He _ eq_refl). right. exact H0.
  - discriminate.
Qed.

Lemma cut_section0 : cut_safe read_section0.
Proof.
  unfold read_section0. apply cut_bind; [cut_all|]. intro magic.
  apply cut_ignore; [cut_all| | |cut_all|reflexivity];
    unfold read_n_bytes, take_bytes; change (2 >? isize_max) with false; cbv iota.
  - intros bs ext e. rewrite app_length.
    destruct (2 <=? Z.of_nat (length bs + length ext)) eqn:E; [discriminate|].
    intros _. replace (2 <=? Z.of_nat (length bs)) with false by lia. reflexivity.
  - intro bs. destruct (2 <=? Z.of_nat (length bs)); discriminate.
Qed.

Lemma cut_single_doc chk : cut_safe (read_single_doc chk).
Proof.
  unfold read_single_doc. apply cut_bind; [apply cut_section0|intro].
  cut_all.
Qed.

Lemma truncated_message chk w b ext :
  wf_message chk w -> message_bytes w = b ++ ext -> ext <> [] -> read_single_doc chk b = Err EIo.
Proof.
  intros Hw Hb He.
  assert (H : read_single_doc chk (message_bytes w ++ []) = Ok (message_meaning w, [])).
  { apply read_single_doc_iff; [|eauto]. rewrite app_nil_r. 
    destruct Hw as (H0 & H1 & H2 & H3 & H4 & H5 & H6 & H7). unfold message_bytes.
    destruct H0, H1, H2, H4, H5, H6, H7.
    rewrite !Forall_app. repeat split; try (apply fields_ok_bytes; assumption).
    repeat constructor; lia. }
  rewrite app_nil_r, Hb in H.
  destruct (cut_single_doc chk _ _ _ _ H) as [(r & E & _)|E]; [|exact E].
  symmetry in E. apply app_eq_nil in E. tauto.
Qed.

Lemma message_is_bytes chk w : wf_message chk w -> Forall is_byte (message_bytes w).
Proof.
  intros (H0 & H1 & H2 & H3 & H4 & H5 & H6 & H7). unfold message_bytes.
  destruct H0, H1, H2, H4, H5, H6, H7.
  rewrite !Forall_app. repeat split; try (apply fields_ok_bytes; assumption).
  repeat constructor; lia.
Qed.

(** Reading back needs no assumption on the bytes that follow. *)
Lemma read_single_doc_bwd chk w rest : wf_message chk w ->
  read_single_doc chk (message_bytes w ++ rest) = Ok (message_meaning w, rest).
Proof.
  intros (H0 & H1 & H2 & H3 & H4 & H5 & H6 & H7).
  unfold read_single_doc, message_bytes. rewrite <- !app_assoc.
  rewrite (bind_ok_step _ _ _ _ _ (section0_bwd _ _ H0)).
  rewrite (bind_ok_step _ _ _ _ _ (section1_bwd chk _ _ H1)).
  rewrite (bind_ok_step _ _ _ _ _ (section2_bwd chk _ _ H2)).
  rewrite (bind_ok_step _ _ _ _ _ (section3_bwd _ _ H3)).
  rewrite (bind_ok_step _ _ _ _ _ (section4_bwd chk _ _ H4)).
  rewrite (bind_ok_step _ _ _ _ _ (section5_bwd chk _ _ H5)).
  rewrite (bind_ok_step _ _ _ _ _ (section6_bwd chk _ _ H6)).
  rewrite (bind_ok_step _ _ _ _ _ (section7_bwd chk _ _ H7)).
  rewrite (bind_ok_step _ _ _ _ _ (section8_bwd _)).
  reflexivity.
Qed.

Lemma Ok_pair_inj {A B} (a a' : A) (b b' : B) : Ok (a, b) = Ok (a', b') -> a = a' /\ b = b'.
Proof. intro H. injection H as -> ->. auto. Qed.

(** ** Files with several messages *)
Lemma message_nonempty w : (4 <= length (message_bytes w))%nat.
Proof. unfold message_bytes. rewrite !app_length. cbn [ser concat map field_bytes layout8 layout0 app length]. lia. Qed.

Lemma read_docs_enough chk : forall fuel bs, Forall is_byte bs -> (length bs < fuel)%nat ->
  read_docs chk fuel bs <> None.
Proof.
  induction fuel as [|f IH]; intros bs Hb Hl; [lia|]. cbn [read_docs].
  destruct (read_single_doc chk bs) as [[d rest]|e|] eqn:E; try discriminate.
  apply read_single_doc_iff in E; [|exact Hb]. destruct E as (w & Hw & -> & _).
  pose proof (message_nonempty w) as Hm. rewrite app_length in Hl. apply Forall_app in Hb.
  specialize (IH rest (proj2 Hb) ltac:(lia)).
  destruct (read_docs chk f rest) as [[ds|e|]|]; congruence.
Qed.

Lemma read_docs_ok chk : forall fuel bs ds, Forall is_byte bs -> (length bs < fuel)%nat ->
  read_docs chk fuel bs = Some (Ok ds) <->
  exists ws tail e, Forall (wf_message chk) ws /\ bs = concat (map message_bytes ws) ++ tail /\
    ds = map message_meaning ws /\ read_single_doc chk tail = Err e.
Proof.
  induction fuel as [|f IH]; intros bs ds Hb Hl; [lia|]. cbn [read_docs].
  destruct (read_single_doc chk bs) as [[d rest]|e|] eqn:E.
  - pose proof E as E0. apply read_single_doc_iff in E; [|exact Hb]. destruct E as (w & Hw & -> & ->).
    pose proof (message_nonempty w) as Hm. rewrite app_length in Hl. apply Forall_app in Hb.
    specialize (fun ds => IH rest ds (proj2 Hb) ltac:(lia)).
    split.
    + intro H. destruct (read_docs chk f rest) as [[ds'|e|]|]; try discriminate.
      injection H as <-. destruct (proj1 (IH ds') eq_refl) as (ws & tail & e & H1 & -> & -> & H2).
      exists (w :: ws), tail, e. cbn [map concat]. rewrite <- app_assoc. auto.
    + intros (ws & tail & e & H1 & H2 & -> & H3).
      destruct H1 as [|w' ws H1 H1'].
      * cbn [map concat app] in H2. rewrite H2 in E0. congruence.
      * cbn [map concat] in H2. rewrite <- app_assoc in H2. rewrite H2 in E0.
        rewrite (read_single_doc_bwd _ _ _ H1) in E0. apply Ok_pair_inj in E0. destruct E0 as [E1 E2].
        assert (E4 : read_docs chk f rest = Some (Ok (map message_meaning ws))).
        { apply IH. exists ws, tail, e. subst rest. auto. }
        rewrite E4. cbn [map]. rewrite E1. reflexivity.
  - split.
    + intro H. injection H as <-. exists [], bs, e. cbn [map concat app]. auto.
    + intros (ws & tail & e' & H1 & -> & -> & H3).
      destruct H1 as [|w' ws H1 H1']; [reflexivity|].
      cbn [map concat] in E. rewrite <- app_assoc, (read_single_doc_bwd _ _ _ H1) in E. discriminate.
  - split; [discriminate|].
    intros (ws & tail & e' & H1 & -> & -> & H3).
    destruct H1 as [|w' ws H1 H1']; [cbn [map concat app] in E; congruence|].
    cbn [map concat] in E. rewrite <- app_assoc, (read_single_doc_bwd _ _ _ H1) in E. discriminate.
Qed.

Lemma read_multi_doc_iff chk bs ds : Forall is_byte bs ->
  read_multi_doc chk bs = Some (Ok ds) <->
  exists ws tail e, ws <> [] /\ Forall (wf_message chk) ws /\
    bs = concat (map message_bytes ws) ++ tail /\
    ds = map message_meaning ws /\ read_single_doc chk tail = Err e.
Proof.
  intro Hb. unfold read_multi_doc. split.
  - intro H. destruct (read_docs chk (S (length bs)) bs) as [[[|d ds']|e|]|] eqn:E; try discriminate.
    injection H as <-.
    apply read_docs_ok in E; [|exact Hb|lia].
    destruct E as (ws & tail & e & H1 & H2 & H3 & H4). exists ws, tail, e.
    split; [destruct ws; [discriminate|congruence]|auto].
  - intros (ws & tail & e & H0 & H1 & H2 & H3 & H4).
    assert (E : read_docs chk (S (length bs)) bs = Some (Ok ds)).
    { apply read_docs_ok; [exact Hb|lia|]. exists ws, tail, e. auto. }
    rewrite E. destruct ds; [|reflexivity]. destruct ws; [congruence|discriminate].
Qed.

(** ** Panics *)
Definition no_panic {A} (m : reader A) : Prop := forall bs, m bs <> Panic.
Lemma np_take n : n <= isize_max -> no_panic (take_bytes n).
Proof.
  intros Hn bs. unfold take_bytes. replace (n >? isize_max) with false by lia.
  destruct (n <=? Z.of_nat (length bs)); discriminate.
Qed.
Lemma np_ret {A} (a : A) : no_panic (ret a).
Proof. intros bs. discriminate. Qed.
Lemma np_fail {A} e : no_panic (@fail A e).
Proof. intros bs. discriminate. Qed.
Lemma np_bind {A B} (m : reader A) (k : A -> reader B) :
  no_panic m -> (forall a, no_panic (k a)) -> no_panic (bind m k).
Proof.
  intros Hm Hk bs H. apply bind_panic in H. destruct H as [H|(x & mid & _ & H)].
  - exact (Hm _ H).
  - exact (Hk _ _ H).
Qed.
Lemma np_if {A} (c : bool) (m k : reader A) : no_panic m -> no_panic k -> no_panic (if c then m else k).
Proof. destruct c; auto. Qed.
Lemma np_be n : n <= isize_max -> no_panic (read_be n).
Proof. intro H. unfold read_be. apply np_bind; [apply np_take; exact H|]. intro. apply np_ret. Qed.
Lemma np_be_into k n : k * n <= isize_max -> no_panic (read_be_into k n).
Proof. intro H. unfold read_be_into. apply np_bind; [apply np_take; exact H|]. intro. apply np_ret. Qed.
Ltac np :=
  repeat unfold read_n_bytes, read_n_chars, read_discipline, read_ref_time_significance,
    read_production_status, read_processed_data_type,
    read_grid_definition_source, read_optional_point_interpretation, read_shape_of_earth,
    read_resolution_flags, read_scanning_flags, read_lat_lon, read_angle, read_scale_factor_value,
    read_parameter_category, read_i8, read_original_field_type, read_signed,
    read_section3, read_section8, read_grid_definition_template, read_template3_0,
    read_template3_101, read_template4_0, read_template4_1,
    read_data_representation_template, read_template5_0,
    read_u8, read_u16, read_u24, read_u32, read_u64, read_u128;
  repeat first [ apply np_be; unfold isize_max; lia | apply np_ret | apply np_fail
    | apply np_take; unfold isize_max; lia | apply np_if | apply np_bind; [|intro] ].

Lemma np_section0 : no_panic read_section0.
Proof.
  unfold read_section0. apply np_bind; [np|]. intro. apply np_bind; [|intro; np].
  intros bs H. unfold ignore_read in H.
  destruct (read_n_bytes 2 bs) as [[? ?]|?|] eqn:E; try discriminate.
  revert E. apply np_take. unfold isize_max; lia.
Qed.
Lemma np_section3 : no_panic read_section3.
Proof. np. Qed.
Lemma np_section8 : no_panic read_section8.
Proof. np. Qed.

(** [H : bind m k bs = Panic] with [m] a reader that cannot panic. *)
Ltac inv_panic :=
  repeat match goal with
  | H : bind _ _ _ = Panic |- _ =>
      apply bind_panic in H; destruct H as [H|H];
      [ exfalso; match type of H with ?m ?b = Panic =>
          let HN := fresh in assert (HN : no_panic m) by (solve [np]); exact (HN b H) end
      | let x := fresh "x" in let m := fresh "m" in let H' := fresh "H" in
        destruct H as (x & m & H' & H); cbv beta in H; inv_reads ]
  | H : ret _ _ = Panic |- _ => discriminate H
  | H : fail _ _ = Panic |- _ => discriminate H
  end.

Lemma usub_panic chk bits a b : usub chk bits a b = Panic <-> chk = true /\ a < b.
Proof.
  unfold usub. destruct (b <=? a) eqn:E; [|destruct chk]; split; try discriminate;
    try (intros [? ?]; lia); try (intros [? ?]; discriminate).
  - intros _. split; [reflexivity|lia].
  - reflexivity.
Qed.

Lemma section1_panic_fwd chk bs : Forall is_byte bs -> read_section1 chk bs = Panic ->
  exists w1, (exists number, bad_date w1 number bs) \/ short_section1 w1 bs.
Proof.
  intros Hb H. unfold read_section1 in H. unfold_prims. inv_panic.
  apply bind_panic in H. destruct H as [H|H].
  - inv_panic. 
    match goal with H : (if ?c then _ else _) _ = Panic |- _ => destruct c eqn:E; [discriminate|] end.
    match goal with |- exists w1, (exists number, bad_date _ _ (be_bytes 4 ?len ++ be_bytes 1 ?num ++
      be_bytes 2 ?c ++ be_bytes 2 ?s ++ be_bytes 1 ?m ++ be_bytes 1 ?l ++ be_bytes 1 ?sg ++
      be_bytes 2 ?y ++ be_bytes 1 ?mo ++ be_bytes 1 ?d ++ be_bytes 1 ?h ++ be_bytes 1 ?mi ++ be_bytes 1 ?sc ++ ?r)) \/ _
      => exists (Build_wire1 len c s m l sg (Build_date_time y mo d h mi sc) 0 0 []); left;
         exists num; split; [|split; [|exists r]] end.
    + cbn [w1_length w1_center w1_subcenter w1_master w1_local w1_significance w1_time
        dt_year dt_month dt_day dt_hour dt_minute dt_second]. finish_fields.
    + cbn [w1_time]. intro K. apply valid_date_spec in K. congruence.
    + ser_simpl. reflexivity.
  - destruct H as (t & mid & H' & H). cbv beta in H.
    inv_reads. inv_panic.
    match goal with H : (if ?c then _ else _) _ = Panic |- _ =>
      destruct c eqn:En; [apply Z.eqb_eq in En; subst|discriminate] end.
    match goal with |- exists w1, (exists number, bad_date _ _ (be_bytes 4 ?len ++ be_bytes 1 1 ++
      be_bytes 2 ?c ++ be_bytes 2 ?s ++ be_bytes 1 ?m ++ be_bytes 1 ?l ++ be_bytes 1 ?sg ++
      be_bytes 2 ?y ++ be_bytes 1 ?mo ++ be_bytes 1 ?d ++ be_bytes 1 ?h ++ be_bytes 1 ?mi ++ be_bytes 1 ?sc ++
      be_bytes 1 ?st ++ be_bytes 1 ?ty ++ ?r)) \/ _
      => exists (Build_wire1 len c s m l sg (Build_date_time y mo d h mi sc) st ty []); right;
         split; [|split; [|split; [|split; [reflexivity|exists r]]]] end.
    + unfold layout1. cbn [w1_length w1_center w1_subcenter w1_master w1_local w1_significance w1_time
        dt_year dt_month dt_day dt_hour dt_minute dt_second]. finish_fields.
    + match goal with E : _ && _ = true |- _ => apply valid_date_spec in E; exact E end.
    + cbn [w1_length]. apply bind_panic in H. destruct H as [H|(n & b & K3 & H)].
      * unfold lift in H. destruct (usub _ _ _ _) eqn:Eu; try discriminate.
        apply usub_panic in Eu. tauto.
      * unfold lift in K3. destruct (usub _ _ _ _) eqn:Eu; try discriminate. injection K3 as -> ->.
        apply bind_panic in H. destruct H as [H|(? & ? & _ & H)]; [|discriminate].
        unfold take_bytes in H. destruct (n >? isize_max) eqn:Eb; [|destruct (n <=? _); discriminate].
        unfold usub in Eu. norm256. destruct (21 <=? _) eqn:E21; [|lia].
        injection Eu as <-. unfold isize_max in Eb. lia.
    + unfold layout1. ser_simpl. reflexivity.
Qed.

Lemma lift_usub_short {A} chk bits a b bs (k : Z -> reader A) :
  chk = true -> a < b -> bind (lift (usub chk bits a b)) k bs = Panic.
Proof.
  intros -> H. unfold bind, lift. rewrite (proj2 (usub_panic true bits a b)) by auto. reflexivity.
Qed.
Lemma lift_usub64_short {A} chk a b bs (k : reader A) :
  0 <= a -> a < b -> b < 100 ->
  bind (lift (usub chk 64 a b)) (fun n => take_bytes n ;;; k) bs = Panic.
Proof.
  intros Ha H Hb. unfold bind, lift, usub. replace (b <=? a) with false by lia.
  destruct chk; [reflexivity|].
  unfold take_bytes. replace (a - b + 2 ^ 64 >? isize_max) with true; [reflexivity|].
  unfold isize_max. lia.
Qed.

Lemma section1_panic_bwd chk bs w1 :
  (exists number, bad_date w1 number bs) \/ short_section1 w1 bs -> read_section1 chk bs = Panic.
Proof.
  intros [[num (Hf & Hd & rest & ->)] | (Hf & Hd & Hl & Hr & rest & ->)].
  - fields Hf. unfold read_section1. unfold_prims. ser_simpl. run.
    destruct w1 as [len ce su ma lo sg [y mo d h mi sc] st ty r].
    cbn [w1_length w1_center w1_subcenter w1_master w1_local w1_significance w1_time w1_status w1_type w1_rest
       dt_year dt_month dt_day dt_hour dt_minute dt_second] in *.
    destruct (valid_ymd y mo d && valid_hms h mi sc) eqn:E; [|reflexivity].
    apply valid_date_spec in E. contradiction.
  - unfold layout1 in *. fields Hf. unfold read_section1. unfold_prims. ser_simpl. run.
    destruct w1 as [len ce su ma lo sg [y mo d h mi sc] st ty r].
    cbn [w1_length w1_center w1_subcenter w1_master w1_local w1_significance w1_time w1_status w1_type w1_rest
       dt_year dt_month dt_day dt_hour dt_minute dt_second] in *.
    apply valid_date_spec in Hd. rewrite Hd. run. change (1 =? 1) with true. cbn match.
    apply lift_usub64_short; lia.
Qed.

Lemma section2_panic chk bs : Forall is_byte bs ->
  read_section2 chk bs = Panic <-> exists len, short_section len [ U 4 len; U 1 2 ] bs.
Proof.
  intro Hb. split.
  - intro H. unfold read_section2 in H. unfold_prims. inv_panic.
    match goal with H : (if ?c then _ else _) _ = Panic |- _ =>
      destruct c eqn:En; [apply Z.eqb_eq in En; subst|discriminate] end.
    exists x. split; [finish_fields|]. split; [|match goal with H : bind (lift _) _ ?m = Panic |- _ => exists m end; ser_simpl; reflexivity].
    change (Z.of_nat (length (ser [U 4 x; U 1 2]))) with 5.
    apply bind_panic in H. destruct H as [H|(n & b & K3 & H)].
    + unfold lift in H. destruct (usub _ _ _ _) eqn:Eu; try discriminate.
      apply usub_panic in Eu. tauto.
    + unfold lift in K3. destruct (usub _ _ _ _) eqn:Eu; try discriminate. injection K3 as -> ->.
      apply bind_panic in H. destruct H as [H|(? & ? & _ & H)]; [|discriminate].
      unfold take_bytes in H. destruct (n >? isize_max) eqn:Eb; [|destruct (n <=? _); discriminate].
      unfold usub in Eu. norm256. destruct (5 <=? _) eqn:E21; [|lia].
      injection Eu as <-. unfold isize_max in Eb. lia.
  - intros (len & Hf & Hl & rest & ->). 
    change (Z.of_nat (length (ser [U 4 len; U 1 2]))) with 5 in Hl.
    fields Hf. unfold read_section2. unfold_prims. ser_simpl. run. change (2 =? 2) with true. cbn match.
    apply lift_usub64_short; lia.
Qed.

(** Panic of a section of the shape: fixed part, length subtraction, rest that cannot panic. *)
Lemma lift_usub_panic {A} chk a b bs (k : Z -> reader A) :
  0 <= a < 2 ^ 32 -> 0 <= b < 100 -> (forall n, 0 <= n < 2 ^ 32 -> k n bs <> Panic) ->
  bind (lift (usub chk 32 a b)) k bs = Panic -> chk = true /\ a < b.
Proof.
  intros Ha Hb Hk H. apply bind_panic in H. destruct H as [H|(n & r & K3 & H)].
  - unfold lift in H. destruct (usub _ _ _ _) eqn:Eu; try discriminate.
    apply usub_panic in Eu. exact Eu.
  - exfalso. unfold lift in K3. destruct (usub _ _ _ _) eqn:Eu; try discriminate. injection K3 as -> ->.
    apply usub_32_payload in Eu. apply (payload_bound _ _ _ _ Eu Ha) in Hb. exact (Hk _ Hb H).
Qed.

Ltac short_bytes := unfold ser; cbn [map concat field_bytes]; rewrite <- !app_assoc; reflexivity.

Lemma template4_8_np bs : Forall is_byte bs -> read_template4_8 bs <> Panic.
Proof.
  intros Hb H. unfold read_template4_8 in H. unfold_prims. inv_panic. inv_take. inv_panic. inv_reads.
  norm256. apply bind_panic in H. destruct H as [H|(? & ? & _ & H)]; [|discriminate].
  revert H. apply np_take. unfold isize_max; lia.
Qed.
Lemma template4_np n tl bs : Forall is_byte bs -> tl <= isize_max ->
  read_product_definition_template n tl bs <> Panic.
Proof.
  intros Hb Ht. unfold read_product_definition_template.
  destruct (n =? 0); [|destruct (n =? 1); [|destruct (n =? 8)]].
  - revert bs Hb. match goal with |- forall bs, _ -> ?m bs <> Panic => cut (no_panic m); [intros ? ? ?; auto|np] end.
  - revert bs Hb. match goal with |- forall bs, _ -> ?m bs <> Panic => cut (no_panic m); [intros ? ? ?; auto|np] end.
  - intro H. apply bind_panic in H. destruct H as [H|(? & ? & _ & H)]; [|discriminate].
    exact (template4_8_np _ Hb H).
  - intro H. apply bind_panic in H. destruct H as [H|(? & ? & _ & H)]; [|discriminate].
    revert H. apply np_take. exact Ht.
Qed.

Lemma section4_panic chk bs : Forall is_byte bs ->
  read_section4 chk bs = Panic <-> chk = true /\ exists len number count template,
    short_section len [ U 4 len; U 1 number; U 2 count; U 2 template ] bs.
Proof.
  intro Hb. split.
  - intro H. unfold read_section4 in H. inv_panic.
    norm256. apply lift_usub_panic in H; [|norm256; lia|lia|].
    + split; [tauto|].
      match goal with |- exists a b c d, short_section _ _ (be_bytes 4 ?l ++ be_bytes 1 ?n ++ be_bytes 2 ?k ++ be_bytes 2 ?t ++ ?r) =>
        exists l, n, k, t; split; [|split; [|exists r; short_bytes]] end.
      * finish_fields.
      * match goal with |- _ < Z.of_nat ?n => change (Z.of_nat n) with 9 end. tauto.
    + intros n Hn Hk. norm256. apply bind_panic in Hk. destruct Hk as [Hk|(t & mid & Hk' & Hk)].
      * revert Hk. apply template4_np; [assumption|unfold isize_max; lia].
      * apply bind_panic in Hk. destruct Hk as [Hk|(? & ? & _ & Hk)].
        -- revert Hk. apply np_be_into. unfold isize_max; lia.
        -- revert Hk. match goal with |- (if ?c then _ else _) _ = _ -> _ => destruct c end; discriminate.
  - intros (Hc & len & num & cnt & tn & Hf & Hl & rest & ->).
    match type of Hl with _ < Z.of_nat ?n => change (Z.of_nat n) with 9 in Hl end.
    fields Hf. unfold read_section4. ser_simpl. run. apply lift_usub_short; [assumption|lia].
Qed.

Lemma section5_panic chk bs : Forall is_byte bs ->
  read_section5 chk bs = Panic <-> chk = true /\ exists len number points template,
    short_section len [ U 4 len; U 1 number; U 4 points; U 2 template ] bs.
Proof.
  intro Hb. split.
  - intro H. unfold read_section5 in H. inv_panic.
    norm256. apply lift_usub_panic in H; [|norm256; lia|lia|].
    + split; [tauto|].
      match goal with |- exists a b c d, short_section _ _ (be_bytes 4 ?l ++ be_bytes 1 ?n ++ be_bytes 4 ?k ++ be_bytes 2 ?t ++ ?r) =>
        exists l, n, k, t; split; [|split; [|exists r; short_bytes]] end.
      * finish_fields.
      * match goal with |- _ < Z.of_nat ?n => change (Z.of_nat n) with 11 end. tauto.
    + intros n Hn Hk. norm256. revert Hk.
      match goal with |- ?m ?b = Panic -> False => cut (no_panic m); [intros K Hk; exact (K _ Hk)|np] end.
  - intros (Hc & len & num & cnt & tn & Hf & Hl & rest & ->).
    match type of Hl with _ < Z.of_nat ?n => change (Z.of_nat n) with 11 in Hl end.
    fields Hf. unfold read_section5. ser_simpl. run. apply lift_usub_short; [assumption|lia].
Qed.

Lemma section6_panic chk bs : Forall is_byte bs ->
  read_section6 chk bs = Panic <-> chk = true /\ exists len number indicator,
    short_section len [ U 4 len; U 1 number; U 1 indicator ] bs.
Proof.
  intro Hb. split.
  - intro H. unfold read_section6 in H. inv_panic.
    norm256. apply lift_usub_panic in H; [|norm256; lia|lia|].
    + split; [tauto|].
      match goal with |- exists a b c, short_section _ _ (be_bytes 4 ?l ++ be_bytes 1 ?n ++ be_bytes 1 ?k ++ ?r) =>
        exists l, n, k; split; [|split; [|exists r; short_bytes]] end.
      * finish_fields.
      * match goal with |- _ < Z.of_nat ?n => change (Z.of_nat n) with 6 end. tauto.
    + intros n Hn Hk. norm256. revert Hk.
      match goal with |- ?m ?b = Panic -> False => cut (no_panic m); [intros K Hk; exact (K _ Hk)|np] end.
  - intros (Hc & len & num & cnt & Hf & Hl & rest & ->).
    match type of Hl with _ < Z.of_nat ?n => change (Z.of_nat n) with 6 in Hl end.
    fields Hf. unfold read_section6. ser_simpl. run. apply lift_usub_short; [assumption|lia].
Qed.

Lemma section7_panic chk bs : Forall is_byte bs ->
  read_section7 chk bs = Panic <-> chk = true /\ exists len number,
    short_section len [ U 4 len; U 1 number ] bs.
Proof.
  intro Hb. split.
  - intro H. unfold read_section7 in H. inv_panic.
    norm256. apply lift_usub_panic in H; [|norm256; lia|lia|].
    + split; [tauto|].
      match goal with |- exists a b, short_section _ _ (be_bytes 4 ?l ++ be_bytes 1 ?n ++ ?r) =>
        exists l, n; split; [|split; [|exists r; short_bytes]] end.
      * finish_fields.
      * match goal with |- _ < Z.of_nat ?n => change (Z.of_nat n) with 5 end. tauto.
    + intros n Hn Hk. norm256. apply bind_panic in Hk. destruct Hk as [Hk|(? & ? & _ & Hk)].
      * revert Hk. apply np_be_into. unfold isize_max; lia.
      * revert Hk. match goal with |- (if ?c then _ else _) _ = _ -> _ => destruct c end; discriminate.
  - intros (Hc & len & num & Hf & Hl & rest & ->).
    match type of Hl with _ < Z.of_nat ?n => change (Z.of_nat n) with 5 in Hl end.
    fields Hf. unfold read_section7. ser_simpl. run. apply lift_usub_short; [assumption|lia].
Qed.

Definition dummy_wire : wire :=
  Build_wire (Build_wire0 [] 0 0 0) (Build_wire1 0 0 0 0 0 0 (Build_date_time 0 0 0 0 0 0) 0 0 [])
    (Build_wire2 0 []) (Build_wire3 0 0 0 0 0 (W3_101 (Build_wire3_101 0 0 0 0)))
    (Build_wire4 0 (W4_other 0 []) []) (Build_wire5 0 0 (W5_other 0 [])) (Build_wire6 0 0 [])
    (Build_wire7 0 []).

Ltac lead := unfold leading_sections, wf_leading; cbn [firstn concat w_0 w_1 w_2 w_3 w_4 w_5 w_6].
Ltac lead_wf := lead; repeat (apply Forall_cons; [assumption|]); apply Forall_nil.
Ltac lead_bytes := lead; rewrite ?app_nil_r, <- ?app_assoc; reflexivity.

Lemma single_doc_panic chk bs : Forall is_byte bs ->
  read_single_doc chk bs = Panic <-> panic_input chk bs.
Proof.
  intro Hb. split.
  - intro H. unfold read_single_doc in H.
    apply bind_panic in H. destruct H as [H|(s0 & m0 & H0 & H)]; [destruct (np_section0 _ H)|].
    apply section0_fwd in H0; [|assumption]. destruct H0 as (w0 & ? & -> & -> & Hb0).
    apply bind_panic in H. destruct H as [H|(s1 & m1 & H1 & H)].
    { apply section1_panic_fwd in H; [|assumption].
      exists 1%nat, (Build_wire w0 (w_1 dummy_wire) (w_2 dummy_wire) (w_3 dummy_wire) (w_4 dummy_wire)
        (w_5 dummy_wire) (w_6 dummy_wire) (w_7 dummy_wire)), m0.
      split; [lead_wf|]. split; [lead_bytes|]. left. auto. }
    apply section1_fwd in H1; [|assumption]. destruct H1 as (w1 & ? & -> & -> & Hb1).
    apply bind_panic in H. destruct H as [H|(s2 & m2 & H2 & H)].
    { apply section2_panic in H; [|assumption].
      exists 2%nat, (Build_wire w0 w1 (w_2 dummy_wire) (w_3 dummy_wire) (w_4 dummy_wire)
        (w_5 dummy_wire) (w_6 dummy_wire) (w_7 dummy_wire)), m1.
      split; [lead_wf|]. split; [lead_bytes|]. right; left. auto. }
    apply section2_fwd in H2; [|assumption]. destruct H2 as (w2 & ? & -> & -> & Hb2).
    apply bind_panic in H. destruct H as [H|(s3 & m3 & H3 & H)]; [destruct (np_section3 _ H)|].
    apply section3_fwd in H3; [|assumption]. destruct H3 as (w3 & ? & -> & -> & Hb3).
    apply bind_panic in H. destruct H as [H|(s4 & m4 & H4 & H)].
    { apply section4_panic in H; [|assumption]. destruct H as [Hc H].
      exists 4%nat, (Build_wire w0 w1 w2 w3 (w_4 dummy_wire)
        (w_5 dummy_wire) (w_6 dummy_wire) (w_7 dummy_wire)), m3.
      split; [lead_wf|]. split; [lead_bytes|]. right; right. split; [exact Hc|]. left. auto. }
    apply section4_fwd in H4; [|assumption]. destruct H4 as (w4 & ? & -> & -> & Hb4).
    apply bind_panic in H. destruct H as [H|(s5 & m5 & H5 & H)].
    { apply section5_panic in H; [|assumption]. destruct H as [Hc H].
      exists 5%nat, (Build_wire w0 w1 w2 w3 w4 (w_5 dummy_wire) (w_6 dummy_wire) (w_7 dummy_wire)), m4.
      split; [lead_wf|]. split; [lead_bytes|]. right; right. split; [exact Hc|]. right; left. auto. }
    apply section5_fwd in H5; [|assumption]. destruct H5 as (w5 & ? & -> & -> & Hb5).
    apply bind_panic in H. destruct H as [H|(s6 & m6 & H6 & H)].
    { apply section6_panic in H; [|assumption]. destruct H as [Hc H].
      exists 6%nat, (Build_wire w0 w1 w2 w3 w4 w5 (w_6 dummy_wire) (w_7 dummy_wire)), m5.
      split; [lead_wf|]. split; [lead_bytes|]. right; right. split; [exact Hc|]. right; right; left. auto. }
    apply section6_fwd in H6; [|assumption]. destruct H6 as (w6 & ? & -> & -> & Hb6).
    apply bind_panic in H. destruct H as [H|(s7 & m7 & H7 & H)].
    { apply section7_panic in H; [|assumption]. destruct H as [Hc H].
      exists 7%nat, (Build_wire w0 w1 w2 w3 w4 w5 w6 (w_7 dummy_wire)), m6.
      split; [lead_wf|]. split; [lead_bytes|]. right; right. split; [exact Hc|]. right; right; right. auto. }
    apply bind_panic in H. destruct H as [H|(s8 & m8 & H8 & H)]; [destruct (np_section8 _ H)|discriminate].
  - intros (k & w & b & Hw & -> & Hcase).
    assert (Hbb : Forall is_byte b) by (apply Forall_app in Hb; tauto).
    unfold read_single_doc.
    destruct Hcase as [(-> & w1 & Hc)|[(-> & Hc)|(Hk & [(-> & Hc)|[(-> & Hc)|[(-> & Hc)|(-> & Hc)]]])]];
      revert Hw; unfold leading_sections, wf_leading; cbn [firstn concat];
      rewrite ?app_nil_r, <- ?app_assoc; intro Hw;
      repeat match goal with H : Forall _ (_ :: _) |- _ => apply Forall_cons_iff in H; destruct H end;
      repeat first
        [ rewrite (bind_ok_step _ _ _ _ _ (section0_bwd _ _ ltac:(eassumption)))
        | rewrite (bind_ok_step _ _ _ _ _ (section1_bwd chk _ _ ltac:(eassumption)))
        | rewrite (bind_ok_step _ _ _ _ _ (section2_bwd chk _ _ ltac:(eassumption)))
        | rewrite (bind_ok_step _ _ _ _ _ (section3_bwd _ _ ltac:(eassumption)))
        | rewrite (bind_ok_step _ _ _ _ _ (section4_bwd chk _ _ ltac:(eassumption)))
        | rewrite (bind_ok_step _ _ _ _ _ (section5_bwd chk _ _ ltac:(eassumption)))
        | rewrite (bind_ok_step _ _ _ _ _ (section6_bwd chk _ _ ltac:(eassumption))) ];
      apply bind_panic; left.
    + exact (section1_panic_bwd chk b w1 Hc).
    + apply section2_panic; assumption.
    + apply section4_panic; auto.
    + apply section5_panic; auto.
    + apply section6_panic; auto.
    + apply section7_panic; auto.
Qed.

(** ** Data points *)
Lemma mask_bit b k : 0 <= k <= 7 -> 0 <= b -> (0 <? Z.land b (Z.shiftr 128 k)) = Z.testbit b (7 - k).
Proof.
  intros Hk Hb.
  assert (E : Z.shiftr 128 k = 2 ^ (7 - k)).
  { rewrite Z.shiftr_div_pow2 by lia. change 128 with (2 ^ 7).
    rewrite Z.pow_sub_r by lia. reflexivity. }
  rewrite E. pose proof (land_pow2 b (7 - k) ltac:(lia)) as L. unfold bit_clear in L.
  assert (0 <= Z.land b (2 ^ (7 - k))) by (apply Z.land_nonneg; lia).
  destruct (Z.testbit b (7 - k)); cbn [negb] in L; lia.
Qed.

Section Points.
  Context {T : Type}.
  Variables (r c1 c2 : f32) (missing : T) (transform : f32 -> T) (bitmap : bytes) (raw : list Z).

  Definition point_value (i : nat) : T :=
    if has_value bitmap i then transform (unpack r c1 c2 (nth (rank bitmap i) raw 0)) else missing.

  Lemma rank_S i : rank bitmap (S i) = (rank bitmap i + if has_value bitmap i then 1 else 0)%nat.
  Proof.
    unfold rank. rewrite seq_S, filter_app, app_length. cbn [filter Nat.add].
    destruct (has_value bitmap i); reflexivity.
  Qed.
  Lemma rank_mono i j : (i <= j)%nat -> (rank bitmap i <= rank bitmap j)%nat.
  Proof. induction 1; [lia|]. rewrite rank_S. lia. Qed.

  Definition enough (n : nat) : Prop :=
    (bitmap = [] \/ (n <= 8 * length bitmap)%nat) /\ (rank bitmap n <= length raw)%nat.

  Lemma data_points_loop_spec : Forall is_byte bitmap -> forall n i,
    (i = 0%nat \/ enough i) ->
    (enough (i + n) ->
      data_points_loop r c1 c2 missing transform bitmap raw n (Z.of_nat i) (Z.of_nat (rank bitmap i))
      = Ok (map point_value (seq i n))) /\
    (~ enough (i + n) -> n <> 0%nat ->
      data_points_loop r c1 c2 missing transform bitmap raw n (Z.of_nat i) (Z.of_nat (rank bitmap i))
      = Panic).
  Proof.
    intros Hb. induction n as [|n IH]; intros i Hi.
    - cbn [data_points_loop seq map]. split; [reflexivity|congruence].
    - cbn [data_points_loop].
      assert (Hpres : 
        match bitmap with
        | [] => Ok true
        | _ => match nth_error bitmap (Z.to_nat (Z.of_nat i / 8)) with
               | Some b => Ok (0 <? Z.land b (Z.shiftr 128 (Z.of_nat i mod 8)))
               | None => Panic
               end
        end = if match bitmap with [] => true | _ => (i <? 8 * length bitmap)%nat end
              then Ok (has_value bitmap i) else Panic).
      { destruct bitmap as [|b0 bm0] eqn:Ebm; [reflexivity|]. rewrite <- Ebm in *.
        replace (Z.to_nat (Z.of_nat i / 8)) with (i / 8)%nat by lia.
        replace (Z.of_nat i mod 8) with (Z.of_nat (i mod 8)) by lia.
        destruct (nth_error bitmap (i / 8)) as [b|] eqn:En.
        - assert (i / 8 < length bitmap)%nat by (apply nth_error_Some; congruence).
          replace (i <? 8 * length bitmap)%nat with true by lia.
          unfold has_value. rewrite Ebm at 1. rewrite Ebm. rewrite <- Ebm. unfold bitmap_bit.
          rewrite (nth_error_nth _ _ _ En).
          rewrite mask_bit; [reflexivity|lia|].
          apply nth_error_In in En. rewrite Forall_forall in Hb. destruct (Hb _ En). lia.
        - apply nth_error_None in En.
          replace (i <? 8 * length bitmap)%nat with false by lia. reflexivity. }
      rewrite Hpres. clear Hpres.
      assert (Hshort : forall k, (S i <= k)%nat -> enough k -> enough (S i)).
      { unfold enough. intros k Hk [H1 H2]. pose proof (rank_mono (S i) k Hk). split; [|lia].
        destruct H1; [auto|right; lia]. }
      destruct (match bitmap with [] => true | _ => (i <? 8 * length bitmap)%nat end) eqn:Ein.
      + cbn [obind].
        assert (Hbm : bitmap = [] \/ (S i <= 8 * length bitmap)%nat).
        { destruct bitmap; [auto|right; lia]. }
        specialize (IH (S i)). replace (S i + n)%nat with (i + S n)%nat in IH by lia.
        replace (Z.of_nat i + 1) with (Z.of_nat (S i)) by lia.
        pose proof (rank_S i) as HrS.
        destruct (has_value bitmap i) eqn:Ehv.
        * rewrite Nat2Z.id. destruct (nth_error raw (rank bitmap i)) as [x|] eqn:Enr.
          -- assert (rank bitmap i < length raw)%nat by (apply nth_error_Some; congruence).
             assert (He : enough (S i)) by (split; [exact Hbm|lia]).
             replace (Z.of_nat (rank bitmap i) + 1) with (Z.of_nat (rank bitmap (S i))) by lia.
             assert (Hx : point_value i = transform (fdiv (fadd r (fmul (f32_of_Z x) c1)) c2)).
             { unfold point_value. rewrite Ehv. rewrite (nth_error_nth _ _ _ Enr). reflexivity. }
             rewrite <- Hx. destruct IH as [IH1 IH2]; [auto|]. split.
             ++ intro HE. rewrite (IH1 HE). reflexivity.
             ++ intros HE _. destruct n as [|n].
                { exfalso. apply HE. replace (i + 1)%nat with (S i) by lia. exact He. }
                rewrite (IH2 HE) by discriminate. reflexivity.
          -- apply nth_error_None in Enr. split; [|reflexivity]. intro HE. exfalso.
             apply Hshort in HE; [|lia]. destruct HE. lia.
        * replace (rank bitmap i) with (rank bitmap (S i)) by lia.
          assert (Hx : point_value i = missing) by (unfold point_value; rewrite Ehv; reflexivity).
          assert (Hra : (rank bitmap (S i) <= length raw)%nat).
          { rewrite HrS, Nat.add_0_r. destruct Hi as [->|[_ Hi]]; [cbn; lia|exact Hi]. }
          assert (He : enough (S i)) by (split; assumption).
          destruct IH as [IH1 IH2]; [auto|]. split.
          ++ intro HE. rewrite (IH1 HE). cbn [omap seq map]. rewrite Hx. reflexivity.
          ++ intros HE _. destruct n as [|n].
             { exfalso. apply HE. replace (i + 1)%nat with (S i) by lia. exact He. }
             rewrite (IH2 HE) by discriminate. reflexivity.
      + cbn [obind]. split; [|reflexivity]. intro HE. exfalso. apply Hshort in HE; [|lia].
        destruct HE as [[HE|HE] _]; destruct bitmap; try discriminate; lia.
  Qed.

  Lemma data_points_loop_ok n : Forall is_byte bitmap -> enough n ->
    data_points_loop r c1 c2 missing transform bitmap raw n 0 0 = Ok (map point_value (seq 0 n)).
  Proof. intros Hb He. exact (proj1 (data_points_loop_spec Hb n 0%nat (or_introl eq_refl)) He). Qed.
  Lemma data_points_loop_panic n : Forall is_byte bitmap -> ~ enough n ->
    data_points_loop r c1 c2 missing transform bitmap raw n 0 0 = Panic.
  Proof.
    intros Hb He. apply (proj2 (data_points_loop_spec Hb n 0%nat (or_introl eq_refl)) He).
    intros ->. apply He. split; [right; lia|cbn; lia].
  Qed.
End Points.

(** ** Octets consumed by each section *)
Lemma ser_U n v : length (field_bytes (U n v)) = n.
Proof. apply be_bytes_length. Qed.
Lemma ser_length_cons f fs : length (ser (f :: fs)) = (length (field_bytes f) + length (ser fs))%nat.
Proof. rewrite ser_cons, app_length. reflexivity. Qed.
Lemma ser_length_map_U k vs : length (ser (map (U k) vs)) = (k * length vs)%nat.
Proof. rewrite ser_map_U. apply concat_be_length. Qed.
Ltac ser_len := repeat rewrite ser_length_cons; rewrite ?ser_nil; cbn [field_bytes length];
  rewrite ?be_bytes_length.

Lemma layout1_length w : wf1 w -> Z.of_nat (length (ser (layout1 w))) = w1_length w.
Proof. intros (_ & _ & H). unfold layout1. ser_len. lia. Qed.
Lemma layout2_length w : wf2 w -> Z.of_nat (length (ser (layout2 w))) = w2_length w.
Proof. intros (_ & H). unfold layout2. ser_len. lia. Qed.
Lemma layout3_length w : Z.of_nat (length (ser (layout3 w))) =
  match w3_tpl w with W3_0 _ => 72 | W3_101 _ => 35 end.
Proof.
  unfold layout3. rewrite ser_app, app_length. destruct (w3_tpl w); cbn [layout3_tpl];
  unfold layout3_0, layout3_101; ser_len; lia.
Qed.

Lemma consumed_app a (rest : bytes) : Z.of_nat (length (a ++ rest)) - Z.of_nat (length rest) = Z.of_nat (length a).
Proof. rewrite app_length. lia. Qed.

Lemma section_consumption chk bs rest : Forall is_byte bs ->
  let used := Z.of_nat (length bs) - Z.of_nat (length rest) in
  (forall s, read_section0 bs = Ok (s, rest) -> used = 16) /\
  (forall s, read_section1 chk bs = Ok (s, rest) -> used = s1_length s) /\
  (forall s, read_section2 chk bs = Ok (s, rest) -> used = s2_length s) /\
  (forall s, read_section3 bs = Ok (s, rest) ->
     used = match s3_template s with LatitudeLongitude _ => 72 | UnstructuredGridTpl _ => 35 end) /\
  (forall s, read_section4 chk bs = Ok (s, rest) ->
     let coords := 4 * Z.of_nat (length (s4_coordinates s)) in
     match s4_template s with
     | Template4_0 _ => used = 34 + coords
     | Template4_1 _ => used = 37 + coords
     | Template4_8 _ => exists ranges, 0 <= ranges < 256 /\ used = 46 + 12 * ranges + coords
     | Template4_Unknown _ => payload chk (s4_length s) 9 (used - coords - 9)
     end) /\
  (forall s, read_section5 chk bs = Ok (s, rest) ->
     match s5_template s with
     | SimplePacking _ => used = 21
     | Template5_Unknown _ => payload chk (s5_length s) 11 (used - 11)
     end) /\
  (forall s, read_section6 chk bs = Ok (s, rest) -> payload chk (s6_length s) 6 (used - 6)) /\
  (forall s, read_section7 chk bs = Ok (s, rest) ->
     exists n, payload chk (s7_length s) 5 n /\ used = 5 + 2 * (n / 2)) /\
  (forall s, read_section8 bs = Ok (s, rest) -> used = 4).
Proof.
  intros Hb used. subst used.
  repeat match goal with |- _ /\ _ => split end; intros s H.
  - apply section0_fwd in H; [|assumption]. destruct H as (w & (_ & H) & -> & -> & _).
    rewrite consumed_app. unfold layout0. ser_len. lia.
  - apply section1_fwd in H; [|assumption]. destruct H as (w & H & -> & -> & _).
    rewrite consumed_app. apply layout1_length. exact H.
  - apply section2_fwd in H; [|assumption]. destruct H as (w & H & -> & -> & _).
    rewrite consumed_app. apply layout2_length. exact H.
  - apply section3_fwd in H; [|assumption]. destruct H as (w & H & -> & -> & _).
    rewrite consumed_app, layout3_length. cbn [meaning3 s3_template].
    destruct (w3_tpl w); reflexivity.
  - apply section4_fwd in H; [|assumption]. destruct H as (w & (Hf & Ht & _) & -> & -> & _).
    rewrite consumed_app. cbn [meaning4 s4_coordinates s4_template s4_length]. cbv zeta.
    rewrite map_length.
    unfold layout4 in *. unfold fields_ok in Hf. rewrite !Forall_app in Hf. destruct Hf as (_ & Hf & _).
    rewrite !ser_app, !app_length, ser_length_map_U.
    destruct (w4_tpl w) as [c n u|t|c n u k u2|n u]; cbn [meaning4_tpl layout4_tpl wf4_tpl] in *.
    + ser_len. lia.
    + unfold layout4_1. ser_len. lia.
    + exists k. fields Hf. norm256. ser_len. lia.
    + destruct Ht as (_ & _ & _ & Ht). ser_len.
      match goal with |- payload _ _ _ ?n => replace n with (Z.of_nat (length u)) by lia end. exact Ht.
  - apply section5_fwd in H; [|assumption]. destruct H as (w & (Hf & Ht & _) & -> & -> & _).
    rewrite consumed_app. cbn [meaning5 s5_template s5_length].
    unfold layout5. rewrite ser_app, app_length.
    destruct (w5_tpl w) as [r e d b f|n u]; cbn [meaning5_tpl layout5_tpl wf5_tpl] in *.
    + ser_len. lia.
    + destruct Ht as (_ & Ht). ser_len.
      match goal with |- payload _ _ _ ?n => replace n with (Z.of_nat (length u)) by lia end. exact Ht.
  - apply section6_fwd in H; [|assumption]. destruct H as (w & (Hf & Ht) & -> & -> & _).
    rewrite consumed_app. cbn [meaning6 s6_length]. unfold layout6. ser_len.
    match goal with |- payload _ _ _ ?n => replace n with (Z.of_nat (length (w6_bitmap w))) by lia end. exact Ht.
  - apply section7_fwd in H; [|assumption]. destruct H as (w & (Hf & n & Hp & Hn) & -> & -> & _).
    rewrite consumed_app. cbn [meaning7 s7_length]. exists n. split; [exact Hp|].
    unfold layout7. rewrite ser_app, app_length, ser_length_map_U. ser_len. lia.
  - apply section8_fwd in H; [|assumption]. destruct H as (-> & -> & _).
    rewrite consumed_app. reflexivity.
Qed.

(** ** Messages without section 2 *)
Lemma without_section2_rejected chk w rest : wf_message chk w ->
  read_single_doc chk (message_without_section2 w ++ rest) = Err EInvalid.
Proof.
  intros (H0 & H1 & H2 & H3 & H4 & H5 & H6 & H7).
  unfold read_single_doc, message_without_section2. rewrite <- !app_assoc.
  rewrite (bind_ok_step _ _ _ _ _ (section0_bwd _ _ H0)).
  rewrite (bind_ok_step _ _ _ _ _ (section1_bwd chk _ _ H1)).
  unfold wf3, layout3 in *. fields H3.
  rewrite ser_app, !ser_cons. cbn [field_bytes]. rewrite <- !app_assoc.
  unfold bind at 1.
  match goal with |- context [read_section2 chk ?b] =>
    assert (E : read_section2 chk b = Err EInvalid) end.
  { unfold read_section2. run. reflexivity. }
  rewrite E. reflexivity.
Qed.

(** ** Data section *)
Lemma section7_values chk bs s rest : Forall is_byte bs -> read_section7 chk bs = Ok (s, rest) ->
  exists n tail, payload chk (s7_length s) 5 n /\ Z.of_nat (length (s7_data s)) = n / 2 /\
    bs = be_bytes 4 (s7_length s) ++ [7] ++ concat (map (be_bytes 2) (s7_data s)) ++ tail /\
    Forall (fun v => 0 <= v < 65536) (s7_data s) /\ rest = tail.
Proof.
  intros Hb H. apply section7_fwd in H; [|assumption]. destruct H as (w & (Hf & n & Hp & Hn) & -> & -> & _).
  exists n, rest. unfold layout7 in *. unfold fields_ok in Hf. rewrite Forall_app in Hf. destruct Hf as [_ Hf].
  apply Forall_map_U in Hf.
  cbn [meaning7 s7_length s7_data]. repeat split; auto.
  rewrite ser_app, !ser_cons, ser_nil, ser_map_U. cbn [field_bytes]. rewrite <- !app_assoc. reflexivity.
Qed.

Lemma c02_concatenation_proof : forall chk ws tail e, ws <> [] -> Forall (wf_message chk) ws ->
  Forall is_byte tail -> read_single_doc chk tail = Err e ->
  read_multi_doc chk (concat (map message_bytes ws) ++ tail) = Some (Ok (map message_meaning ws)).
Proof.
  intros chk ws tail e H0 H1 H2 H3. apply read_multi_doc_iff.
  - apply Forall_app. split; [|exact H2]. clear -H1.
    induction H1 as [|w ws H _ IH]; [constructor|]. apply Forall_app. split; [|exact IH].
    exact (message_is_bytes _ _ H).
  - exists ws, tail, e. auto.
Qed.

Lemma c02_only_concatenations_proof : forall chk bs ds, Forall is_byte bs ->
  read_multi_doc chk bs = Some (Ok ds) ->
  exists ws tail e, ws <> [] /\ Forall (wf_message chk) ws /\
    bs = concat (map message_bytes ws) ++ tail /\
    ds = map message_meaning ws /\ read_single_doc chk tail = Err e.
Proof. intros chk bs ds Hb. exact (proj1 (read_multi_doc_iff chk bs ds Hb)). Qed.

Lemma c02_terminates_proof : forall chk bs, Forall is_byte bs ->
  read_multi_doc chk bs <> None /\ read_multi_doc chk bs <> Some (Ok []) /\
  (forall e, read_single_doc chk bs = Err e -> read_multi_doc chk bs = Some (Err EInvalid)).
Proof.
  intros chk bs Hb. pose proof (read_docs_enough chk (S (length bs)) bs Hb ltac:(lia)) as H.
  unfold read_multi_doc. split; [|split].
  - destruct (read_docs chk (S (length bs)) bs) as [[[|d ds]|e|]|]; congruence.
  - destruct (read_docs chk (S (length bs)) bs) as [[[|d ds]|e|]|]; congruence.
  - intros e He. cbn [read_docs]. rewrite He. reflexivity.
Qed.

Lemma c04_accepted_is_message_proof : forall chk bs d rest, Forall is_byte bs ->
  read_single_doc chk bs = Ok (d, rest) ->
  exists w, wf_message chk w /\ bs = message_bytes w ++ rest /\ d = message_meaning w.
Proof. intros chk bs d rest Hb. exact (proj1 (read_single_doc_iff chk bs d rest Hb)). Qed.

Lemma c04_framing_proof : forall chk bs d rest, Forall is_byte bs ->
  read_single_doc chk bs = Ok (d, rest) ->
  exists body, bs = [71; 82; 73; 66] ++ body ++ [55; 55; 55; 55] ++ rest.
Proof.
  intros chk bs d rest Hb H. apply read_single_doc_iff in H; [|exact Hb].
  destruct H as (w & _ & -> & _).
  exists (ser (tl (layout0 (w_0 w))) ++ ser (layout1 (w_1 w)) ++ ser (layout2 (w_2 w)) ++
    ser (layout3 (w_3 w)) ++ ser (layout4 (w_4 w)) ++ ser (layout5 (w_5 w)) ++
    ser (layout6 (w_6 w)) ++ ser (layout7 (w_7 w))).
  unfold message_bytes, layout0. cbn [tl]. rewrite ser_cons. cbn [field_bytes].
  change (ser layout8) with [55; 55; 55; 55].
  rewrite <- !app_assoc. reflexivity.
Qed.

Lemma c07_data_points_proof : forall T powi d (missing : T) transform t,
  s5_template (d_s5 d) = SimplePacking t -> Forall is_byte (s6_bitmap (d_s6 d)) ->
  let bitmap := s6_bitmap (d_s6 d) in
  let raw := s7_data (d_s7 d) in
  let n := Z.to_nat (s3_points (d_s3 d)) in
  let value i := transform (unpack (t50_reference t) (powi (f32_of_Z 2) (t50_e t))
                              (powi (f32_of_Z 10) (t50_d t)) (nth (rank bitmap i) raw 0)) in
  raw <> [] ->
  ((bitmap = [] \/ (n <= 8 * length bitmap)%nat) /\ (rank bitmap n <= length raw)%nat ->
   calculate_data_points powi d missing transform =
   Ok (map (fun i => if has_value bitmap i then value i else missing) (seq 0 n))) /\
  (~ ((bitmap = [] \/ (n <= 8 * length bitmap)%nat) /\ (rank bitmap n <= length raw)%nat) ->
   calculate_data_points powi d missing transform = Panic).
Proof.
  intros T powi d missing transform t Ht Hb bitmap raw n value Hr.
  unfold calculate_data_points. rewrite Ht.
  subst raw bitmap n value. destruct (s7_data (d_s7 d)) as [|z l]; [congruence|].
  split; intro H.
  - exact (data_points_loop_ok _ _ _ missing transform _ _ _ Hb H).
  - exact (data_points_loop_panic _ _ _ missing transform _ _ _ Hb H).
Qed.

Lemma c07_empty_data_section_proof : forall T powi d (missing : T) transform t,
  s5_template (d_s5 d) = SimplePacking t -> s7_data (d_s7 d) = [] ->
  calculate_data_points powi d missing transform =
  Ok (repeat missing (Z.to_nat (s3_points (d_s3 d)))).
Proof. intros T powi d missing transform t Ht Hr. unfold calculate_data_points. rewrite Ht, Hr. reflexivity. Qed.

Lemma c07_unsupported_proof : forall T powi d (missing : T) transform n,
  s5_template (d_s5 d) = Template5_Unknown n ->
  calculate_data_points powi d missing transform = Err EInvalid.
Proof. intros T powi d missing transform n Ht. unfold calculate_data_points. rewrite Ht. reflexivity. Qed.

Lemma c09_round_trip_proof : forall v rest, -32767 <= v <= 32767 ->
  read_signed (be_bytes 2 (encode_sign_magnitude16 v) ++ rest) = Ok (v, rest).
Proof.
  intros v rest H. unfold read_signed, encode_sign_magnitude16.
  set (r := if v <? 0 then 32768 - v else v).
  assert (Hr : 0 <= r < 65536) by (subst r; destruct (v <? 0) eqn:E; lia).
  rewrite (bind_ok_step _ _ _ _ _ (read_u16_app r rest Hr)). unfold ret.
  rewrite signed_from_u16_spec by exact Hr. unfold sign_magnitude16. subst r.
  destruct (v <? 0) eqn:E; [replace (32768 - v <? 32768) with false by lia|
                            replace (v <? 32768) with true by lia]; repeat f_equal; lia.
Qed.

Lemma c09_every_pattern_proof : forall a b, 0 <= a < 65536 -> 0 <= b < 65536 ->
  -32767 <= signed_from_u16 a <= 32767 /\
  (signed_from_u16 a = signed_from_u16 b -> a = b \/ (a = 0 /\ b = 32768) \/ (a = 32768 /\ b = 0)).
Proof.
  intros a b Ha Hb. rewrite !signed_from_u16_spec by assumption. unfold sign_magnitude16.
  destruct (a <? 32768) eqn:E1, (b <? 32768) eqn:E2; lia.
Qed.
