(** Proofs about the GRIB2 readers: they accept exactly the messages described in Grib2Spec.v. *)
From Coq Require Import ZArith List Bool Lia ZifyBool ZifyNat.
From Verif Require Import Base F32 Grib2Model Grib2Spec BaseFacts.
Import ListNotations.
Open Scope Z_scope.
Ltac Zify.zify_post_hook ::= Z.div_mod_to_equations.

(** ** Primitive readers at the widths used *)
Lemma read_u8_ok bs v rest : Forall is_byte bs -> read_u8 bs = Ok (v, rest) ->
  bs = be_bytes 1 v ++ rest /\ 0 <= v < 256 ^ Z.of_nat 1 /\ Forall is_byte rest.
Proof. exact (read_be_ok 1 bs v rest). Qed.
Lemma read_u16_ok bs v rest : Forall is_byte bs -> read_u16 bs = Ok (v, rest) ->
  bs = be_bytes 2 v ++ rest /\ 0 <= v < 256 ^ Z.of_nat 2 /\ Forall is_byte rest.
Proof. exact (read_be_ok 2 bs v rest). Qed.
Lemma read_u24_ok bs v rest : Forall is_byte bs -> read_u24 bs = Ok (v, rest) ->
  bs = be_bytes 3 v ++ rest /\ 0 <= v < 256 ^ Z.of_nat 3 /\ Forall is_byte rest.
Proof. exact (read_be_ok 3 bs v rest). Qed.
Lemma read_u32_ok bs v rest : Forall is_byte bs -> read_u32 bs = Ok (v, rest) ->
  bs = be_bytes 4 v ++ rest /\ 0 <= v < 256 ^ Z.of_nat 4 /\ Forall is_byte rest.
Proof. exact (read_be_ok 4 bs v rest). Qed.
Lemma read_u64_ok bs v rest : Forall is_byte bs -> read_u64 bs = Ok (v, rest) ->
  bs = be_bytes 8 v ++ rest /\ 0 <= v < 256 ^ Z.of_nat 8 /\ Forall is_byte rest.
Proof. exact (read_be_ok 8 bs v rest). Qed.
Lemma read_u128_ok bs v rest : Forall is_byte bs -> read_u128 bs = Ok (v, rest) ->
  bs = be_bytes 16 v ++ rest /\ 0 <= v < 256 ^ Z.of_nat 16 /\ Forall is_byte rest.
Proof. exact (read_be_ok 16 bs v rest). Qed.
Lemma take_ok n bs b rest : 0 <= n -> Forall is_byte bs -> take_bytes n bs = Ok (b, rest) ->
  bs = b ++ rest /\ Z.of_nat (length b) = n /\ Forall is_byte b /\ Forall is_byte rest.
Proof.
  intros Hn Hb H. apply take_bytes_ok in H; [|exact Hn]. destruct H as [-> [H _]].
  apply Forall_app in Hb. tauto.
Qed.

Lemma read_u8_app v rest : 0 <= v < 256 ^ Z.of_nat 1 -> read_u8 (be_bytes 1 v ++ rest) = Ok (v, rest).
Proof. intro H. exact (read_be_app 1 v rest H ltac:(unfold isize_max; lia)). Qed.
Lemma read_u16_app v rest : 0 <= v < 256 ^ Z.of_nat 2 -> read_u16 (be_bytes 2 v ++ rest) = Ok (v, rest).
Proof. intro H. exact (read_be_app 2 v rest H ltac:(unfold isize_max; lia)). Qed.
Lemma read_u24_app v rest : 0 <= v < 256 ^ Z.of_nat 3 -> read_u24 (be_bytes 3 v ++ rest) = Ok (v, rest).
Proof. intro H. exact (read_be_app 3 v rest H ltac:(unfold isize_max; lia)). Qed.
Lemma read_u32_app v rest : 0 <= v < 256 ^ Z.of_nat 4 -> read_u32 (be_bytes 4 v ++ rest) = Ok (v, rest).
Proof. intro H. exact (read_be_app 4 v rest H ltac:(unfold isize_max; lia)). Qed.
Lemma read_u64_app v rest : 0 <= v < 256 ^ Z.of_nat 8 -> read_u64 (be_bytes 8 v ++ rest) = Ok (v, rest).
Proof. intro H. exact (read_be_app 8 v rest H ltac:(unfold isize_max; lia)). Qed.
Lemma read_u128_app v rest : 0 <= v < 256 ^ Z.of_nat 16 -> read_u128 (be_bytes 16 v ++ rest) = Ok (v, rest).
Proof. intro H. exact (read_be_app 16 v rest H ltac:(unfold isize_max; lia)). Qed.

Lemma usub_64_ok chk a b n :
  0 <= a < 2 ^ 32 -> 0 <= b < 100 -> usub chk 64 a b = Ok n -> n <= isize_max -> b <= a /\ n = a - b.
Proof.
  unfold usub, isize_max. intros Ha Hb H Hn.
  destruct (b <=? a) eqn:E; [injection H; lia|].
  destruct chk; [discriminate|]. injection H; lia.
Qed.

Lemma usub_32_payload chk a b n :
  usub chk 32 a b = Ok n <-> payload chk a b n.
Proof.
  unfold usub, payload. destruct (b <=? a) eqn:E; [|destruct chk].
  - split; [intro H; injection H as H; left; lia|].
    intros [[H1 H2]|[H0 [H1 H2]]]; [subst; reflexivity|lia].
  - split; [discriminate|]. intros [[H1 H2]|[H0 [H1 H2]]]; [lia|discriminate].
  - split; [intro H; injection H as H; right; split; [reflexivity|lia]|].
    intros [[H1 H2]|[H0 [H1 H2]]]; [lia|subst; reflexivity].
Qed.

Lemma payload_bound chk a b n : payload chk a b n -> 0 <= a < 2 ^ 32 ->
  0 <= b < 100 -> 0 <= n < 2 ^ 32.
Proof. unfold payload. intros [[H1 H2]|[H0 [H1 H2]]]; lia. Qed.
Lemma payload_unique chk a b n m : payload chk a b n -> payload chk a b m -> n = m.
Proof. unfold payload. intros [[H1 H2]|[_ [H1 H2]]] [[H3 H4]|[_ [H3 H4]]]; lia. Qed.

(** ** Tactics *)
Ltac inv_reads :=
  repeat match goal with
  | H : bind _ _ _ = Ok (_, _) |- _ =>
      apply bind_ok in H; let x := fresh "x" in let m := fresh "m" in let H' := fresh "H" in
      destruct H as (x & m & H' & H); cbv beta in H
  | H : ret _ _ = Ok (_, _) |- _ => unfold ret in H; injection H as ? ?; subst
  | H : fail _ _ = Ok _ |- _ => discriminate H
  | H : rpanic _ = Ok _ |- _ => discriminate H
  | H : (if ?c then _ else _) _ = Ok _ |- _ => destruct c eqn:?
  | H : lift ?m ?bs = Ok (_, _) |- _ =>
      unfold lift in H; let E := fresh "E" in destruct m eqn:E; [|discriminate H|discriminate H];
      injection H as ? ?; subst
  | Hb : Forall is_byte ?bs, H : read_u8 ?bs = Ok (?v, ?r) |- _ =>
      apply (read_u8_ok _ _ _ Hb) in H; clear Hb; destruct H as (? & ? & ?); subst
  | Hb : Forall is_byte ?bs, H : read_u16 ?bs = Ok (?v, ?r) |- _ =>
      apply (read_u16_ok _ _ _ Hb) in H; clear Hb; destruct H as (? & ? & ?); subst
  | Hb : Forall is_byte ?bs, H : read_u24 ?bs = Ok (?v, ?r) |- _ =>
      apply (read_u24_ok _ _ _ Hb) in H; clear Hb; destruct H as (? & ? & ?); subst
  | Hb : Forall is_byte ?bs, H : read_u32 ?bs = Ok (?v, ?r) |- _ =>
      apply (read_u32_ok _ _ _ Hb) in H; clear Hb; destruct H as (? & ? & ?); subst
  | Hb : Forall is_byte ?bs, H : read_u64 ?bs = Ok (?v, ?r) |- _ =>
      apply (read_u64_ok _ _ _ Hb) in H; clear Hb; destruct H as (? & ? & ?); subst
  | Hb : Forall is_byte ?bs, H : read_u128 ?bs = Ok (?v, ?r) |- _ =>
      apply (read_u128_ok _ _ _ Hb) in H; clear Hb; destruct H as (? & ? & ?); subst
  | H : (_ =? _) = true |- _ => apply Z.eqb_eq in H
  | H : bytes_eqb _ _ = true |- _ => apply bytes_eqb_eq in H
  end.

Ltac ser_simpl :=
  repeat rewrite ser_app; repeat rewrite ser_cons; rewrite ?ser_nil; cbn [field_bytes];
  rewrite <- ?app_assoc; rewrite ?app_nil_l, ?app_nil_r.

Ltac lookup_tac := unfold lookup; cbn [find fst snd];
  repeat match goal with |- context[?v =? ?c] =>
    first [ is_var v; rewrite (Z.eqb_sym v c) ] ; destruct (c =? v); [reflexivity|] end;
  reflexivity.

Lemma discipline_lookup v :
  (if v =? 0 then DMeteorological else if v =? 1 then DHydrological
       else if v =? 2 then DLandSurface else if v =? 3 then DSatelliteRemoteSensing
       else if v =? 4 then DSpaceWeather else if v =? 10 then DOceanographic
       else if v =? 255 then DMissing else DUnknown v) = lookup discipline_table DUnknown v.
Proof. unfold discipline_table. lookup_tac. Qed.

Lemma bind_assoc {A B C} (m : reader A) (f : A -> reader B) (k : B -> reader C) bs :
  bind (bind m f) k bs = bind m (fun x => bind (f x) k) bs.
Proof. unfold bind. destruct (m bs) as [[x r]|e|]; reflexivity. Qed.
Lemma bind_ret {A B} (a : A) (k : A -> reader B) bs : bind (ret a) k bs = k a bs.
Proof. reflexivity. Qed.
Lemma bind_take {B} n (k : bytes -> reader B) b rest :
  Z.of_nat (length b) = n -> n <= isize_max -> bind (take_bytes n) k (b ++ rest) = k b rest.
Proof. intros H1 H2. apply bind_ok_step. apply take_bytes_app; assumption. Qed.
Lemma bind_lift {A B} (m : outcome A) a (k : A -> reader B) bs :
  m = Ok a -> bind (lift m) k bs = k a bs.
Proof. intros ->. reflexivity. Qed.

Ltac range := first [ assumption | cbn; lia ].
Ltac run1 :=
  match goal with
  | |- bind (bind _ _) _ _ = _ => rewrite bind_assoc
  | |- bind (ret _) _ _ = _ => rewrite bind_ret
  | |- bind read_u8 _ (be_bytes 1 ?v ++ ?r) = _ => rewrite (bind_ok_step _ _ _ _ _ (read_u8_app v r ltac:(range)))
  | |- bind read_u16 _ (be_bytes 2 ?v ++ ?r) = _ => rewrite (bind_ok_step _ _ _ _ _ (read_u16_app v r ltac:(range)))
  | |- bind read_u24 _ (be_bytes 3 ?v ++ ?r) = _ => rewrite (bind_ok_step _ _ _ _ _ (read_u24_app v r ltac:(range)))
  | |- bind read_u32 _ (be_bytes 4 ?v ++ ?r) = _ => rewrite (bind_ok_step _ _ _ _ _ (read_u32_app v r ltac:(range)))
  | |- bind read_u64 _ (be_bytes 8 ?v ++ ?r) = _ => rewrite (bind_ok_step _ _ _ _ _ (read_u64_app v r ltac:(range)))
  | |- bind read_u128 _ (be_bytes 16 ?v ++ ?r) = _ => rewrite (bind_ok_step _ _ _ _ _ (read_u128_app v r ltac:(range)))
  | |- bind (take_bytes _) _ (?b ++ _) = _ =>
      rewrite bind_take; [| lia | unfold isize_max; lia ]
  end; cbv beta.
Ltac run := repeat run1.
Ltac fields H :=
  unfold fields_ok in H; rewrite ?Forall_app in H;
  repeat match goal with
  | K : _ /\ _ |- _ => destruct K
  end;
  repeat match goal with
  | K : Forall field_ok (_ :: _) |- _ => apply Forall_cons_iff in K; destruct K
  | K : Forall field_ok [] |- _ => clear K
  end; cbn [field_ok] in *.

Ltac inv_take :=
  match goal with
  | Hb : Forall is_byte ?bs, H : take_bytes ?n ?bs = Ok (_, _) |- _ =>
      apply take_ok in H; [ clear Hb; destruct H as (? & ? & ? & ?); subst bs | lia | exact Hb ]
  end.

Lemma take_bytes_le n bs x : take_bytes n bs = Ok x -> n <= isize_max.
Proof. unfold take_bytes. destruct (n >? isize_max) eqn:E; [discriminate|lia]. Qed.
Ltac norm256 :=
  change (256 ^ Z.of_nat 1) with 256 in *; change (256 ^ Z.of_nat 2) with 65536 in *;
  change (256 ^ Z.of_nat 3) with 16777216 in *; change (256 ^ Z.of_nat 4) with 4294967296 in *;
  change (2 ^ 32) with 4294967296 in *.
Ltac usub64 :=
  match goal with
  | E : usub _ 64 ?a ?k = Ok ?n, T : take_bytes ?n _ = Ok _ |- _ =>
      apply usub_64_ok in E; [ destruct E; subst n | norm256; lia | lia
                             | exact (take_bytes_le _ _ _ T) ]
  end.

Ltac finish_bytes := ser_simpl; reflexivity.
Ltac finish_fields := unfold fields_ok;
  repeat (first [ apply Forall_cons | apply Forall_nil | apply Forall_app; split ]); cbn [field_ok];
  first [ assumption | cbn; lia | repeat constructor; unfold is_byte; lia ].


Ltac bytes_goal lay := unfold lay; ser_simpl; reflexivity.
Ltac fields_goal lay := unfold lay; finish_fields.
Ltac unfold_prims :=
  repeat unfold read_section0, read_n_chars, read_n_bytes, read_discipline, read_ref_time_significance,
    read_ref_time, read_production_status, read_processed_data_type,
    read_grid_definition_source, read_optional_point_interpretation, read_shape_of_earth,
    read_resolution_flags, read_scanning_flags, read_lat_lon, read_angle, read_scale_factor_value,
    read_parameter_category, read_i8, read_original_field_type, read_signed in *.

(** ** Section 0 *)
Lemma section0_fwd bs s rest : Forall is_byte bs -> read_section0 bs = Ok (s, rest) ->
  exists w, wf0 w /\ bs = ser (layout0 w) ++ rest /\ s = meaning0 w /\ Forall is_byte rest.
Proof.
  intros Hb H. unfold read_section0, read_n_chars in H. inv_reads.
  inv_take.
  match goal with H : ignore_read _ _ = _ |- _ => unfold ignore_read, read_n_bytes in H;
    destruct (take_bytes 2 m) as [[? ?]|?|] eqn:E2; [injection H as <- | injection H as <- |discriminate H] end.
  - inv_take. unfold read_discipline in *. inv_reads. subst.
    eexists (Build_wire0 _ _ _ _). split; [|split; [|split]].
    2: bytes_goal layout0.
    + split; [fields_goal layout0|cbn; lia].
    + unfold meaning0; cbn. rewrite discipline_lookup. reflexivity.
    + assumption.
  - exfalso. unfold read_discipline in *. inv_reads.
    match goal with H : read_u8 [] = _ |- _ => discriminate H end.
Qed.

Lemma section0_bwd w rest : wf0 w ->
  read_section0 (ser (layout0 w) ++ rest) = Ok (meaning0 w, rest).
Proof.
  intros [Hf Hl]. unfold layout0 in *. fields Hf.
  unfold read_section0, read_n_chars. ser_simpl.
  rewrite bind_assoc, bind_take by (unfold isize_max; cbn; lia). cbv beta.
  change (utf8_valid [71; 82; 73; 66]) with true. cbn match. rewrite bind_ret.
  rewrite (bind_ok_step _ _ _ tt (be_bytes 1 (w0_discipline w) ++ be_bytes 1 (w0_edition w) ++ be_bytes 8 (w0_total w) ++ rest)).
  2: { unfold ignore_read, read_n_bytes. rewrite take_bytes_app by (unfold isize_max; lia). reflexivity. }
  unfold read_discipline. run.
  change (bytes_eqb _ _) with true. cbn match. unfold ret, meaning0.
  rewrite discipline_lookup. reflexivity.
Qed.

(** ** Section 1 *)
Lemma significance_lookup v :
  (if v =? 0 then RAnalysis else if v =? 1 then RStartOfForecast
       else if v =? 2 then RVerifyingTimeOfForecast else if v =? 3 then RObservationTime
       else if v =? 255 then RMissing else RUnknown v) = lookup significance_table RUnknown v.
Proof. unfold significance_table. lookup_tac. Qed.
Lemma status_lookup v :
  (if v =? 0 then PSOperational else if v =? 1 then PSTest else if v =? 2 then PSResearch
       else if v =? 3 then PSReAnalysis else if v =? 4 then PSThorpex
       else if v =? 5 then PSThorpexTest else if v =? 6 then PSS2sOperational
       else if v =? 7 then PSS2sTest else if v =? 8 then PSUerra else if v =? 9 then PSUerraTest
       else if v =? 255 then PSMissing else PSUnknown v) = lookup status_table PSUnknown v.
Proof. unfold status_table. lookup_tac. Qed.
Lemma data_type_lookup v :
  (if v =? 0 then TAnalysis else if v =? 1 then TForecast else if v =? 2 then TAnalysisAndForecast
       else if v =? 3 then TControlForecast else if v =? 4 then TPerturbedForecast
       else if v =? 5 then TControlAndPerturbedForecast
       else if v =? 6 then TProcessedSatelliteObservations
       else if v =? 7 then TProcessedRadarObservations else if v =? 8 then TEventProbability
       else if v =? 192 then TExperimental else if v =? 255 then TMissing else TUnknown v)
  = lookup data_type_table TUnknown v.
Proof. unfold data_type_table. lookup_tac. Qed.

Lemma valid_date_spec y mo d h mi s :
  valid_ymd y mo d && valid_hms h mi s = true <->
  real_date_time {| dt_year := y; dt_month := mo; dt_day := d; dt_hour := h; dt_minute := mi;
                    dt_second := s |}.
Proof.
  unfold valid_ymd, valid_hms, real_date_time, month_has_day, is_leap, days_in_month, leap_year.
  cbn [dt_year dt_month dt_day dt_hour dt_minute dt_second In].
  split.
  - intro H.
    destruct (mo =? 2) eqn:E2.
    + destruct ((y mod 4 =? 0) && (negb (y mod 100 =? 0) || (y mod 400 =? 0))) eqn:El;
        split; try lia.
    + destruct ((mo =? 4) || (mo =? 6) || (mo =? 9) || (mo =? 11)) eqn:E3; split; lia.
  - intros [[H1 H2] H3].
    assert (Hm : (1 <=? mo) && (mo <=? 12) = true) by lia.
    assert (Hd : (d <=? (if mo =? 2 then if (y mod 4 =? 0) && (negb (y mod 100 =? 0) || (y mod 400 =? 0)) then 29 else 28
        else if (mo =? 4) || (mo =? 6) || (mo =? 9) || (mo =? 11) then 30 else 31)) = true).
    { destruct (mo =? 2) eqn:E2.
      - destruct ((y mod 4 =? 0) && (negb (y mod 100 =? 0) || (y mod 400 =? 0))) eqn:El; [lia|].
        destruct H2 as [H2|[H2|[H2|H2]]]; try lia.
      - destruct ((mo =? 4) || (mo =? 6) || (mo =? 9) || (mo =? 11)) eqn:E3; lia. }
    rewrite Hm, Hd. lia.
Qed.

Lemma section1_fwd chk bs s rest : Forall is_byte bs -> read_section1 chk bs = Ok (s, rest) ->
  exists w, wf1 w /\ bs = ser (layout1 w) ++ rest /\ s = meaning1 w /\ Forall is_byte rest.
Proof.
  intros Hb H. unfold read_section1 in H. unfold_prims. inv_reads. subst.
  usub64.
  inv_take.
  match goal with E : _ && _ = true |- _ => apply valid_date_spec in E end.
  eexists (Build_wire1 _ _ _ _ _ _ (Build_date_time _ _ _ _ _ _) _ _ _). split; [|split; [|split]].
  2: bytes_goal layout1.
  - split; [fields_goal layout1|]. split; [assumption|cbn [w1_length w1_rest]; lia].
  - unfold meaning1; cbn [w1_length w1_center w1_subcenter w1_master w1_local w1_significance w1_time w1_status w1_type].
    rewrite <- significance_lookup, <- status_lookup, <- data_type_lookup. reflexivity.
  - assumption.
Qed.

Lemma section1_bwd chk w rest : wf1 w ->
  read_section1 chk (ser (layout1 w) ++ rest) = Ok (meaning1 w, rest).
Proof.
  intros [Hf [Hd Hl]]. unfold layout1 in *. fields Hf.
  unfold read_section1. unfold_prims. ser_simpl. run.
  destruct w as [len ce su ma lo sg [y mo d h mi sc] st ty r].
  cbn [w1_length w1_center w1_subcenter w1_master w1_local w1_significance w1_time w1_status w1_type w1_rest
       dt_year dt_month dt_day dt_hour dt_minute dt_second] in *.
  apply valid_date_spec in Hd. rewrite Hd. run.
  change (1 =? 1) with true. cbn match.
  rewrite (bind_lift _ (len - 21)).
  2: { unfold usub. replace (21 <=? len) with true by lia. reflexivity. }
  rewrite bind_take by (norm256; unfold isize_max; lia).
  unfold ret, meaning1. cbn [w1_length w1_center w1_subcenter w1_master w1_local w1_significance w1_time w1_status w1_type].
  rewrite <- significance_lookup, <- status_lookup, <- data_type_lookup. reflexivity.
Qed.

(** ** Section 2 *)
Lemma section2_fwd chk bs s rest : Forall is_byte bs -> read_section2 chk bs = Ok (s, rest) ->
  exists w, wf2 w /\ bs = ser (layout2 w) ++ rest /\ s = meaning2 w /\ Forall is_byte rest.
Proof.
  intros Hb H. unfold read_section2 in H. unfold_prims. inv_reads. subst.
  usub64.
  inv_take.
  eexists (Build_wire2 _ _). split; [|split; [|split]].
  2: bytes_goal layout2.
  - split; [fields_goal layout2|cbn [w2_length w2_rest]; lia].
  - reflexivity.
  - assumption.
Qed.

Lemma section2_bwd chk w rest : wf2 w ->
  read_section2 chk (ser (layout2 w) ++ rest) = Ok (meaning2 w, rest).
Proof.
  intros [Hf Hl]. unfold layout2 in *. fields Hf.
  unfold read_section2. unfold_prims. ser_simpl. run.
  change (2 =? 2) with true. cbn match.
  rewrite (bind_lift _ (w2_length w - 5)).
  2: { unfold usub. replace (5 <=? w2_length w) with true by lia. reflexivity. }
  rewrite bind_take by (norm256; unfold isize_max; lia).
  reflexivity.
Qed.

(** ** Section 3 *)
Lemma land_pow2 v k : 0 <= k -> (Z.land v (2 ^ k) =? 0) = bit_clear k v.
Proof.
  intro Hk. unfold bit_clear. destruct (Z.testbit v k) eqn:E; cbn [negb].
  - apply Z.eqb_neq. intro H.
    assert (K : Z.testbit (Z.land v (2 ^ k)) k = true).
    { rewrite Z.land_spec, E, Z.pow2_bits_true by exact Hk. reflexivity. }
    rewrite H, Z.bits_0 in K. discriminate.
  - apply Z.eqb_eq. apply Z.bits_inj. intro n. rewrite Z.land_spec, Z.bits_0.
    destruct (Z.eq_dec n k) as [->|Hn]; [rewrite E; reflexivity|].
    rewrite Z.pow2_bits_false by lia. apply andb_false_r.
Qed.

Lemma source_lookup v :
  (if v =? 0 then GTemplate else if v =? 1 then GPredetermined
       else if v =? 255 then GNone else GUnknown v) = lookup source_table GUnknown v.
Proof. unfold source_table. lookup_tac. Qed.
Lemma interpretation_lookup v :
  (if v =? 0 then ONone else if v =? 1 then OFullCoordinateCircles
       else if v =? 2 then OCoordinateLines else if v =? 3 then OActualLatitude
       else if v =? 255 then OMissing else OUnknown v) = lookup interpretation_table OUnknown v.
Proof. unfold interpretation_table. lookup_tac. Qed.
Lemma shape_lookup v :
  (if v =? 6 then SSphericalRadius6371229 else if v =? 255 then SMissing else SUnknown v)
  = lookup shape_table SUnknown v.
Proof. unfold shape_table. lookup_tac. Qed.

Ltac flags :=
  change 1 with (2 ^ 0) at 1; 
  rewrite <- ?(land_pow2 _ 0), <- ?(land_pow2 _ 1), <- ?(land_pow2 _ 2), <- ?(land_pow2 _ 3),
    <- ?(land_pow2 _ 4), <- ?(land_pow2 _ 5), <- ?(land_pow2 _ 6), <- ?(land_pow2 _ 7) by lia.

Lemma template3_0_fwd bs t rest : Forall is_byte bs -> read_template3_0 bs = Ok (t, rest) ->
  exists w, fields_ok (layout3_0 w) /\ bs = ser (layout3_0 w) ++ rest /\ t = meaning3_0 w /\
            Forall is_byte rest.
Proof.
  intros Hb H. unfold read_template3_0 in H. unfold_prims. inv_reads. subst.
  eexists (Build_wire3_0 _ (Build_scale_factor_value _ _) (Build_scale_factor_value _ _)
    (Build_scale_factor_value _ _) _ _ _ _ _ _ _ _ _ _ _ _).
  split; [|split; [|split]].
  2: bytes_goal layout3_0.
  - fields_goal layout3_0.
  - unfold meaning3_0.
    cbn [w30_shape w30_radius w30_major w30_minor w30_ni w30_nj w30_basic w30_subdiv w30_lat1
         w30_lon1 w30_res w30_lat2 w30_lon2 w30_di w30_dj w30_scan].
    rewrite <- shape_lookup. rewrite <- !land_pow2 by lia. reflexivity.
  - assumption.
Qed.

Lemma template3_0_bwd w rest : fields_ok (layout3_0 w) ->
  read_template3_0 (ser (layout3_0 w) ++ rest) = Ok (meaning3_0 w, rest).
Proof.
  intros Hf. unfold layout3_0 in *. fields Hf.
  unfold read_template3_0. unfold_prims. ser_simpl. run.
  unfold ret, meaning3_0. rewrite <- shape_lookup. rewrite <- !land_pow2 by lia.
  destruct w as [? [] [] [] ? ? ? ? ? ? ? ? ? ? ? ?]. reflexivity.
Qed.

Lemma template3_101_fwd bs t rest : Forall is_byte bs -> read_template3_101 bs = Ok (t, rest) ->
  exists w, fields_ok (layout3_101 w) /\ bs = ser (layout3_101 w) ++ rest /\ t = meaning3_101 w /\
            Forall is_byte rest.
Proof.
  intros Hb H. unfold read_template3_101 in H. unfold_prims. inv_reads. subst.
  eexists (Build_wire3_101 _ _ _ _). split; [|split; [|split]].
  2: bytes_goal layout3_101.
  - fields_goal layout3_101.
  - unfold meaning3_101. cbn [w3101_shape w3101_grid w3101_ref w3101_uuid].
    rewrite <- shape_lookup. reflexivity.
  - assumption.
Qed.

Lemma template3_101_bwd w rest : fields_ok (layout3_101 w) ->
  read_template3_101 (ser (layout3_101 w) ++ rest) = Ok (meaning3_101 w, rest).
Proof.
  intros Hf. unfold layout3_101 in *. fields Hf.
  unfold read_template3_101. unfold_prims. ser_simpl. run.
  unfold ret, meaning3_101. rewrite <- shape_lookup. reflexivity.
Qed.

Lemma template3_fwd bs t rest : Forall is_byte bs ->
  read_grid_definition_template bs = Ok (t, rest) ->
  exists w, fields_ok (layout3_tpl w) /\ bs = ser (layout3_tpl w) ++ rest /\
            t = meaning3_tpl w /\ Forall is_byte rest.
Proof.
  intros Hb H. unfold read_grid_definition_template in H. inv_reads; subst.
  - match goal with H : read_template3_0 _ = _ |- _ => apply template3_0_fwd in H;
      [destruct H as (w & ? & -> & -> & ?)|assumption] end.
    exists (W3_0 w). cbn [layout3_tpl meaning3_tpl]. 
    split; [constructor; [cbn; lia|assumption]|].
    split; [rewrite ser_cons; cbn [field_bytes]; rewrite <- app_assoc; reflexivity|].
    split; [reflexivity|assumption].
  - match goal with H : read_template3_101 _ = _ |- _ => apply template3_101_fwd in H;
      [destruct H as (w & ? & -> & -> & ?)|assumption] end.
    exists (W3_101 w). cbn [layout3_tpl meaning3_tpl]. 
    split; [constructor; [cbn; lia|assumption]|].
    split; [rewrite ser_cons; cbn [field_bytes]; rewrite <- app_assoc; reflexivity|].
    split; [reflexivity|assumption].
Qed.

Lemma template3_bwd w rest : fields_ok (layout3_tpl w) ->
  read_grid_definition_template (ser (layout3_tpl w) ++ rest) = Ok (meaning3_tpl w, rest).
Proof.
  unfold read_grid_definition_template.
  destruct w as [w|w]; cbn [layout3_tpl meaning3_tpl]; intro Hf;
    apply Forall_cons_iff in Hf; destruct Hf as [_ Hf];
    rewrite ser_cons; cbn [field_bytes]; rewrite <- app_assoc; run.
  - change (0 =? 0) with true. cbn match.
    rewrite (bind_ok_step _ _ _ _ _ (template3_0_bwd w rest Hf)). reflexivity.
  - change (101 =? 0) with false. change (101 =? 101) with true. cbn match.
    rewrite (bind_ok_step _ _ _ _ _ (template3_101_bwd w rest Hf)). reflexivity.
Qed.

Lemma section3_fwd bs s rest : Forall is_byte bs -> read_section3 bs = Ok (s, rest) ->
  exists w, wf3 w /\ bs = ser (layout3 w) ++ rest /\ s = meaning3 w /\ Forall is_byte rest.
Proof.
  intros Hb H. unfold read_section3 in H. unfold_prims. inv_reads. subst.
  match goal with H : read_grid_definition_template _ = _ |- _ => apply template3_fwd in H;
      [destruct H as (w & ? & -> & -> & ?)|assumption] end.
  eexists (Build_wire3 _ _ _ _ _ w). split; [|split; [|split]].
  2: { unfold layout3. cbn [w3_tpl]. ser_simpl. reflexivity. }
  - unfold wf3, layout3. cbn [w3_tpl]. unfold fields_ok. apply Forall_app. split; [|assumption].
    finish_fields.
  - unfold meaning3. cbn [w3_length w3_source w3_points w3_opt_length w3_opt_interp w3_tpl].
    rewrite <- source_lookup, <- interpretation_lookup. reflexivity.
  - assumption.
Qed.

Lemma section3_bwd w rest : wf3 w ->
  read_section3 (ser (layout3 w) ++ rest) = Ok (meaning3 w, rest).
Proof.
  unfold wf3. intros Hf. unfold layout3 in *. fields Hf.
  unfold read_section3. unfold_prims. ser_simpl. run.
  rewrite (bind_ok_step _ _ _ _ _ (template3_bwd (w3_tpl w) rest ltac:(assumption))).
  change (3 =? 3) with true. cbn match. unfold ret, meaning3.
  rewrite <- source_lookup, <- interpretation_lookup. reflexivity.
Qed.

(** ** Section 4 *)
Lemma category_lookup v :
  (if v =? 0 then CTemperature else if v =? 1 then CMoisture else if v =? 2 then CMomentum
       else if v =? 3 then CMass else if v =? 6 then CCloud else if v =? 191 then CMiscellaneous
       else if v =? 255 then CMissing else CUnknown v) = lookup category_table CUnknown v.
Proof. unfold category_table. lookup_tac. Qed.

Lemma template4_1_fwd bs t rest : Forall is_byte bs -> read_template4_1 bs = Ok (t, rest) ->
  exists w, fields_ok (layout4_1 w) /\ bs = ser (layout4_1 w) ++ rest /\ t = meaning4_1 w /\
            Forall is_byte rest.
Proof.
  intros Hb H. unfold read_template4_1 in H. unfold_prims. inv_reads. subst.
  eexists (Build_wire4_1 _ _ _ _ _ _ _ _ _ _ _ _ _ _ _ _ _ _).
  split; [|split; [|split]].
  2: bytes_goal layout4_1.
  - fields_goal layout4_1.
  - unfold meaning4_1.
    cbn [w41_category w41_number w41_process w41_background w41_forecast w41_hours w41_minutes
         w41_unit w41_time w41_t1 w41_f1 w41_v1 w41_t2 w41_f2 w41_v2 w41_ens w41_pert w41_count].
    rewrite <- category_lookup. reflexivity.
  - assumption.
Qed.

Lemma template4_1_bwd w rest : fields_ok (layout4_1 w) ->
  read_template4_1 (ser (layout4_1 w) ++ rest) = Ok (meaning4_1 w, rest).
Proof.
  intros Hf. unfold layout4_1 in *. fields Hf.
  unfold read_template4_1. unfold_prims. ser_simpl. run.
  unfold ret, meaning4_1. rewrite <- category_lookup. reflexivity.
Qed.

Lemma template4_fwd chk n len tl bs t rest : Forall is_byte bs -> 0 <= len < 2 ^ 32 ->
  usub chk 32 len 9 = Ok tl ->
  read_product_definition_template n tl bs = Ok (t, rest) ->
  exists w, tpl4_number w = n /\ fields_ok (layout4_tpl w) /\ wf4_tpl chk len w /\
    bs = ser (layout4_tpl w) ++ rest /\ t = meaning4_tpl w /\ Forall is_byte rest.
Proof.
  intros Hb Hl Hu H. apply usub_32_payload in Hu.
  pose proof (payload_bound _ _ _ _ Hu Hl ltac:(lia)) as Htl.
  unfold read_product_definition_template in H.
  destruct (n =? 0) eqn:E0; [|destruct (n =? 1) eqn:E1; [|destruct (n =? 8) eqn:E8]].
  - unfold read_template4_0 in H. unfold_prims. inv_reads. subst. inv_take.
    match goal with |- exists w, _ /\ _ /\ _ /\ be_bytes 1 ?c ++ be_bytes 1 ?n ++ ?u ++ _ = _ /\ _ =>
      exists (W4_0 c n u) end. cbn [tpl4_number layout4_tpl wf4_tpl meaning4_tpl].
    split; [reflexivity|]. split; [|split; [|split; [|split]]].
    3: { ser_simpl. reflexivity. }
    + finish_fields.
    + lia.
    + rewrite <- category_lookup. reflexivity.
    + assumption.
  - inv_reads. subst.
    match goal with H : read_template4_1 _ = _ |- _ => apply template4_1_fwd in H;
      [destruct H as (w & ? & -> & -> & ?)|assumption] end.
    exists (W4_1 w). repeat split; auto.
  - unfold read_template4_8 in H. unfold_prims. inv_reads. subst. inv_take. inv_reads. subst. inv_take.
    match goal with |- exists w, _ /\ _ /\ _ /\
      be_bytes 1 ?c ++ be_bytes 1 ?n ++ ?u ++ be_bytes 1 ?k ++ ?u2 ++ _ = _ /\ _ =>
      exists (W4_8 c n u k u2) end. cbn [tpl4_number layout4_tpl wf4_tpl meaning4_tpl].
    split; [reflexivity|]. split; [|split; [|split; [|split]]].
    3: { ser_simpl. reflexivity. }
    + finish_fields.
    + split; lia.
    + rewrite <- category_lookup. reflexivity.
    + assumption.
  - unfold_prims. inv_reads. subst. inv_take.
    match goal with |- exists w, _ /\ _ /\ _ /\ ?u ++ _ = _ /\ _ =>
      exists (W4_other n u) end. cbn [tpl4_number layout4_tpl wf4_tpl meaning4_tpl].
    split; [reflexivity|]. split; [|split; [|split; [|split]]].
    3: { ser_simpl. reflexivity. }
    + finish_fields.
    + split; [lia|]. split; [lia|]. split; [lia|]. subst tl. assumption.
    + reflexivity.
    + assumption.
Qed.

Lemma template4_bwd chk len tl w rest : 0 <= len < 2 ^ 32 ->
  usub chk 32 len 9 = Ok tl -> fields_ok (layout4_tpl w) -> wf4_tpl chk len w ->
  read_product_definition_template (tpl4_number w) tl (ser (layout4_tpl w) ++ rest)
  = Ok (meaning4_tpl w, rest).
Proof.
  intros Hl Hu Hf Hw. 
  unfold read_product_definition_template.
  destruct w as [c n u|w|c n u r u2|n s]; cbn [tpl4_number layout4_tpl wf4_tpl meaning4_tpl] in *.
  - fields Hf. change (0 =? 0) with true. cbn match. unfold read_template4_0. unfold_prims.
    ser_simpl. run. unfold ret. rewrite <- category_lookup. reflexivity.
  - change (1 =? 0) with false. change (1 =? 1) with true. cbn match.
    rewrite (bind_ok_step _ _ _ _ _ (template4_1_bwd w rest Hf)). reflexivity.
  - fields Hf. change (8 =? 0) with false. change (8 =? 1) with false. change (8 =? 8) with true.
    cbn match. unfold read_template4_8. unfold_prims.
    norm256. ser_simpl. run. unfold ret. rewrite <- category_lookup. reflexivity.
  - destruct Hw as (H0 & H1 & H8 & Hp).
    replace (n =? 0) with false by lia. replace (n =? 1) with false by lia.
    replace (n =? 8) with false by lia.
    assert (tl = Z.of_nat (length s)) as ->.
    { apply usub_32_payload in Hu. exact (payload_unique _ _ _ _ _ Hu Hp). }
    pose proof (payload_bound _ _ _ _ Hp Hl ltac:(lia)). fields Hf. unfold_prims. norm256.
    ser_simpl. run. reflexivity.
Qed.

Lemma usub_9 chk len k : (chk = true -> k <= len) -> exists tl, usub chk 32 len k = Ok tl.
Proof.
  intro H. unfold usub. destruct (k <=? len) eqn:E; [eauto|].
  destruct chk; [specialize (H eq_refl); lia|eauto].
Qed.
Lemma usub_9_inv chk len k tl : usub chk 32 len k = Ok tl -> chk = true -> k <= len.
Proof. unfold usub. destruct (k <=? len) eqn:E; [lia|]. destruct chk; discriminate. Qed.

Lemma section4_fwd chk bs s rest : Forall is_byte bs -> read_section4 chk bs = Ok (s, rest) ->
  exists w, wf4 chk w /\ bs = ser (layout4 w) ++ rest /\ s = meaning4 w /\ Forall is_byte rest.
Proof.
  intros Hb H. unfold read_section4 in H. inv_reads. subst.
  match goal with E : usub _ _ _ _ = Ok _, H : read_product_definition_template _ _ _ = _ |- _ =>
    pose proof (usub_9_inv _ _ _ _ E);
    apply (template4_fwd _ _ _ _ _ _ _ ltac:(eassumption) ltac:(norm256; eassumption) E) in H;
    destruct H as (w & <- & ? & ? & -> & -> & ?) end.
  match goal with H : read_be_into 4 _ _ = _ |- _ =>
    apply (read_be_into_ok 4) in H; [destruct H as (-> & <- & ? & ?)|lia|lia|assumption] end.
  eexists (Build_wire4 _ w _). split; [|split; [|split]].
  2: { unfold layout4. cbn [w4_length w4_tpl w4_coords]. ser_simpl. rewrite ser_map_U. reflexivity. }
  - split; [|split; assumption].
    unfold layout4, fields_ok. rewrite !Forall_app, Forall_map_U. cbn [w4_tpl w4_length w4_coords].
    repeat split; try assumption. finish_fields.
  - reflexivity.
  - assumption.
Qed.

Lemma section4_bwd chk w rest : wf4 chk w ->
  read_section4 chk (ser (layout4 w) ++ rest) = Ok (meaning4 w, rest).
Proof.
  intros (Hf & Ht & Hl). unfold layout4 in *. unfold fields_ok in Hf. rewrite !Forall_app in Hf.
  destruct Hf as (Hf1 & Hf2 & Hf3). fields Hf1.
  unfold read_section4. ser_simpl. run.
  destruct (usub_9 _ _ _ Hl) as [tl Etl].
  rewrite (bind_lift _ _ _ _ Etl).
  rewrite (bind_ok_step _ _ _ _ _ (template4_bwd chk _ _ _ _ ltac:(norm256; eassumption) Etl Hf2 Ht)).
  rewrite ser_map_U. apply Forall_map_U in Hf3.
  rewrite (bind_ok_step _ _ _ (w4_coords w) rest).
  2: { norm256. apply (read_be_into_app 4); [lia|reflexivity|unfold isize_max; lia|assumption]. }
  reflexivity.
Qed.

(** ** Section 5 *)
Lemma field_type_lookup v :
  (if v =? 0 then FFloatingPoint else if v =? 1 then FInteger
       else if v =? 255 then FMissing else FUnknown v) = lookup field_type_table FUnknown v.
Proof. unfold field_type_table. lookup_tac. Qed.

Lemma signed_from_u16_spec v : 0 <= v < 65536 -> signed_from_u16 v = sign_magnitude16 v.
Proof.
  intro H. unfold signed_from_u16, sign_magnitude16.
  change 0x7FFF with (Z.ones 15). rewrite Z.land_ones by lia.
  assert (E : (0 <? Z.land v 0x8000) = negb (v <? 32768)).
  { assert (N : 0 <= Z.land v 0x8000) by (apply Z.land_nonneg; lia).
    pose proof (land_pow2 v 15 ltac:(lia)) as L. change (2 ^ 15) with 0x8000 in L.
    unfold bit_clear in L. rewrite Z.testbit_odd, Z.shiftr_div_pow2 in L by lia.
    destruct (v <? 32768) eqn:Ev.
    - replace (v / 2 ^ 15) with 0 in L by (change (2 ^ 15) with 32768; lia). cbn in L. cbn; lia.
    - replace (v / 2 ^ 15) with 1 in L by (change (2 ^ 15) with 32768; lia). cbn in L. cbn; lia. }
  rewrite E. change (2 ^ 15) with 32768. destruct (v <? 32768) eqn:Ev; cbn [negb]; lia.
Qed.

Lemma section5_fwd chk bs s rest : Forall is_byte bs -> read_section5 chk bs = Ok (s, rest) ->
  exists w, wf5 chk w /\ bs = ser (layout5 w) ++ rest /\ s = meaning5 w /\ Forall is_byte rest.
Proof.
  intros Hb H. unfold read_section5, read_data_representation_template, read_template5_0 in H.
  unfold_prims.
  inv_reads; subst.
  - match goal with E : usub _ _ _ _ = Ok _ |- _ => pose proof (usub_9_inv _ _ _ _ E) end.
    eexists (Build_wire5 _ _ (W5_0 _ _ _ _ _)). split; [|split; [|split]].
    2: { unfold layout5. cbn [w5_length w5_tpl w5_points layout5_tpl]. ser_simpl. reflexivity. }
    + split; [|split; [exact I|assumption]].
      unfold layout5. cbn [w5_length w5_tpl w5_points layout5_tpl]. finish_fields.
    + unfold meaning5. cbn [w5_length w5_tpl w5_points meaning5_tpl].
      rewrite !signed_from_u16_spec by assumption. rewrite field_type_lookup. reflexivity.
    + assumption.
  - match goal with E : usub _ _ _ _ = Ok _ |- _ => pose proof (usub_9_inv _ _ _ _ E);
      apply usub_32_payload in E;
      pose proof (payload_bound _ _ _ _ E ltac:(norm256; eassumption) ltac:(lia)) end.
    inv_take.
    match goal with |- exists w, _ /\ be_bytes 4 ?l ++ be_bytes 1 5 ++ be_bytes 4 ?p ++ be_bytes 2 ?n ++ ?u ++ _ = _ /\ _ =>
      exists (Build_wire5 l p (W5_other n u)) end. split; [|split; [|split]].
    2: { unfold layout5. cbn [w5_length w5_tpl w5_points layout5_tpl]. ser_simpl. reflexivity. }
    + split; [|split; [|assumption]].
      * unfold layout5. cbn [w5_length w5_tpl w5_points layout5_tpl]. finish_fields.
      * cbn [w5_length w5_tpl wf5_tpl]. split; [lia|]. subst. assumption.
    + reflexivity.
    + assumption.
Qed.

Lemma section5_bwd chk w rest : wf5 chk w ->
  read_section5 chk (ser (layout5 w) ++ rest) = Ok (meaning5 w, rest).
Proof.
  intros (Hf & Ht & Hl). unfold layout5 in *. destruct w as [len pts t].
  cbn [w5_length w5_tpl w5_points] in *.
  unfold read_section5, read_data_representation_template, read_template5_0.
  destruct (usub_9 _ _ _ Hl) as [tl Etl].
  destruct t as [r e d b f|n s]; cbn [layout5_tpl wf5_tpl] in *; fields Hf; unfold_prims;
    ser_simpl; run; rewrite (bind_lift _ _ _ _ Etl).
  - change (0 =? 0) with true. cbn match. run. change (5 =? 5) with true. cbn match.
    unfold ret, meaning5. cbn [w5_length w5_tpl w5_points meaning5_tpl].
    rewrite !signed_from_u16_spec by assumption. rewrite field_type_lookup. reflexivity.
  - apply usub_32_payload in Etl. 
    match goal with H : payload _ _ _ _ |- _ => pose proof (payload_unique _ _ _ _ _ Etl H); subst tl end.
    pose proof (payload_bound _ _ _ _ Etl ltac:(norm256; eassumption) ltac:(lia)).
    replace (n =? 0) with false by lia. norm256. run. reflexivity.
Qed.

(** ** Section 6 *)
Lemma section6_fwd chk bs s rest : Forall is_byte bs -> read_section6 chk bs = Ok (s, rest) ->
  exists w, wf6 chk w /\ bs = ser (layout6 w) ++ rest /\ s = meaning6 w /\ Forall is_byte rest.
Proof.
  intros Hb H. unfold read_section6 in H. unfold_prims. inv_reads. subst.
  match goal with E : usub _ _ _ _ = Ok _ |- _ => apply usub_32_payload in E;
      pose proof (payload_bound _ _ _ _ E ltac:(norm256; eassumption) ltac:(lia)) end.
  inv_take.
  eexists (Build_wire6 _ _ _). split; [|split; [|split]].
  2: bytes_goal layout6.
  - split; [fields_goal layout6|]. subst. assumption.
  - reflexivity.
  - assumption.
Qed.

Lemma section6_bwd chk w rest : wf6 chk w ->
  read_section6 chk (ser (layout6 w) ++ rest) = Ok (meaning6 w, rest).
Proof.
  intros [Hf Hl]. unfold layout6 in *. fields Hf.
  unfold read_section6. unfold_prims. ser_simpl. run.
  rewrite (bind_lift _ (Z.of_nat (length (w6_bitmap w)))) by (apply usub_32_payload; assumption).
  pose proof (payload_bound _ _ _ _ Hl ltac:(norm256; eassumption) ltac:(lia)).
  norm256. run. reflexivity.
Qed.

(** ** Section 7 *)
Lemma section7_fwd chk bs s rest : Forall is_byte bs -> read_section7 chk bs = Ok (s, rest) ->
  exists w, wf7 chk w /\ bs = ser (layout7 w) ++ rest /\ s = meaning7 w /\ Forall is_byte rest.
Proof.
  intros Hb H. unfold read_section7 in H. inv_reads. subst.
  match goal with E : usub _ _ _ _ = Ok _ |- _ => apply usub_32_payload in E;
      pose proof (payload_bound _ _ _ _ E ltac:(norm256; eassumption) ltac:(lia)) end.
  match goal with H : read_be_into 2 _ _ = _ |- _ =>
    apply (read_be_into_ok 2) in H; [destruct H as (-> & ? & ? & ?)|lia|lia|assumption] end.
  eexists (Build_wire7 _ _). split; [|split; [|split]].
  2: { unfold layout7. cbn [w7_length w7_data]. ser_simpl. rewrite ser_map_U. reflexivity. }
  - split; [|eexists; split; eassumption].
    unfold layout7, fields_ok. rewrite !Forall_app, Forall_map_U. cbn [w7_length w7_data].
    split; [|assumption]. finish_fields.
  - reflexivity.
  - assumption.
Qed.

Lemma section7_bwd chk w rest : wf7 chk w ->
  read_section7 chk (ser (layout7 w) ++ rest) = Ok (meaning7 w, rest).
Proof.
  intros [Hf [n [Hp Hn]]]. unfold layout7 in *. unfold fields_ok in Hf. rewrite !Forall_app in Hf.
  destruct Hf as (Hf1 & Hf2). fields Hf1. apply Forall_map_U in Hf2.
  unfold read_section7. ser_simpl. run. rewrite ser_map_U.
  rewrite (bind_lift _ n) by (apply usub_32_payload; assumption).
  pose proof (payload_bound _ _ _ _ Hp ltac:(norm256; eassumption) ltac:(lia)).
  rewrite (bind_ok_step _ _ _ (w7_data w) rest).
  2: { norm256. apply (read_be_into_app 2); [lia|exact Hn|unfold isize_max; lia|assumption]. }
  reflexivity.
Qed.

(** ** Section 8 *)
Lemma section8_fwd bs s rest : Forall is_byte bs -> read_section8 bs = Ok (s, rest) ->
  bs = ser layout8 ++ rest /\ s = meaning8 /\ Forall is_byte rest.
Proof.
  intros Hb H. unfold read_section8 in H. unfold_prims. inv_reads. inv_take. subst.
  split; [reflexivity|]. split; [reflexivity|assumption].
Qed.
Lemma section8_bwd rest : read_section8 (ser layout8 ++ rest) = Ok (meaning8, rest).
Proof.
  unfold read_section8, layout8. unfold_prims. ser_simpl.
  rewrite bind_assoc, bind_take by (unfold isize_max; cbn; lia). reflexivity.
Qed.

(** ** Documents *)
Theorem read_single_doc_iff chk bs d rest : Forall is_byte bs ->
  read_single_doc chk bs = Ok (d, rest) <->
  exists w, wf_message chk w /\ bs = message_bytes w ++ rest /\ d = message_meaning w.
Proof.
  intro Hb. split.
  - intro H. unfold read_single_doc in H.
    repeat match goal with H : bind _ _ _ = Ok (_, _) |- _ =>
      apply bind_ok in H; let x := fresh "s" in let m := fresh "m" in let H' := fresh "H" in
      destruct H as (x & m & H' & H); cbv beta in H end.
    apply section0_fwd in H0; [|assumption]. destruct H0 as (w0 & ? & -> & -> & ?).
    apply section1_fwd in H1; [|assumption]. destruct H1 as (w1 & ? & -> & -> & ?).
    apply section2_fwd in H2; [|assumption]. destruct H2 as (w2 & ? & -> & -> & ?).
    apply section3_fwd in H3; [|assumption]. destruct H3 as (w3 & ? & -> & -> & ?).
    apply section4_fwd in H4; [|assumption]. destruct H4 as (w4 & ? & -> & -> & ?).
    apply section5_fwd in H5; [|assumption]. destruct H5 as (w5 & ? & -> & -> & ?).
    apply section6_fwd in H6; [|assumption]. destruct H6 as (w6 & ? & -> & -> & ?).
    apply section7_fwd in H7; [|assumption]. destruct H7 as (w7 & ? & -> & -> & ?).
    apply section8_fwd in H8; [|assumption]. destruct H8 as (-> & -> & ?).
    unfold ret in H. injection H as <- <-.
    exists (Build_wire w0 w1 w2 w3 w4 w5 w6 w7).
    split; [repeat (split; [assumption|]); assumption|]. split; [|reflexivity].
    unfold message_bytes. rewrite <- !app_assoc. reflexivity.
  - intros (w & (H0 & H1 & H2 & H3 & H4 & H5 & H6 & H7) & -> & ->).
    unfold read_single_doc, message_bytes. rewrite <- !app_assoc.
    rewrite (bind_ok_step _ _ _ _ _ (section0_bwd _ _ H0)).
    rewrite (bind_ok_step _ _ _ _ _ (section1_bwd chk _ _ H1)).
    rewrite (bind_ok_step _ _ _ _ _ (section2_bwd chk _ _ H2)).
    rewrite (bind_ok_step _ _ _ _ _ (section3_bwd _ _ H3)).
    rewrite (bind_ok_step _ _ _ _ _ (section4_bwd chk _ _ H4)).
    rewrite (bind_ok_step _ _ _ _ _ (section5_bwd chk _ _ H5)).
    rewrite (bind_ok_step _ _ _ _ _ (section6_bwd chk _ _ H6)).
    rewrite (bind_ok_step _ _ _ _ _ (section7_bwd chk _ _ H7)).
    rewrite (bind_ok_step _ _ _ _ _ (section8_bwd _)).
    reflexivity.
Qed.
