(** Proofs of C69 and C70. *)
From Coq Require Import ZArith Reals List Bool Lia Lra.
From Flocq Require Import Core.Core.
From Verif Require Import Base F32 F32Facts Grib2Model Grib2Spec Grib2Proofs Grib2DocProofs Grib2FloatProofs GeoModel GeoSpec GeoProofs GeoRegridProofs ChartSpec FieldSpec.
Import ListNotations.
Open Scope Z_scope.

(** ** Angles *)

Lemma angle_fin raw : 0 <= raw < 2 ^ 32 -> fin (angle raw).
Proof. intro H. destruct (angle_value raw H) as (V & F & _). split; assumption. Qed.
Lemma angle_xr raw : 0 <= raw < 2 ^ 32 -> xr (angle raw) = rnd (rnd (IZR raw) / 1000000).
Proof. intro H. destruct (angle_value raw H) as (_ & _ & E). exact E. Qed.
Lemma angle_degrees raw : 0 <= raw < 2 ^ 32 -> degrees_of raw (normalize_deg (angle raw)).
Proof.
  intro H. destruct (normalize_spec (angle raw) (angle_fin raw H)) as (F & B & k & E). split; [exact F|]. split; [exact B|].
  exists k. rewrite E. replace (xr (angle raw) - 360 * IZR k + 360 * IZR k - IZR raw / 1000000)%R with (xr (angle raw) - IZR raw / 1000000)%R by ring.
  exact (angle_error raw H).
Qed.
Lemma angle_mono a b : 0 <= a <= b -> b < 2 ^ 32 -> (xr (angle a) <= xr (angle b))%R.
Proof.
  intros H B. rewrite !angle_xr by lia. apply rnd_mono. apply Rmult_le_compat_r; [lra|]. apply rnd_mono, IZR_le. lia.
Qed.
Lemma angle_low a : 0 <= a <= 179999984 -> (0 <= xr (angle a) < 180)%R.
Proof.
  intro H. split.
  - pose proof (angle_mono 0 a ltac:(lia) ltac:(lia)) as M. replace (xr (angle 0)) with 0%R in M; [exact M|]. rewrite angle_xr by lia.
    rewrite rnd_0. unfold Rdiv. rewrite Rmult_0_l, rnd_0. reflexivity.
  - pose proof (angle_mono a 179999984 ltac:(lia) ltac:(lia)) as M. destruct (fin_Z 180 ltac:(lia)) as [F1 E1].
    assert (L : flt (angle 179999984) (f32_of_Z 180) = true) by (vm_compute; reflexivity).
    apply flt_fin in L; [|apply angle_fin; lia|exact F1]. rewrite E1 in L. lra.
Qed.
Lemma angle_high a : 180000000 <= a <= 360000000 -> (180 <= xr (angle a) <= 360)%R.
Proof.
  intro H. destruct (fin_Z 180 ltac:(lia)) as [_ E1]. destruct (fin_Z 360 ltac:(lia)) as [_ E2]. split.
  - pose proof (angle_mono 180000000 a ltac:(lia) ltac:(lia)) as M.
    assert (E : angle 180000000 = f32_of_Z 180) by (vm_compute; reflexivity). rewrite E, E1 in M. exact M.
  - pose proof (angle_mono a 360000000 ltac:(lia) ltac:(lia)) as M.
    assert (E : angle 360000000 = f32_of_Z 360) by (vm_compute; reflexivity). rewrite E, E2 in M. exact M.
Qed.
Lemma normalized raw : angle_field raw ->
  (xr (normalize_deg (angle raw)) = if raw <? 180000000 then xr (angle raw) else xr (angle raw) - 360)%R.
Proof.
  intros [B A]. destruct (normalize_spec (angle raw) (angle_fin raw ltac:(lia))) as (_ & N & k & E). rewrite E in *.
  destruct (raw <? 180000000) eqn:L.
  - pose proof (angle_low raw ltac:(lia)) as W. assert (k = 0); [|subst; cbn [IZR]; lra].
    assert (-1 < IZR k < 1)%R as [K1 K2] by lra. change (-1)%R with (IZR (-1)) in K1. apply lt_IZR in K1, K2. lia.
  - pose proof (angle_high raw ltac:(lia)) as W. assert (k = 1); [|subst; lra].
    assert (0 < IZR k < 2)%R as [K1 K2] by lra. apply lt_IZR in K1, K2. lia.
Qed.
Lemma normalized_ordered a b : angle_field a -> angle_field b -> micro a <= micro b ->
  (xr (normalize_deg (angle a)) <= xr (normalize_deg (angle b)))%R.
Proof.
  intros A B. rewrite !normalized by assumption. destruct A as [A _], B as [B _]. unfold micro.
  destruct (a <? 180000000) eqn:LA, (b <? 180000000) eqn:LB; intro M.
  - apply angle_mono; lia.
  - assert (a = 0) as -> by lia. assert (b = 360000000) as -> by lia.
    assert (E : angle 360000000 = f32_of_Z 360) by (vm_compute; reflexivity). rewrite E.
    destruct (fin_Z 360 ltac:(lia)) as [_ ->]. assert (E0 : angle 0 = f32_of_Z 0) by (vm_compute; reflexivity). rewrite E0.
    destruct (fin_Z 0 ltac:(lia)) as [_ ->]. lra.
  - pose proof (angle_mono 0 b ltac:(lia) ltac:(lia)) as W. pose proof (angle_high a ltac:(lia)) as W2.
    assert (E0 : angle 0 = f32_of_Z 0) by (vm_compute; reflexivity). rewrite E0 in W. destruct (fin_Z 0 ltac:(lia)) as [_ E1]. rewrite E1 in W. lra.
  - pose proof (angle_mono a b ltac:(lia) ltac:(lia)). lra.
Qed.
Lemma normalized_error a : angle_field a -> (Rabs (xr (normalize_deg (angle a)) - IZR (micro a) / 1000000) <= / 11000)%R.
Proof.
  intros A. rewrite normalized by assumption. destruct A as [A _]. pose proof (angle_error a ltac:(lia)) as E. cbv zeta in E. fold (angle a) in E.
  assert (B : (bpow radix2 (-22) * (IZR a / 1000000) <= / 11000)%R).
  { assert (IZR a <= 360000000)%R by (apply IZR_le; lia). replace (bpow radix2 (-22)) with (/ 4194304)%R by (cbn; lra). lra. }
  unfold micro. destruct (a <? 180000000); [eapply Rle_trans; eassumption|]. rewrite minus_IZR.
  replace (xr (angle a) - 360 - (IZR a - 360000000) / 1000000)%R with (xr (angle a) - IZR a / 1000000)%R by field. eapply Rle_trans; eassumption.
Qed.
Lemma normalized_strict a b : angle_field a -> angle_field b -> 200 <= micro a - micro b ->
  (xr (normalize_deg (angle b)) < xr (normalize_deg (angle a)))%R.
Proof.
  intros A B M. pose proof (normalized_error a A) as EA. pose proof (normalized_error b B) as EB. apply Rabs_le_inv in EA, EB.
  assert (200 <= IZR (micro a) - IZR (micro b))%R by (rewrite <- minus_IZR; apply IZR_le; lia). lra.
Qed.

(** ** Grids of messages *)

Lemma wf_angles chk w t : wf_message chk w -> w3_tpl (w_3 w) = W3_0 t ->
  0 <= w30_ni t < 2 ^ 32 /\ 0 <= w30_nj t < 2 ^ 32 /\ 0 <= w30_lat1 t < 2 ^ 32 /\ 0 <= w30_lon1 t < 2 ^ 32 /\
  0 <= w30_lat2 t < 2 ^ 32 /\ 0 <= w30_lon2 t < 2 ^ 32 /\ 0 <= w3_points (w_3 w).
Proof.
  intros (_ & _ & _ & H & _) E. unfold wf3, layout3 in H. rewrite E in H. unfold fields_ok, layout3_tpl, layout3_0 in H. cbn [app] in H.
  repeat match goal with X : Forall _ (_ :: _) |- _ => let A := fresh "A" in let B := fresh "B" in apply Forall_cons_iff in X; destruct X as [A B] end.
  unfold field_ok in *. change (256 ^ Z.of_nat 4) with (2 ^ 32) in *. repeat split; assumption || lia.
Qed.
Lemma wf_bitmap chk w : wf_message chk w -> Forall is_byte (w6_bitmap (w_6 w)).
Proof.
  intros (_ & _ & _ & _ & _ & _ & (H & _) & _). unfold fields_ok, layout6 in H.
  repeat match goal with X : Forall _ (_ :: _) |- _ => let A := fresh "A" in let B := fresh "B" in apply Forall_cons_iff in X; destruct X as [A B] end.
  assumption.
Qed.
Lemma regular_extent chk w t : wf_message chk w -> w3_tpl (w_3 w) = W3_0 t ->
  dimensions_and_extent (message_meaning w) =
  omap (fun e => (w30_ni t, w30_nj t, e)) (extent_new (lat_lon_new (angle (w30_lat1 t)) (angle (w30_lon1 t))) (lat_lon_new (angle (w30_lat2 t)) (angle (w30_lon2 t)))).
Proof. intros _ E. unfold dimensions_and_extent, message_meaning. cbn [d_s3 s3_template meaning3]. rewrite E. reflexivity. Qed.

Lemma grid_of_message {T} chk powi w rest (missing : T) transform o : wf_message chk w ->
  (grid_of chk powi (message_bytes w ++ rest) missing transform o <-> regular_create_and_transform powi (message_meaning w) missing transform = o).
Proof.
  intro W. pose proof (read_single_doc_bwd chk w rest W) as R. split.
  - intros (d & rest' & A & B). rewrite R in A. injection A as <- <-. exact B.
  - intro B. exists (message_meaning w), rest. split; assumption.
Qed.

Lemma points_read {T} chk powi w r e d b f (missing : T) transform : wf_message chk w -> w5_tpl (w_5 w) = W5_0 r e d b f ->
  (w7_data (w_7 w) = [] \/ enough_data w -> exists vs, calculate_data_points powi (message_meaning w) missing transform = Ok vs) /\
  (forall vs, calculate_data_points powi (message_meaning w) missing transform = Ok vs ->
     length vs = Z.to_nat (w3_points (w_3 w)) /\ forall k v, nth_error vs k = Some v -> point_value powi w r e d missing transform k v).
Proof.
  intros W E5. set (doc := message_meaning w).
  assert (S5 : s5_template (d_s5 doc) = SimplePacking {| t50_reference := f32_of_bits r; t50_e := sign_magnitude16 e; t50_d := sign_magnitude16 d; t50_bits := b;
    t50_field_type := lookup field_type_table FUnknown f |}).
  { unfold doc, message_meaning. cbn [d_s5 s5_template meaning5]. rewrite E5. reflexivity. }
  assert (S6 : s6_bitmap (d_s6 doc) = w6_bitmap (w_6 w)) by reflexivity.
  assert (S7 : s7_data (d_s7 doc) = w7_data (w_7 w)) by reflexivity.
  assert (S3 : s3_points (d_s3 doc) = w3_points (w_3 w)) by reflexivity.
  destruct (w7_data (w_7 w)) as [|x0 raw] eqn:D.
  - pose proof (c07_empty_data_section_proof T powi doc missing transform _ S5 S7) as C. rewrite S3 in C.
    split; [eexists; exact C|]. intros vs H. rewrite C in H. injection H as <-. split; [apply repeat_length|].
    intros k v N. unfold point_value. rewrite D. cbn [negb]. rewrite andb_false_r. apply nth_error_In, repeat_spec in N. exact N.
  - pose proof (c07_data_points_proof T powi doc missing transform _ S5 ltac:(rewrite S6; exact (wf_bitmap chk w W))) as C.
    cbv zeta in C. rewrite S6, S7, S3 in C. specialize (C ltac:(discriminate)). destruct C as [C1 C2].
    cbn [t50_reference t50_e t50_d] in C1.
    split.
    + intros [?|X]; [discriminate|]. eexists. apply C1. unfold enough_data in X. rewrite D in X. exact X.
    + intros vs H. 
      assert (X : enough_data w).
      { unfold enough_data. rewrite D. cbv zeta.
        destruct (w6_bitmap (w_6 w)) as [|b0 bm] eqn:BM.
        - split; [left; reflexivity|]. destruct (le_lt_dec (rank [] (Z.to_nat (w3_points (w_3 w)))) (length (x0 :: raw))) as [|X]; [assumption|].
          rewrite C2 in H by (intros [_ ?]; lia). discriminate.
        - destruct (le_lt_dec (Z.to_nat (w3_points (w_3 w))) (8 * length (b0 :: bm))) as [X|X];
            [|rewrite C2 in H by (intros [[?|?] _]; [discriminate|lia]); discriminate].
          split; [right; exact X|]. destruct (le_lt_dec (rank (b0 :: bm) (Z.to_nat (w3_points (w_3 w)))) (length (x0 :: raw))) as [|Y]; [assumption|].
          rewrite C2 in H by (intros [_ ?]; lia). discriminate. }
      pose proof X as X'. unfold enough_data in X'. rewrite D in X'. rewrite (C1 X') in H. injection H as <-.
      split; [rewrite map_length, seq_length; reflexivity|].
      intros k v N. rewrite nth_error_map in N. destruct (nth_error (seq 0 (Z.to_nat (w3_points (w_3 w)))) k) as [k'|] eqn:K; [|discriminate].
      cbn [option_map] in N. injection N as <-.
      assert (k' = k /\ (k < Z.to_nat (w3_points (w_3 w)))%nat) as [-> L].
      { pose proof (nth_error_Some (seq 0 (Z.to_nat (w3_points (w_3 w)))) k) as NS. rewrite K, seq_length in NS.
        assert (k < Z.to_nat (w3_points (w_3 w)))%nat by (apply NS; discriminate).
        split; [|assumption]. apply (nth_error_nth _ _ O) in K. rewrite seq_nth in K by assumption. lia. }
      unfold point_value. rewrite D. cbn [negb]. rewrite andb_true_r. destruct (has_value (w6_bitmap (w_6 w)) k) eqn:HV; [|reflexivity].
      assert (RL : (rank (w6_bitmap (w_6 w)) k < length (x0 :: raw))%nat).
      { destruct X' as [_ X']. eapply Nat.lt_le_trans; [|exact X']. unfold rank.
        replace (Z.to_nat (w3_points (w_3 w))) with (k + (1 + (Z.to_nat (w3_points (w_3 w)) - k - 1)))%nat by lia.
        rewrite !seq_app, !filter_app, !app_length. cbn [seq filter plus]. rewrite HV. cbn [length]. lia. }
      exists (nth (rank (w6_bitmap (w_6 w)) k) (x0 :: raw) 0). split; [|reflexivity].
      apply nth_error_nth'. exact RL.
Qed.

Lemma shown {T} chk powi w t r e d b f (missing : T) transform g : wf_message chk w -> w3_tpl (w_3 w) = W3_0 t -> w5_tpl (w_5 w) = W5_0 r e d b f ->
  regular_create_and_transform powi (message_meaning w) missing transform = Ok g -> shows powi w t r e d missing transform g.
Proof.
  intros W E3 E5 H. destruct (wf_angles chk w t W E3) as (_ & _ & A1 & A2 & A3 & A4 & _).
  destruct (points_read chk powi w r e d b f missing transform W E5) as [_ P].
  unfold regular_create_and_transform in H. destruct (calculate_data_points powi (message_meaning w) missing transform) as [vs|?|]; try discriminate.
  cbn [obind] in H. rewrite (regular_extent chk w t W E3) in H. unfold extent_new in H.
  destruct (fgt _ _ || fgt _ _); cbn [omap] in H; [discriminate|]. injection H as <-.
  destruct (P vs eq_refl) as [L C]. unfold shows, dims, extent_of. cbn [vg_grid value_grid_new grid_new g_w g_h g_extent min_coord max_coord vg_missing vg_values lat_lon_new lat lon].
  split; [reflexivity|]. split; [reflexivity|].
  split; [exact (angle_degrees _ A1)|]. split; [exact (angle_degrees _ A2)|]. split; [exact (angle_degrees _ A3)|]. split; [exact (angle_degrees _ A4)|].
  split; [exact L|]. intros i j v _ _ N. exact (C _ _ N).
Qed.

Lemma c69_cells_proof : forall T chk powi bs (missing : T) transform g, Forall is_byte bs -> grid_of chk powi bs missing transform (Ok g) ->
  exists w t r e d b f rest, wf_message chk w /\ bs = message_bytes w ++ rest /\ w3_tpl (w_3 w) = W3_0 t /\ w5_tpl (w_5 w) = W5_0 r e d b f /\
    shows powi w t r e d missing transform g.
Proof.
  intros T chk powi bs missing transform g B (doc & rest & R & H).
  destruct (c04_accepted_is_message_proof chk bs doc rest B R) as (w & W & Eb & ->).
  destruct (w3_tpl (w_3 w)) as [t|u] eqn:E3.
  2:{ unfold regular_create_and_transform in H. destruct (calculate_data_points _ _ _ _); try discriminate. cbn [obind] in H.
      unfold dimensions_and_extent, message_meaning in H. cbn [d_s3 meaning3 s3_template] in H. rewrite E3 in H. discriminate. }
  destruct (w5_tpl (w_5 w)) as [r e d b f|n sk] eqn:E5.
  2:{ unfold regular_create_and_transform, calculate_data_points, message_meaning in H. cbn [d_s5 meaning5 s5_template] in H. rewrite E5 in H. discriminate. }
  exists w, t, r, e, d, b, f, rest. split; [exact W|]. split; [exact Eb|]. split; [exact E3|]. split; [exact E5|]. eapply shown; eassumption.
Qed.

Lemma c69_succeeds_proof : forall T chk powi w rest t r e d b f (missing : T) transform, wf_message chk w ->
  w3_tpl (w_3 w) = W3_0 t -> w5_tpl (w_5 w) = W5_0 r e d b f -> w7_data (w_7 w) = [] \/ enough_data w ->
  angle_field (w30_lat1 t) -> angle_field (w30_lon1 t) -> angle_field (w30_lat2 t) -> angle_field (w30_lon2 t) ->
  micro (w30_lat1 t) <= micro (w30_lat2 t) -> micro (w30_lon1 t) <= micro (w30_lon2 t) ->
  exists g, grid_of chk powi (message_bytes w ++ rest) missing transform (Ok g) /\ shows powi w t r e d missing transform g.
Proof.
  intros T chk powi w rest t r e d b f missing transform W E3 E5 D F1 F2 F3 F4 O1 O2.
  destruct (wf_angles chk w t W E3) as (_ & _ & A1 & A2 & A3 & A4 & _).
  destruct (points_read chk powi w r e d b f missing transform W E5) as [P _]. destruct (P D) as [vs V].
  assert (H : exists g, regular_create_and_transform powi (message_meaning w) missing transform = Ok g).
  { unfold regular_create_and_transform. rewrite V. cbn [obind]. rewrite (regular_extent chk w t W E3).
    destruct (extent_new_spec (lat_lon_new (angle (w30_lat1 t)) (angle (w30_lon1 t))) (lat_lon_new (angle (w30_lat2 t)) (angle (w30_lon2 t)))) as [X _].
    - split; apply normalize_spec; apply angle_fin; assumption.
    - split; apply normalize_spec; apply angle_fin; assumption.
    - rewrite X by (split; apply normalized_ordered; assumption). eexists. reflexivity. }
  destruct H as [g H]. exists g. split; [apply grid_of_message; assumption|]. eapply shown; eassumption.
Qed.

Lemma c69_order_proof : forall T chk powi w rest t r e d b f (missing : T) transform, wf_message chk w ->
  w3_tpl (w_3 w) = W3_0 t -> w5_tpl (w_5 w) = W5_0 r e d b f -> w7_data (w_7 w) = [] \/ enough_data w ->
  angle_field (w30_lat1 t) -> angle_field (w30_lon1 t) -> angle_field (w30_lat2 t) -> angle_field (w30_lon2 t) ->
  200 <= micro (w30_lat1 t) - micro (w30_lat2 t) \/ 200 <= micro (w30_lon1 t) - micro (w30_lon2 t) ->
  grid_of chk powi (message_bytes w ++ rest) missing transform Panic.
Proof.
  intros T chk powi w rest t r e d b f missing transform W E3 E5 D F1 F2 F3 F4 O.
  destruct (wf_angles chk w t W E3) as (_ & _ & A1 & A2 & A3 & A4 & _).
  destruct (points_read chk powi w r e d b f missing transform W E5) as [P _]. destruct (P D) as [vs V].
  apply grid_of_message; [exact W|]. unfold regular_create_and_transform. rewrite V. cbn [obind]. rewrite (regular_extent chk w t W E3).
  destruct (extent_new_spec (lat_lon_new (angle (w30_lat1 t)) (angle (w30_lon1 t))) (lat_lon_new (angle (w30_lat2 t)) (angle (w30_lon2 t)))) as [_ X].
  - split; apply normalize_spec; apply angle_fin; assumption.
  - split; apply normalize_spec; apply angle_fin; assumption.
  - rewrite X; [reflexivity|]. cbn [lat_lon_new lat lon]. intros [Y1 Y2].
    destruct O as [O|O]; apply normalized_strict in O; try assumption; lra.
Qed.

Lemma c69_unstructured_proof : forall T chk powi w rest u (missing : T) transform o, wf_message chk w -> w3_tpl (w_3 w) = W3_101 u ->
  grid_of chk powi (message_bytes w ++ rest) missing transform o -> forall g, o <> Ok g.
Proof.
  intros T chk powi w rest u missing transform o W E3 H g ->. apply grid_of_message in H; [|exact W].
  unfold regular_create_and_transform in H. destruct (calculate_data_points _ _ _ _); try discriminate. cbn [obind] in H.
  unfold dimensions_and_extent, message_meaning in H. cbn [d_s3 meaning3 s3_template] in H. rewrite E3 in H. discriminate.
Qed.

Lemma c69_only_proof : forall T chk powi w w' t t' rest rest' (missing : T) transform o, wf_message chk w -> wf_message chk w' -> same_field w w' t t' ->
  (grid_of chk powi (message_bytes w ++ rest) missing transform o <-> grid_of chk powi (message_bytes w' ++ rest') missing transform o).
Proof.
  intros T chk powi w w' t t' rest rest' missing transform o W W' (E3 & E3' & P & Ni & Nj & A1 & A2 & A3 & A4 & E5 & E6 & E7).
  rewrite !grid_of_message by assumption.
  assert (X : regular_create_and_transform powi (message_meaning w) missing transform = regular_create_and_transform powi (message_meaning w') missing transform);
    [|rewrite X; reflexivity].
  unfold regular_create_and_transform. rewrite (regular_extent chk w t W E3), (regular_extent chk w' t' W' E3'), Ni, Nj, A1, A2, A3, A4.
  f_equal. unfold calculate_data_points, message_meaning. cbn [d_s3 d_s5 d_s6 d_s7 meaning3 meaning5 meaning6 meaning7 s3_points s5_template s6_bitmap s7_data].
  rewrite E5, E6, E7, P. reflexivity.
Qed.

(** ** Places *)

Lemma place_taken first last n i x c k : axis_ok first last n -> 2 <= n <= 2 ^ 17 -> 0 <= i < n -> close_to first last n i x ->
  (Rabs (xr c - IZR n * ((xr x - xr first) / (xr last - xr first))) <= IZR n * bpow radix2 (-21))%R -> (Rabs (IZR k - xr c) <= / 2)%R -> taken n i k.
Proof.
  intros (_ & _ & _ & S & _) N I C A K. unfold close_to, point_place in C. set (L := (xr last - xr first)%R) in *.
  assert (L0 : (0 < L)%R) by (eapply Rlt_le_trans; [apply bpow_gt_0|exact S]).
  assert (N2 : (2 <= IZR n)%R) by (apply IZR_le; lia). assert (N17 : (IZR n <= 131072)%R) by (apply IZR_le; lia).
  assert (I0 : (0 <= IZR i)%R) by (apply IZR_le; lia). assert (I1 : (IZR i <= IZR n - 1)%R) by (rewrite <- minus_IZR; apply IZR_le; lia).
  (* exact coordinate of the place of the point: i + i / (n - 1) *)
  set (q := (IZR i / (IZR n - 1))%R).
  assert (Q : (q * (IZR n - 1) = IZR i)%R) by (unfold q; field; lra).
  assert (E : (Rabs (IZR n * ((xr x - xr first) / L) - (IZR i + q)) <= / 8)%R).
  { replace (IZR n * ((xr x - xr first) / L) - (IZR i + q))%R with (IZR n / L * (xr x - (xr first + IZR i * (L / (IZR n - 1)))))%R.
    2:{ rewrite <- Q. field. split; lra. }
    assert (P : (0 <= IZR n / L)%R) by (apply Rlt_le, Rdiv_lt_0_compat; lra).
    rewrite Rabs_mult, (Rabs_pos_eq _ P).
    eapply Rle_trans; [apply Rmult_le_compat_l; [exact P|exact C]|]. right. field. split; lra. }
  assert (B : (IZR n * bpow radix2 (-21) <= / 16)%R) by (replace (bpow radix2 (-21)) with (/ 2097152)%R by (cbn; lra); lra).
  apply Rabs_le_inv in A, K, E.
  assert (D : (IZR i + q - 11 / 16 <= IZR k <= IZR i + q + 11 / 16)%R) by lra.
  assert (Q01 : (0 <= q <= 1)%R).
  { unfold q. split; [apply Rmult_le_pos; [lra|apply Rlt_le, Rinv_0_lt_compat; lra]|]. apply (Rmult_le_reg_r (IZR n - 1)); [lra|]. unfold Rdiv. rewrite Rmult_assoc, Rinv_l by lra. lra. }
  assert (low : k < i + 2) by (apply lt_IZR; rewrite plus_IZR; lra).
  assert (high : i - 1 < k) by (apply lt_IZR; rewrite minus_IZR; lra).
  split; [|split; [|lia]].
  - intro X. assert (q <= / 4)%R.
    { unfold q. apply (Rmult_le_reg_r (IZR n - 1)); [lra|]. unfold Rdiv. rewrite Rmult_assoc, Rinv_l by lra. assert (4 * IZR i <= IZR n - 1)%R by (rewrite <- mult_IZR, <- minus_IZR; apply IZR_le; lia). lra. }
    assert (k < i + 1); [|lia]. apply lt_IZR. rewrite plus_IZR. lra.
  - intro X. assert (3 / 4 <= q)%R.
    { unfold q. apply (Rmult_le_reg_r (IZR n - 1)); [lra|]. unfold Rdiv. rewrite (Rmult_assoc (IZR i)), Rinv_l by lra.
      assert (3 * (IZR n - 1) <= 4 * IZR i)%R by (rewrite <- minus_IZR, <- !mult_IZR; apply IZR_le; lia). lra. }
    assert (i < k); [|lia]. apply lt_IZR. lra.
Qed.

Lemma c70_place_proof : forall (V : value_type) vs missing w h e p i j, grid_ok w h e -> 2 <= w <= 2 ^ 17 -> 2 <= h <= 2 ^ 17 -> fin_coord p ->
  (xr (lat (min_coord e)) <= xr (lat p) < xr (lat (max_coord e)))%R -> (xr (lon (min_coord e)) <= xr (lon p) < xr (lon (max_coord e)))%R ->
  0 <= i < w -> 0 <= j < h -> close_to (lon (min_coord e)) (lon (max_coord e)) w i (lon p) -> close_to (lat (min_coord e)) (lat (max_coord e)) h j (lat p) ->
  let g := value_grid_new vs missing w h e in
  exists i' j', taken w i i' /\ taken h j j' /\ value_by_lat_lon V g p = value_by_xy V g i' j'.
Proof.
  intros V vs missing w h e p i j G W H Fp Ila Ilo I J Cx Cy g. destruct G as [Gx Gy].
  assert (Fe : fin_extent e) by (destruct Gx as (? & ? & _), Gy as (? & ? & _); repeat split; assumption || apply H0 || apply H1 || apply H2 || apply H3).
  destruct (xy_by_lat_lon (grid_new w h e) p) as [[x y]|] eqn:E.
  2:{ exfalso. revert E. apply c15_defined_proof; [exact Fe|exact Fp|split; assumption]. }
  destruct (c16_by_position_proof V vs missing w h e p (conj Gx Gy) Fp) as [_ P]. destruct (P x y E) as (i' & j' & _ & _ & A & B & D).
  destruct (c15_accuracy_proof w h e p x y (conj Gx Gy) Fp E) as [AX AY].
  exists i', j'. split; [eapply place_taken; eassumption|]. split; [eapply place_taken; eassumption|exact D].
Qed.

Lemma c70_message_proof : forall (V : value_type) chk powi w rest t r e d b f missing transform (g : value_grid (carrier V)) p i j, wf_message chk w ->
  w3_tpl (w_3 w) = W3_0 t -> w5_tpl (w_5 w) = W5_0 r e d b f -> w3_points (w_3 w) = w30_ni t * w30_nj t ->
  grid_of chk powi (message_bytes w ++ rest) missing transform (Ok g) ->
  let c1 := min_coord (extent_of g) in let c2 := max_coord (extent_of g) in
  grid_ok (w30_ni t) (w30_nj t) (extent_of g) -> 2 <= w30_ni t <= 2 ^ 17 -> 2 <= w30_nj t <= 2 ^ 17 -> fin_coord p ->
  (xr (lat c1) <= xr (lat p) < xr (lat c2))%R -> (xr (lon c1) <= xr (lon p) < xr (lon c2))%R ->
  0 <= i < w30_ni t -> 0 <= j < w30_nj t -> close_to (lon c1) (lon c2) (w30_ni t) i (lon p) -> close_to (lat c1) (lat c2) (w30_nj t) j (lat p) ->
  exists i' j', taken (w30_ni t) i i' /\ taken (w30_nj t) j j' /\
    ((i' = w30_ni t \/ j' = w30_nj t) /\ value_by_lat_lon V g p = Ok None \/
     i' < w30_ni t /\ j' < w30_nj t /\ exists v, point_value powi w r e d missing transform (Z.to_nat (j' * w30_ni t + i')) v /\
       value_by_lat_lon V g p = Ok (if v_eqb V v missing then None else Some v)).
Proof.
  intros V chk powi w rest t r e d b f missing transform g p i j W E3 E5 P H c1 c2 G Ni Nj Fp Ila Ilo I J Cx Cy.
  apply grid_of_message in H; [|exact W].
  destruct (shown chk powi w t r e d b f missing transform g W E3 E5 H) as (D & M & _ & _ & _ & _ & L & S).
  assert (Eg : g = value_grid_new (vg_values g) missing (w30_ni t) (w30_nj t) (extent_of g)).
  { unfold regular_create_and_transform in H. destruct (calculate_data_points powi (message_meaning w) missing transform) as [vs|?|]; try discriminate.
    cbn [obind] in H. rewrite (regular_extent chk w t W E3) in H. destruct (extent_new _ _) as [ex|?|]; try discriminate. cbn [omap] in H. injection H as <-. reflexivity. }
  destruct (c70_place_proof V (vg_values g) missing (w30_ni t) (w30_nj t) (extent_of g) p i j G Ni Nj Fp Ila Ilo I J Cx Cy) as (i' & j' & TI & TJ & E).
  exists i', j'. split; [exact TI|]. split; [exact TJ|].
  assert (TI' := proj2 (proj2 TI)). assert (TJ' := proj2 (proj2 TJ)).
  rewrite <- Eg in E. rewrite E. 
  destruct (Z.eq_dec i' (w30_ni t)) as [X|X]; [left; split; [left; exact X|]|destruct (Z.eq_dec j' (w30_nj t)) as [Y|Y]; [left; split; [right; exact Y|]|right]].
  - unfold value_by_xy, index_by_xy. rewrite Eg. cbn [vg_grid value_grid_new grid_new g_w g_h]. replace (w30_ni t <=? i') with true by lia. reflexivity.
  - unfold value_by_xy, index_by_xy. rewrite Eg. cbn [vg_grid value_grid_new grid_new g_w g_h]. replace (w30_nj t <=? j') with true by lia. rewrite orb_true_r. reflexivity.
  - split; [lia|]. split; [lia|].
    assert (K : 0 <= j' * w30_ni t + i' < w30_ni t * w30_nj t) by nia.
    destruct (nth_error (vg_values g) (Z.to_nat (j' * w30_ni t + i'))) as [v|] eqn:N.
    2:{ exfalso. apply nth_error_None in N. rewrite L, P in N. lia. }
    exists v. split; [apply S; [lia|lia|exact N]|].
    unfold value_by_xy, index_by_xy. unfold dims in D. injection D as D1 D2. rewrite D1, D2, M.
    replace ((w30_ni t <=? i') || (w30_nj t <=? j')) with false by lia. unfold index_vec.
    replace (i' + j' * w30_ni t) with (j' * w30_ni t + i') by ring. rewrite N. cbn [omap]. destruct (v_eqb V v missing); reflexivity.
Qed.
