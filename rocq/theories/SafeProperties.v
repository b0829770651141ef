(** The property C85, which contents of files can end a call in a panic. *)
From Coq Require Import String ZArith Reals List Bool Lia.
From Verif Require Import Base F32 F32Facts Grib2Model Grib2Spec Grib2Samples Grib2Proofs Grib2DocProofs Grib2FloatProofs Grib2Properties GeoModel MetobinSpec TileModel TileSpec MercatorProofs LibmProofs Par
  ForecastModel ForecastSpec FetchModel FetchSpec DwdModel DwdSpec DwdProofs DwdProperties MapSpec FieldSpec ReqSpec SafeSpec SafeProofs.
Import ListNotations.
Open Scope Z_scope.

(** C85.  Whatever a service gives for the files that the call asks for: an error, bytes that are no message, or a message, of
    whatever size, place, packing or kind of grid, and something else at each request; the call does not panic, unless one
    of the files is among those that [safe_answer] leaves out. *)
Theorem C85_dwd : forall chk powi fetch m head today today' model variables steps run,
  libm_accurate m -> dwd_model model -> valid_date today -> valid_date (prev_day today') -> find_latest_run head model today today' = Ok run ->
  safe_service chk powi fetch variables steps run ->
  (exists tr r, dwd_render_latest chk powi fetch m false head today today' model variables steps tr r) /\
  forall tr r, dwd_render_latest chk powi fetch m false head today today' model variables steps tr r -> r <> Panic.
Proof. exact c85_dwd_proof. Qed.
Print Assumptions C85_dwd.

(** A service that gives, each time, a message with 3 x 2 points, one with 2 x 3 points, one without a regular grid, the
    first 100 bytes of a message, or an error. *)
Definition turned : wire :=
  {| w_0 := w_0 low; w_1 := w_1 low; w_2 := w_2 low;
     w_3 := {| w3_length := 72; w3_source := 0; w3_points := 6; w3_opt_length := 0; w3_opt_interp := 0;
               w3_tpl := match w3_tpl (w_3 low) with
                 | W3_0 t => W3_0 {| w30_shape := w30_shape t; w30_radius := w30_radius t; w30_major := w30_major t; w30_minor := w30_minor t; w30_ni := 2; w30_nj := 3;
                     w30_basic := w30_basic t; w30_subdiv := w30_subdiv t; w30_lat1 := 10000000; w30_lon1 := w30_lon1 t; w30_res := w30_res t;
                     w30_lat2 := w30_lat2 t; w30_lon2 := w30_lon2 t; w30_di := w30_di t; w30_dj := w30_dj t; w30_scan := w30_scan t |}
                 | u => u end |};
     w_4 := w_4 low; w_5 := w_5 low; w_6 := w_6 low; w_7 := w_7 low |}.
Definition mixed (url : string) (o : outcome bytes) : Prop :=
  o = Ok (message_bytes low) \/ o = Ok (message_bytes turned) \/ o = Ok (message_bytes sample2) \/ o = Ok (firstn 100 (message_bytes low)) \/ o = Err EIo.
Lemma bytes_checked bs : forallb (fun b => (0 <=? b) && (b <? 256)) bs = true -> Forall is_byte bs.
Proof. intro H. apply Forall_forall. intros b J. rewrite forallb_forall in H. specialize (H b J). apply andb_true_iff in H. unfold is_byte. lia. Qed.
Lemma low_wf : wf_message true low.
Proof. wf_tac 6. Qed.
Lemma turned_wf : wf_message true turned.
Proof. wf_tac 6. Qed.
Lemma safe_low f : safe_message powi_rt f low.
Proof.
  cbn [safe_message low w_5 w5_tpl w_3 sample w3_tpl]. split; [right; vm_compute; split; [right|]; repeat constructor|]. split; [reflexivity|]. split.
  - unfold in_order, angle_field, micro. cbn. repeat split; try lia; intros; lia.
  - intros _ k v K P. change (Z.to_nat _) with 6%nat in K. right. cbv beta zeta delta [point_value] in P.
    do 6 (destruct k as [|k]; [cbn in P; first [discriminate P | destruct P as (p & Ep & Ev); injection Ep as <-; injection Ev as ->; vm_compute; auto 10]|]). lia.
Qed.
Lemma safe_turned f : safe_message powi_rt f turned.
Proof.
  cbn [safe_message turned low w_5 w5_tpl w_3 sample w3_tpl]. split; [right; vm_compute; split; [right|]; repeat constructor|]. split; [reflexivity|]. split.
  - unfold in_order, angle_field, micro. cbn. repeat split; try lia; intros; lia.
  - intros _ k v K P. change (Z.to_nat _) with 6%nat in K. right. cbv beta zeta delta [point_value] in P.
    do 6 (destruct k as [|k]; [cbn in P; first [discriminate P | destruct P as (p & Ep & Ev); injection Ep as <-; injection Ev as ->; vm_compute; auto 10]|]). lia.
Qed.
Lemma safe_sample2 f : safe_message powi_rt f sample2.
Proof. cbn [safe_message sample2 w_5 w5_tpl w_3 sample w3_tpl]. split; [right; vm_compute; split; [left; reflexivity|repeat constructor]|exact I]. Qed.
Lemma safe_bytes f w : wf_message true w -> forallb (fun b => (0 <=? b) && (b <? 256)) (message_bytes w) = true -> safe_message powi_rt f w -> safe_answer true powi_rt f (Ok (message_bytes w)).
Proof.
  intros W B S. right. exists (message_bytes w). split; [reflexivity|]. apply bytes_checked in B. split; [exact B|]. split.
  - intro P. apply (C06_panics true _ B) in P. pose proof (read_single_doc_bwd true w [] W) as R. rewrite app_nil_r in R. congruence.
  - right. exists w, []. split; [exact W|]. split; [symmetry; apply app_nil_r|exact S].
Qed.
Lemma mixed_safe : safe_service true powi_rt mixed [] [5; 6] the_run.
Proof.
  split; [intro url; exists (Err EIo); unfold mixed; auto 10|]. intros f url o _ _ [->|[->|[->|[->| ->]]]].
  - apply safe_bytes; [exact low_wf|vm_compute; reflexivity|apply safe_low].
  - apply safe_bytes; [exact turned_wf|vm_compute; reflexivity|apply safe_turned].
  - apply safe_bytes; [exact (sample2_wf true)|vm_compute; reflexivity|apply safe_sample2].
  - right. eexists. split; [reflexivity|]. set (bs := firstn 100 (message_bytes low)). assert (B : Forall is_byte bs) by (apply bytes_checked; vm_compute; reflexivity).
    assert (R : exists e, read_single_doc true bs = Err e) by (eexists; vm_compute; reflexivity). destruct R as (e & R). split; [exact B|]. split.
    + intro P. apply (C06_panics true _ B) in P. congruence.
    + left. intros w rest W E. rewrite E, (read_single_doc_bwd true w rest W) in R. discriminate R.
  - left. exists EIo. reflexivity.
Qed.
Example C85_sample : safe_service true powi_rt mixed [] [5; 6] the_run /\
  forall tr r, dwd_render_latest true powi_rt mixed ideal false sample_heads today today IconD2 [] [5; 6] tr r -> r <> Panic.
Proof.
  split; [exact mixed_safe|]. destruct C50_sample as (F & M & _ & _ & V & V').
  exact (proj2 (C85_dwd true powi_rt mixed ideal sample_heads today today IconD2 [] [5; 6] the_run ideal_accurate M V V' F mixed_safe)).
Qed.

(** C85, finding: the files that are left out do end the call in a panic (shown for the temperature; the program
    tests none of this). *)
Theorem C85_bad : forall chk powi fetch m head today today' model n run url,
  dwd_model model -> valid_date today -> valid_date (prev_day today') -> find_latest_run head model today today' = Ok run ->
  2 <= n <= last_step (run_model run) -> url_layout run (SingleFile T2m n) url -> (forall url, exists o, fetch url o) ->
  (forall o, fetch url o -> exists bs, o = Ok bs /\ Forall is_byte bs /\ bad_bytes chk bs) ->
  (exists tr r, dwd_render_latest chk powi fetch m false head today today' model ["temp_2m"%string] [n] tr r) /\
  forall tr r, dwd_render_latest chk powi fetch m false head today today' model ["temp_2m"%string] [n] tr r -> r = Panic.
Proof. exact c85_bad_proof. Qed.
Print Assumptions C85_bad.

(** A message with its first point in the north, and one that has data for one point too few. *)
Definition northern : wire :=
  {| w_0 := w_0 low; w_1 := w_1 low; w_2 := w_2 low;
     w_3 := {| w3_length := 72; w3_source := 0; w3_points := 6; w3_opt_length := 0; w3_opt_interp := 0;
               w3_tpl := match w3_tpl (w_3 low) with
                 | W3_0 t => W3_0 {| w30_shape := w30_shape t; w30_radius := w30_radius t; w30_major := w30_major t; w30_minor := w30_minor t; w30_ni := w30_ni t; w30_nj := w30_nj t;
                     w30_basic := w30_basic t; w30_subdiv := w30_subdiv t; w30_lat1 := w30_lat2 t; w30_lon1 := w30_lon1 t; w30_res := w30_res t;
                     w30_lat2 := w30_lat1 t; w30_lon2 := w30_lon2 t; w30_di := w30_di t; w30_dj := w30_dj t; w30_scan := w30_scan t |}
                 | u => u end |};
     w_4 := w_4 low; w_5 := w_5 low; w_6 := w_6 low; w_7 := w_7 low |}.
Definition short : wire :=
  {| w_0 := w_0 low; w_1 := w_1 low; w_2 := w_2 low; w_3 := w_3 low; w_4 := w_4 low; w_5 := w_5 low; w_6 := w_6 low; w_7 := {| w7_length := 9; w7_data := [0; 1] |} |}.
Definition spoilt (url : string) (o : outcome bytes) : Prop := o = Ok (message_bytes northern) \/ o = Ok (message_bytes short).
Lemma northern_wf : wf_message true northern.
Proof. wf_tac 6. Qed.
Lemma short_wf : wf_message true short.
Proof. wf_tac 4. Qed.
Example C85_bad_sample : (forall o, spoilt "" o -> exists bs, o = Ok bs /\ Forall is_byte bs /\ bad_bytes true bs) /\
  forall tr r, dwd_render_latest true powi_rt spoilt ideal false sample_heads today today IconD2 ["temp_2m"%string] [5] tr r -> r = Panic.
Proof.
  assert (B : forall o, spoilt "" o -> exists bs, o = Ok bs /\ Forall is_byte bs /\ bad_bytes true bs).
  { intros o [->| ->]; eexists; (split; [reflexivity|]); (split; [apply bytes_checked; vm_compute; reflexivity|]); right.
    - exists northern, []. do 5 eexists. split; [exact northern_wf|]. split; [symmetry; apply app_nil_r|]. split; [reflexivity|]. right. eexists. split; [reflexivity|]. right. unfold angle_field, micro. cbn. lia.
    - exists short, []. do 5 eexists. split; [exact short_wf|]. split; [symmetry; apply app_nil_r|]. split; [reflexivity|]. left. split; [discriminate|]. intros [_ X]. vm_compute in X. lia. }
  split; [exact B|]. destruct C50_sample as (F & M & _ & _ & V & V'). destruct (found_run _ _ _ _ _ M V V' F) as [VR Md].
  destruct (proj1 (C49_total the_run (SingleFile T2m 5)) Md) as (url & U). apply (C49_layout the_run (SingleFile T2m 5) url VR ltac:(cbn; lia)) in U.
  refine (proj2 (C85_bad true powi_rt spoilt ideal sample_heads today today IconD2 5 the_run url M V V' F ltac:(cbn; lia) U _ B)).
  intro u. exists (Ok (message_bytes short)). now right.
Qed.
