(** The properties C75, about calls that overlap, and C76, about calls that are killed. *)
From Coq Require Import Ascii String ZArith List Bool Lia Permutation.
From Verif Require Import Base F32 Grib2Model Grib2Spec Grib2Samples Grib2FloatProofs GeoModel ImagingModel Par ParFacts TileModel TileSpec TileProofs TileProperties ChartModel ChartSpec
  MetobinModel Text ForecastModel ForecastSpec ForecastProofs FetchModel FetchSpec FetchProofs DwdModel DwdSpec DwdProofs DwdProperties SwissModel SwissSpec SwissProofs
  SwissProperties CliModel CliSpec CliProofs CliProperties OverlapSpec OverlapProofs.
Import ListNotations.
Open Scope Z_scope.

(** ** C75: calls that overlap *)

(** C75.  Calls with other models at the same time, each of them killed at any time or ended in any way, with or without errors of the disk, and
    under any schedule, make no difference to the files in the directory of a model. *)
Theorem C75_beside : forall calls dir q own ts tr, Forall (fun c => sane (fst c)) calls -> contains "/" dir = false ->
  Forall (fun c => ~ may_write (ar_model (snd c)) dir) calls -> inside dir q -> Forall2 done_by calls ts -> interleaving (own :: ts) tr ->
  forall before, found_after q before tr = found_after q before own.
Proof. exact c75_beside_proof. Qed.
Print Assumptions C75_beside.
(** C75.  So what a call has rendered is there, with its content, whatever calls with other models there were meanwhile. *)
Theorem C75_kept : forall chk m k run n l own calls ts tr, rendered chk m k run n l own -> Forall (fun c => sane (fst c)) calls ->
  Forall (fun c => ~ may_write (ar_model (snd c)) (model_dir (run_model run))) calls -> Forall2 done_by calls ts -> interleaving (own :: ts) tr ->
  rendered chk m k run n l tr.
Proof. exact c75_kept_proof. Qed.
Print Assumptions C75_kept.
(** C75.  German service: if calls for the same model all succeed, at the same time and under any schedule, then every file of a layer and step
    asked for by any of them is there with the content that belongs to it, and no other file is touched. *)
Theorem C75_dwd : forall chk powi fetch m head today today' model calls ts tr,
  dwd_model model -> valid_date today -> valid_date (prev_day today') -> steady fetch ->
  Forall2 (fun c t => dwd_render_latest chk powi fetch m false head today today' model (fst c) (snd c) t (Ok tt)) calls ts -> interleaving ts tr ->
  exists run, find_latest_run head model today today' = Ok run /\
    forall q, (forall c, belongs chk powi fetch m calls run q c -> forall before, found_after q before tr = Some c) /\
              ((forall c, ~ belongs chk powi fetch m calls run q c) -> forall before, found_after q before tr = before).
Proof. exact c75_dwd_proof. Qed.
Print Assumptions C75_dwd.
(** C75.  The same for the Swiss service. *)
Theorem C75_swiss : forall chk powi rfc3339 sv m calls ts tr, dated rfc3339 sv -> settled sv ->
  Forall2 (fun c t => swiss_render_latest chk powi rfc3339 sv m false (snd c) (fst c) t (Ok tt)) calls ts -> interleaving ts tr ->
  forall q, (forall c, swiss_belongs chk powi rfc3339 sv m calls q c -> forall before, found_after q before tr = Some c) /\
            ((forall c, ~ swiss_belongs chk powi rfc3339 sv m calls q c) -> forall before, found_after q before tr = before).
Proof. exact c75_swiss_proof. Qed.
Print Assumptions C75_swiss.

(** *** Samples *)

Lemma sample_runs vars steps : exists tr, dwd_render_latest true powi_rt served flat false sample_heads today today IconD2 vars steps tr (Ok tt).
Proof.
  destruct C50_sample as (F & M & _ & _ & V & V').
  destruct (C59_succeeds true powi_rt served flat sample_heads today today IconD2 vars steps the_run 3 2 low_extent
    M V V' F low_good_run ltac:(lia) ltac:(lia) ltac:(vm_compute; reflexivity) low_addressable) as [(tr & r & R) A].
  exists tr. rewrite <- (A tr r R). exact R.
Qed.
Definition low_temps : fgrid := low_grid (f32_of_Z (-1)) (fun x => x).
Definition temp_data : bytes := match temp_bin low_temps with Ok d => d | _ => [] end.
Definition temp_file (n : Z) : string := file_path the_run n (BinFile BinTemp).
Lemma temp_belongs calls n : asked calls the_run Temp2m n -> belongs true powi_rt served flat calls the_run (temp_file n) (Data temp_data).
Proof.
  intro A. apply (in_temp true powi_rt served flat calls the_run n low_temps); [exact A| |].
  - destruct (proj1 (C49_total the_run (SingleFile T2m n)) (or_introl eq_refl)) as (url & U). exists url, (message_bytes low), low_doc, []. split; [exact U|]. split; [reflexivity|].
    split; [exact low_read|]. vm_compute. reflexivity.
  - exists temp_data. split; [left; vm_compute; reflexivity|reflexivity].
Qed.
Lemma temp_data_some : temp_data <> [].
Proof. vm_compute. discriminate. Qed.
Lemma served_steady : steady served.
Proof. intros url bs bs' H H'. unfold served in *. congruence. Qed.
(** Two calls that both ask for the temperatures of step 6: under any schedule they are there afterwards, and so are those of the steps 5 and 7. *)
Definition two_calls : list selection := [(sample_variables, [5; 6]); (["temp_2m"%string], [6; 7])].
Lemma two_asked n : In n [5; 6; 7] -> asked two_calls the_run Temp2m n.
Proof.
  intros [<-|[<-|[<-|[]]]].
  - exists (sample_variables, [5; 6]). split; [now left|]. split; [right; right; left; reflexivity|]. split; [cbn; lia|right; now left].
  - exists (sample_variables, [5; 6]). split; [now left|]. split; [right; right; left; reflexivity|]. split; [cbn; lia|right; right; now left].
  - exists (["temp_2m"%string], [6; 7]). split; [right; now left|]. split; [right; left; reflexivity|]. split; [cbn; lia|right; right; now left].
Qed.
Lemma two_others n t f : asked two_calls the_run t n -> valid_run the_run -> file_path the_run n f = temp_file 8 -> False.
Proof.
  intros (c' & J & _ & Bn & W) V E. assert (Jn : In n [5; 6; 7]) by (destruct J as [<-|[<-|[]]]; cbn [snd] in W; (destruct W as [W|W]; [discriminate|]); cbn in W |- *; tauto).
  unfold temp_file in E. destruct f as [t' z x y|b]; cbn [file_path] in E; apply output_path_inv in E; try lia; try exact V; destruct E as (_ & -> & _); cbn in Jn; lia.
Qed.
Example C75_dwd_sample : exists t1 t2,
  Forall2 (fun c t => dwd_render_latest true powi_rt served flat false sample_heads today today IconD2 (fst c) (snd c) t (Ok tt)) two_calls [t1; t2] /\
  interleaving [t1; t2] (t1 ++ t2) /\ temp_data <> [] /\
  (forall n, In n [5; 6; 7] -> forall tr, interleaving [t1; t2] tr -> found_after (temp_file n) None tr = Some (Data temp_data)) /\
  forall tr, interleaving [t1; t2] tr -> found_after (temp_file 8) None tr = None.
Proof.
  destruct (sample_runs sample_variables [5; 6]) as (t1 & R1). destruct (sample_runs ["temp_2m"%string] [6; 7]) as (t2 & R2). exists t1, t2.
  assert (F : Forall2 (fun c t => dwd_render_latest true powi_rt served flat false sample_heads today today IconD2 (fst c) (snd c) t (Ok tt)) two_calls [t1; t2]) by (repeat (constructor; try assumption)).
  split; [exact F|]. split; [pose proof (interleaving_concat [t1; t2]) as L; cbn [concat] in L; rewrite app_nil_r in L; exact L|]. split; [exact temp_data_some|].
  destruct C50_sample as (Fr & M & _ & _ & V & V'). split.
  - intros n J tr L. destruct (C75_dwd true powi_rt served flat sample_heads today today IconD2 two_calls _ tr M V V' served_steady F L) as (run & Fr' & H). rewrite Fr in Fr'. injection Fr' as <-.
    apply (proj1 (H (temp_file n))), temp_belongs, two_asked. exact J.
  - intros tr L. destruct (C75_dwd true powi_rt served flat sample_heads today today IconD2 two_calls _ tr M V V' served_steady F L) as (run & Fr' & H). rewrite Fr in Fr'. injection Fr' as <-.
    apply (proj2 (H (temp_file 8))). intros c B. pose proof (proj1 (found_run _ _ _ _ _ M V V' Fr)) as VR. clear -B VR. inversion B; subst; eapply two_others; eassumption.
Qed.
(** The same for the Swiss service: the sample is settled, and there are files that belong to two calls. *)
Lemma swiss_sample_settled : settled swiss_sample.
Proof.
  split; [intros a b H H'; cbn in H, H'; congruence|]. split; [intros rq a b H H'; cbn in H, H'; congruence|]. split.
  - intros url bs bs' H H'. rewrite (many_served url bs H), (many_served url bs' H'). reflexivity.
  - intros rq features parsed E F. change (Ok features = Ok (map hourly [2; 0; 1])) in E. injection E as ->.
    assert (Y : forall n s, 0 <= n <= 255 -> described (hourly n) s -> hours (ss_horizon s) <= 255).
    { intros n s Bn (_ & E2 & _). destruct (hourly_described n Bn) as (_ & E2' & _). rewrite E2 in E2'. injection E2' as E2'. rewrite E2'. cbn [file_of ss_horizon].
      destruct (C51_from_step n Bn) as (_ & E & _). rewrite E. lia. }
    inversion F as [|? ? ? ? D1 F1]; subst. inversion F1 as [|? ? ? ? D2 F2]; subst. inversion F2 as [|? ? ? ? D3 F3]; subst. inversion F3; subst.
    repeat (constructor; [eapply Y; [|eassumption]; lia|]). constructor.
Qed.
Definition swiss_calls : list selection := [(["wind_10m"%string], [1; 2]); (["temp_2m"; "wind_10m"]%string, [2])].
Lemma swiss_runs vars steps : exists tr, swiss_render_latest true powi_rt zulu swiss_sample flat false steps vars tr (Ok tt).
Proof.
  destruct (C60_succeeds true powi_rt zulu swiss_sample flat steps vars 3 2 swiss_sample_good ltac:(lia)) as [(tr & r & R) A].
  - intros e t E. vm_compute in E. injection E as <-. apply addressable_check. vm_compute. reflexivity.
  - exists tr. rewrite <- (A tr r R). exact R.
Qed.
Example C75_swiss_sample : dated zulu swiss_sample /\ settled swiss_sample /\ exists t1 t2 q c,
  Forall2 (fun c t => swiss_render_latest true powi_rt zulu swiss_sample flat false (snd c) (fst c) t (Ok tt)) swiss_calls [t1; t2] /\
  swiss_belongs true powi_rt zulu swiss_sample flat swiss_calls q c /\ forall tr, interleaving [t1; t2] tr -> found_after q None tr = Some c.
Proof.
  split; [exact swiss_sample_dated|]. split; [exact swiss_sample_settled|].
  destruct (swiss_runs ["wind_10m"%string] [1; 2]) as (t1 & R1). destruct (swiss_runs ["temp_2m"; "wind_10m"]%string [2]) as (t2 & R2). exists t1, t2.
  assert (F : Forall2 (fun c t => swiss_render_latest true powi_rt zulu swiss_sample flat false (snd c) (fst c) t (Ok tt)) swiss_calls [t1; t2]) by (repeat (constructor; try assumption)).
  destruct (C60_output true powi_rt zulu swiss_sample flat [1; 2] ["wind_10m"%string] t1 swiss_sample_dated (proj1 (proj2 (proj2 swiss_sample_settled))) R1) as (u & heights & t & S & _ & W & _).
  destruct (W (or_intror (or_introl eq_refl))) as (lu & lv & lg & Fu & Fv & Fg & H).
  assert (X : exists fu, nth_error lu 2 = Some fu).
  { destruct Fu as (features & parsed & E & D & P & _). change (Ok features = Ok (map hourly [2; 0; 1])) in E. injection E as ->. apply forall2_len in D. apply Permutation_length in P. cbn in D.
    destruct (nth_error lu 2) as [fu|] eqn:En; [eauto|]. apply nth_error_None in En. lia. }
  destruct X as (fu & Hu). destruct (H 2%nat fu Hu (or_intror (or_intror (or_introl eq_refl)))) as (fv & fg & a & b & g & Nv & Ng & Va & Vb & Vg & [[_ Cb] _]).
  destruct (Cb BinWind (wind_bin {| wl_zonal := a; wl_meridional := b; wl_gusts := Some g |}) (or_introl eq_refl)) as (data & Ed).
  exists (file_path (swiss_run_of t) (Z.of_nat 2) (BinFile BinWind)), (Data data). split; [exact F|].
  assert (B : swiss_belongs true powi_rt zulu swiss_sample flat swiss_calls (file_path (swiss_run_of t) (Z.of_nat 2) (BinFile BinWind)) (Data data)).
  { apply (swiss_wind_in true powi_rt zulu swiss_sample flat swiss_calls u heights t 2 fu fv fg a b g); [exact S| |exists lu; auto|exists lv; auto|exists lg; auto|exact Va|exact Vb|exact Vg|].
    - exists (["wind_10m"%string], [1; 2]). split; [now left|]. split; [right; left; reflexivity|right; right; now left].
    - exists data. split; [left; rewrite <- Ed; reflexivity|reflexivity]. }
  split; [exact B|]. intros tr L. exact (proj1 (C75_swiss true powi_rt zulu swiss_sample flat swiss_calls _ tr swiss_sample_dated swiss_sample_settled F L _) _ B None).
Qed.

(** ** C76: calls that are killed *)

(** C76.  German service: after calls one after another, each of them killed at any time or ended in any way, every file is as it was before or holds
    content that belongs to it: an image, whole or in pieces, or a beginning of the data (without faults of the disk: the whole or nothing). *)
Theorem C76_dwd : forall chk powi fetch m faulty head today today' model calls ts, dwd_model model ->
  Forall2 (fun c t => part_of (dwd_render_latest chk powi fetch m faulty head today today' model (fst c) (snd c)) t) calls ts ->
  forall q before, file_after q before (concat ts) = before \/
    exists run c found, find_latest_run head model today today' = Ok run /\ belongs chk powi fetch m calls run q c /\
      beginning faulty c found /\ file_after q before (concat ts) = Some found.
Proof. exact c76_dwd_proof. Qed.
Print Assumptions C76_dwd.
(** C76.  The same if the calls overlap, under any schedule, and the service gives the same files again. *)
Theorem C76_dwd_steady : forall chk powi fetch m faulty head today today' model calls ts tr, dwd_model model -> valid_date today -> valid_date (prev_day today') -> steady fetch ->
  Forall2 (fun c t => part_of (dwd_render_latest chk powi fetch m faulty head today today' model (fst c) (snd c)) t) calls ts -> interleaving ts tr ->
  forall q before, found_after q before tr = before \/
    exists run c found, find_latest_run head model today today' = Ok run /\ belongs chk powi fetch m calls run q c /\ beginning faulty c found /\ found_after q before tr = Some found.
Proof. exact c76_dwd_steady_proof. Qed.
Print Assumptions C76_dwd_steady.
(** C76.  If they overlap and the files of the service change, a file may be pieced together from the contents that belong to it. *)
Theorem C76_dwd_together : forall chk powi fetch m faulty head today today' model calls ts tr, dwd_model model -> valid_date today -> valid_date (prev_day today') ->
  Forall2 (fun c t => part_of (dwd_render_latest chk powi fetch m faulty head today today' model (fst c) (snd c)) t) calls ts -> interleaving ts tr ->
  forall q before, found_after q before tr = before \/
    exists run found, find_latest_run head model today today' = Ok run /\ pieced (belongs chk powi fetch m calls run q) found /\ found_after q before tr = Some found.
Proof. exact c76_dwd_together_proof. Qed.
Print Assumptions C76_dwd_together.
(** C76.  The same for the Swiss service. *)
Theorem C76_swiss : forall chk powi rfc3339 sv m faulty calls ts, dated rfc3339 sv ->
  Forall2 (fun c t => part_of (swiss_render_latest chk powi rfc3339 sv m faulty (snd c) (fst c)) t) calls ts ->
  forall q before, file_after q before (concat ts) = before \/
    exists c found, swiss_belongs chk powi rfc3339 sv m calls q c /\ beginning faulty c found /\ file_after q before (concat ts) = Some found.
Proof. exact c76_swiss_proof. Qed.
Print Assumptions C76_swiss.
Theorem C76_swiss_settled : forall chk powi rfc3339 sv m faulty calls ts tr, dated rfc3339 sv -> settled sv ->
  Forall2 (fun c t => part_of (swiss_render_latest chk powi rfc3339 sv m faulty (snd c) (fst c)) t) calls ts -> interleaving ts tr ->
  forall q before, found_after q before tr = before \/
    exists c found, swiss_belongs chk powi rfc3339 sv m calls q c /\ beginning faulty c found /\ found_after q before tr = Some found.
Proof. exact c76_swiss_settled_proof. Qed.
Print Assumptions C76_swiss_settled.
Theorem C76_swiss_together : forall chk powi rfc3339 sv m faulty calls ts tr, dated rfc3339 sv ->
  Forall2 (fun c t => part_of (swiss_render_latest chk powi rfc3339 sv m faulty (snd c) (fst c)) t) calls ts -> interleaving ts tr ->
  forall q before, found_after q before tr = before \/
    exists found, pieced (swiss_belongs chk powi rfc3339 sv m calls q) found /\ found_after q before tr = Some found.
Proof. exact c76_swiss_together_proof. Qed.
Print Assumptions C76_swiss_together.
(** C76.  Whatever was done before, such as by killed calls: after a call that succeeds, each file that belongs to it is there with its content. *)
Theorem C76_dwd_repaired : forall chk powi fetch m head today today' model vars steps earlier tr,
  dwd_model model -> valid_date today -> valid_date (prev_day today') -> steady fetch ->
  dwd_render_latest chk powi fetch m false head today today' model vars steps tr (Ok tt) ->
  exists run, find_latest_run head model today today' = Ok run /\
    forall q c, belongs chk powi fetch m [(vars, steps)] run q c -> forall before, found_after q before (earlier ++ tr) = Some c.
Proof. exact c76_dwd_repaired_proof. Qed.
Print Assumptions C76_dwd_repaired.
Theorem C76_swiss_repaired : forall chk powi rfc3339 sv m vars steps earlier tr, dated rfc3339 sv -> settled sv ->
  swiss_render_latest chk powi rfc3339 sv m false steps vars tr (Ok tt) ->
  forall q c, swiss_belongs chk powi rfc3339 sv m [(vars, steps)] q c -> forall before, found_after q before (earlier ++ tr) = Some c.
Proof. exact c76_swiss_repaired_proof. Qed.
Print Assumptions C76_swiss_repaired.

(** C76.  Finding: whatever image a call saves, killed at the wrong time it leaves the file with pieces of the image only, whatever was there. *)
Theorem C76_cut : forall chk powi fetch rfc3339 sv m faulty head today today' model vars steps tr r,
  (dwd_model model /\ valid_date today /\ valid_date (prev_day today') /\ dwd_render_latest chk powi fetch m faulty head today today' model vars steps tr r) \/
  (dated rfc3339 sv /\ swiss_render_latest chk powi rfc3339 sv m faulty steps vars tr r) ->
  forall q d, In (EImage q d) tr -> exists killed missed, tr = killed ++ missed /\ forall before, file_after q before killed = Some (Pieces [d]).
Proof. exact c76_cut_proof. Qed.
Print Assumptions C76_cut.
(** The sample run saves an image, and completes it: killed just before that it would have left it in pieces. *)
Lemma some_tile chk m e : exists x y, covers chk m e 0 x y.
Proof.
  destruct (from_position_col chk m (corner1 e) 0 ltac:(lia)) as (a & Ea & _). destruct (from_position_col chk m (corner2 e) 0 ltac:(lia)) as (b & Eb & _).
  exists (t_x a), (t_y a), a, b. unfold ImagingSpec.between. repeat split; try assumption; lia.
Qed.
Lemma image_found t q d : (forall b, file_after q b t = Some (Png d)) -> In (EImage q d) t.
Proof.
  intro H. pose proof (hit_always _ _ _ H) as E. destruct (last_hit_in _ _ _ E) as (e & Je & He).
  destruct e as [s| |p|p d'|p d'|p|p b]; cbn [hit] in He; try discriminate; destruct (String.eqb_spec p q) as [->|]; try discriminate; injection He as <-; exact Je.
Qed.
Lemma sample_image : exists tr q d, dwd_render_latest true powi_rt served flat false sample_heads today today IconD2 ["temp_2m"%string] [5] tr (Ok tt) /\ In (EImage q d) tr.
Proof.
  destruct (sample_runs ["temp_2m"%string] [5]) as (tr & R). destruct C50_sample as (Fr & M & _ & _ & V & V').
  destruct (C59_output true powi_rt served flat sample_heads today today IconD2 ["temp_2m"%string] [5] tr M V V' served_steady R) as (run & Fr' & T & _). rewrite Fr in Fr'. injection Fr' as <-.
  destruct (T (or_intror (or_introl eq_refl)) 5) as (l & _ & C & P); [split; [cbn; lia|right; now left]|].
  destruct (some_tile true flat (g_extent (vg_grid l))) as (x & y & Cv).
  destruct (proj1 C 0 x y (create_single_tile true flat (temp_by_lat_lon l) (fun v => Ok (temp_color v)) {| t_x := x; t_y := y; t_zoom := 0 |})) as (d & Ed); [eexists _, _; split; [reflexivity|]; split; [cbn; lia|]; split; [exact Cv|reflexivity]|].
  exists tr, (file_path the_run 5 (TileFile Temp2m 0 x y)), d. split; [exact R|]. apply image_found. apply (P (TileFile Temp2m 0 x y) (Png d)). split; [reflexivity|]. exists d.
  split; [|reflexivity]. eexists _, _. split; [reflexivity|]. split; [cbn; lia|]. split; [exact Cv|symmetry; exact Ed].
Qed.
Example C76_cut_sample : exists killed missed q d, dwd_render_latest true powi_rt served flat false sample_heads today today IconD2 ["temp_2m"%string] [5] (killed ++ missed) (Ok tt) /\
  forall before, file_after q before killed = Some (Pieces [d]).
Proof.
  destruct sample_image as (tr & q & d & R & J). destruct C50_sample as (_ & M & _ & _ & V & V').
  destruct (C76_cut true powi_rt served zulu swiss_sample flat false sample_heads today today IconD2 ["temp_2m"%string] [5] tr (Ok tt) (or_introl (conj M (conj V (conj V' R)))) q d J) as (killed & missed & -> & H).
  exists killed, missed, q, d. auto.
Qed.
(** Finding: a call that is killed leaves an empty file where a call before had left the whole; and a call that succeeds repairs it. *)
Lemma five_asked : asked [(["temp_2m"%string], [5])] the_run Temp2m 5.
Proof. exists (["temp_2m"%string], [5]). split; [now left|]. split; [right; left; reflexivity|]. split; [cbn; lia|right; now left]. Qed.
Lemma write_found t q c : c <> [] -> (forall b, file_after q b t = Some (Data c)) -> In (EWrite q c) t.
Proof.
  intros N H. pose proof (hit_always _ _ _ H) as E. destruct (last_hit_in _ _ _ E) as (e & Je & He).
  destruct e as [s| |p|p d|p d|p|p b]; cbn [hit] in He; try discriminate; destruct (String.eqb_spec p q) as [->|]; try discriminate; injection He as <-; [destruct (N eq_refl)|exact Je].
Qed.
Lemma last_created l q : last_hit q (l ++ [ECreate q]) = Some (Data []).
Proof. induction l as [|e l IH]; cbn [app last_hit hit]; [now rewrite String.eqb_refl|now rewrite IH]. Qed.
Example C76_emptied : exists t killed missed,
  dwd_render_latest true powi_rt served flat false sample_heads today today IconD2 ["temp_2m"%string] [5] t (Ok tt) /\ t = killed ++ missed /\
  Forall2 (fun c t' => part_of (dwd_render_latest true powi_rt served flat false sample_heads today today IconD2 (fst c) (snd c)) t') [(["temp_2m"%string], [5]); (["temp_2m"%string], [5])] [t; killed] /\
  file_after (temp_file 5) None t = Some (Data temp_data) /\ file_after (temp_file 5) None (concat [t; killed]) = Some (Data []) /\ temp_data <> [] /\
  found_after (temp_file 5) None ((t ++ killed) ++ t) = Some (Data temp_data).
Proof.
  destruct (sample_runs ["temp_2m"%string] [5]) as (t & R). destruct C50_sample as (Fr & M & _ & _ & V & V'). exists t.
  pose proof (dwd_complete true powi_rt served flat sample_heads today today IconD2 (["temp_2m"%string], [5]) t the_run M V V' served_steady R Fr _ _ (temp_belongs _ 5 five_asked)) as H.
  pose proof (write_found t _ _ temp_data_some H) as J.
  apply in_split in J. destruct J as (a & b & Et).
  pose proof (dwd_ordered true powi_rt served flat false sample_heads today today IconD2 ["temp_2m"%string] [5] M V V' t _ R a _ b Et) as C. cbn [app prepared] in C.
  apply in_split in C. destruct C as (a1 & a2 & ->). exists (a1 ++ [ECreate (temp_file 5)]), (a2 ++ EWrite (temp_file 5) temp_data :: b).
  assert (Et' : t = (a1 ++ [ECreate (temp_file 5)]) ++ a2 ++ EWrite (temp_file 5) temp_data :: b) by (rewrite Et, <- !app_assoc; reflexivity).
  split; [exact R|]. split; [exact Et'|]. split.
  - constructor; [exists [], (Ok tt); rewrite app_nil_r; exact R|]. constructor; [|constructor]. eexists _, (Ok tt). rewrite <- Et'. exact R.
  - split; [apply H|]. split; [|split; [exact temp_data_some|]].
    + cbn [concat]. rewrite app_nil_r. rewrite app_assoc, file_after_hit.
      now rewrite last_created.
    + destruct (C76_dwd_repaired true powi_rt served flat sample_heads today today IconD2 ["temp_2m"%string] [5] (t ++ a1 ++ [ECreate (temp_file 5)]) t M V V' served_steady R) as (run & Fr' & H').
      rewrite Fr in Fr'. injection Fr' as <-. exact (H' _ _ (temp_belongs _ 5 five_asked) None).
Qed.
(** Data lies over what another call has written meanwhile. *)
Example C76_pieces : found_after "a" None [ECreate "a"; ECreate "a"; EWrite "a" [1; 2; 3]; EWrite "a" [4]] = Some (Data [4; 2; 3]).
Proof. reflexivity. Qed.
(** The same with images: one call has saved its image while another is still saving another one for the same file. *)
Example C76_mixed : forall d d', d = {| d_values := [1]; d_w := 1; d_h := 1 |} -> d' = {| d_values := [2]; d_w := 1; d_h := 1 |} ->
  found_after "a" None [EPart "a" d; EPart "a" d'; EImage "a" d'; EImage "a" d] = Some (Pieces [d; d']) /\
  found_after "a" None [EPart "a" d; EPart "a" d'; EImage "a" d; EImage "a" d'] = Some (Pieces [d'; d; d']) /\
  found_after "a" None [EPart "a" d; EPart "a" d; EImage "a" d; EImage "a" d] = Some (Png d).
Proof. intros d d' -> ->. vm_compute. repeat split; reflexivity. Qed.
