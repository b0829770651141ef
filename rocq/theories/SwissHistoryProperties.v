(** The property C90: the runs that successive calls of the Swiss service take. *)
From Coq Require Import Ascii String ZArith List Bool Lia Permutation.
From Verif Require Import Base F32 F32Facts Grib2Model Grib2Spec Grib2Samples Grib2FloatProofs GeoModel Par ParFacts TileModel TileSpec TileProperties ChartModel ChartSpec MetobinModel Text TextSpec
  ForecastModel ForecastSpec ForecastProofs FetchModel FetchSpec DwdSpec DwdProperties SwissModel SwissSpec SwissProofs SwissProperties CliProofs OverlapSpec HistorySpec SwissHistorySpec SwissHistoryProofs.
Import ListNotations.
Open Scope Z_scope.

(** C90.  Whatever a later call writes, however the calls end, is for a run that does not start before the run of anything that an
    earlier call wrote, if the service lists the reference times in their order and does not take back the last one without another. *)
Theorem C90_written : forall chk powi rfc3339 sv sv' m faulty faulty' steps vars steps' vars' tr tr' e p e' p',
  dated rfc3339 sv -> dated rfc3339 sv' -> swiss_follows rfc3339 sv sv' ->
  part_of (swiss_render_latest chk powi rfc3339 sv m faulty steps vars) tr -> In e tr -> effect_path e = Some p ->
  part_of (swiss_render_latest chk powi rfc3339 sv' m faulty' steps' vars') tr' -> In e' tr' -> effect_path e' = Some p' ->
  exists h h', in_run p h /\ in_run p' h' /\ h <= h'.
Proof. exact c90_written_proof. Qed.
Print Assumptions C90_written.
(** C90.  A path is in the directory of one run only. *)
Theorem C90_one_run : forall p h h', in_run p h -> in_run p h' -> h = h'.
Proof. exact c90_one_run_proof. Qed.
Print Assumptions C90_one_run.
(** C90.  With one answer in the order of the times, everything is for the newest of them: no listed time is an hour or more after the
    beginning of the run's hour. *)
Theorem C90_newest : forall chk powi rfc3339 sv m faulty steps vars tr e p l g j,
  dated rfc3339 sv -> (forall l', sv_search sv latest_request (Ok l') -> l' = l) -> listed rfc3339 Z.le l -> In g l -> time_of rfc3339 g j ->
  part_of (swiss_render_latest chk powi rfc3339 sv m faulty steps vars) tr -> In e tr -> effect_path e = Some p ->
  exists h, in_run p h /\ j < (h + 1) * 3600 * 10 ^ 9.
Proof. exact c90_newest_proof. Qed.
Print Assumptions C90_newest.
(** C90.  Finding: if the service lists the newest first, everything is for the oldest of them. *)
Theorem C90_oldest : forall chk powi rfc3339 sv m faulty steps vars tr e p l g j,
  dated rfc3339 sv -> (forall l', sv_search sv latest_request (Ok l') -> l' = l) -> listed rfc3339 Z.ge l -> In g l -> time_of rfc3339 g j ->
  part_of (swiss_render_latest chk powi rfc3339 sv m faulty steps vars) tr -> In e tr -> effect_path e = Some p ->
  exists h, in_run p h /\ h * 3600 * 10 ^ 9 <= j.
Proof. exact c90_oldest_proof. Qed.
Print Assumptions C90_oldest.

(** Services whose answers list entries of 6 and 9 o'clock. *)
Definition at_nine : datetime := {| dt_date := day_of 2025 11 20; dt_hour := 9; dt_minute := 0; dt_second := 0; dt_nano := 0 |}.
Definition two_times (s : string) : option (datetime * Z) :=
  if String.eqb s "06" then Some (at_six, 0) else if String.eqb s "09" then Some (at_nine, 0) else None.
Definition entry (time : string) (n : Z) : feature :=
  {| ft_title := "file"; ft_ref := time; ft_horizon := horizon_name (horizon_from_step n); ft_hrefs := ["file://" ++ dec n]%string |}.
Definition entries (a b c : string) : list feature := [entry a 2; entry b 0; entry c 1].
Definition listing (a b c : string) : service :=
  {| sv_search := fun _ o => o = Ok (entries a b c); sv_assets := fun o => o = Ok sample_assets; sv_fetch := fun _ o => o = Ok many |}.
Lemma entry_described time n : 0 <= n <= 255 -> described (entry time n) (file_of n).
Proof. intro B. split; [reflexivity|]. split; [|exists []; reflexivity]. apply C51_round_trip. apply C51_from_step. exact B. Qed.
Lemma at_nine_valid : valid_time at_nine.
Proof. unfold valid_time, valid_date. vm_compute. intuition discriminate. Qed.
Lemma listing_dated a b c : dated two_times (listing a b c).
Proof.
  intros rq features f t offset E J P. unfold two_times in P. destruct (String.eqb (ft_ref f) "06"); [injection P as <- <-|].
  - split; [exact at_six_valid|]. vm_compute. intuition discriminate.
  - destruct (String.eqb (ft_ref f) "09"); [|discriminate]. injection P as <- <-. split; [exact at_nine_valid|]. vm_compute. intuition discriminate.
Qed.
Lemma listing_good a b c : c = "06"%string \/ c = "09"%string -> good_service true powi_rt two_times (listing a b c) 3 2.
Proof.
  intro C. assert (S : forall url, answers (fun _ => False) (sv_fetch (listing a b c) url) (fun bs => bs = many))
    by (intro url; split; [eexists; reflexivity|]; intros o ->; left; eexists; split; reflexivity).
  destruct low_has_values as (H1 & H2 & H3 & H4 & H5). destruct low_coordinates as (cs & Co). split; split; [eexists; reflexivity| |eexists; reflexivity|].
  - intros o ->. left. exists sample_assets. split; [reflexivity|]. exists swiss_hor, swiss_vert.
    split; [exists [{| as_id := "readme"; as_href := "file://readme" |}; swiss_vert], []; repeat split; repeat (constructor; [discriminate|]); constructor|].
    split; [apply many_all_docs; [exact S|]; exists low_doc, low_doc, cs; auto|].
    split; [exists [{| as_id := "readme"; as_href := "file://readme" |}], [swiss_hor]; repeat split; repeat (constructor; [discriminate|]); constructor|].
    apply many_good_levels; [exact S|exact H5].
  - intros o ->. left. eexists. split; [reflexivity|]. exists [entry a 2; entry b 0], (entry c 1), (if String.eqb c "06" then at_six else at_nine).
    split; [reflexivity|]. split; [destruct C as [->| ->]; vm_compute; reflexivity|]. split; [destruct C as [->| ->]; [exact at_six_valid|exact at_nine_valid]|].
    split; [destruct C as [->| ->]; reflexivity|].
    intro v. split; [eexists; reflexivity|]. intros o' ->. left. eexists. split; [reflexivity|].
    exists (map file_of [2; 0; 1]). split; [reflexivity|].
    split; [repeat (constructor; [apply entry_described; lia|]); constructor|]. split; [repeat (constructor; [vm_compute; discriminate|]); constructor|].
    apply Forall_forall. intros s _. destruct v; cbn [good_var_file]; first [apply many_good; assumption|apply many_good_levels; assumption].
Qed.
Lemma listing_steady a b c : steady (sv_fetch (listing a b c)).
Proof. intros url bs bs' H H'. apply (many_served url) in H. apply (many_served url) in H'. congruence. Qed.
(** A call writes something, and all it writes is for the time of the last entry. *)
Lemma listing_writes a b c t : two_times c = Some (t, 0) -> c = "06"%string \/ c = "09"%string -> exists tr, swiss_render_latest true powi_rt two_times (listing a b c) flat false [2] ["wind_10m"%string] tr (Ok tt) /\
  exists e p, In e tr /\ effect_path e = Some p /\ in_run p (24 * day_number (day_of 2025 11 20) + dt_hour t).
Proof.
  intros Pt C. destruct (C60_succeeds true powi_rt two_times (listing a b c) flat [2] ["wind_10m"%string] 3 2 (listing_good a b c C) ltac:(lia)) as [(tr & r & R) A].
  { intros e t' E. vm_compute in E. injection E as <-. apply addressable_check. vm_compute. reflexivity. }
  pose proof (A tr r R) as ->. exists tr. split; [exact R|].
  destruct (C60_output true powi_rt two_times (listing a b c) flat [2] ["wind_10m"%string] tr (listing_dated a b c) (listing_steady a b c) R) as (u & heights & t' & S & _ & W & _).
  destruct (W (or_intror (or_introl eq_refl))) as (lu & lv & lg & Fu & Fv & Fg & H).
  assert (X : exists fu, nth_error lu 2 = Some fu).
  { destruct Fu as (features & parsed & E & D & P & _). change (Ok features = Ok (entries a b c)) in E. injection E as ->. apply forall2_len in D. apply Permutation_length in P. cbn in D.
    destruct (nth_error lu 2) as [fu|] eqn:En; [eauto|]. apply nth_error_None in En. lia. }
  destruct X as (fu & Hu). destruct (H 2%nat fu Hu (or_intror (or_introl eq_refl))) as (fv & fg & x & y & g & Nv & Ng & Va & Vb & Vg & [[_ Cb] Pr]).
  destruct (Cb BinWind (wind_bin {| wl_zonal := x; wl_meridional := y; wl_gusts := Some g |}) (or_introl eq_refl)) as (data & Ed).
  specialize (Pr (BinFile BinWind) (Data data)).
  assert (Q : file_after (file_path (swiss_run_of t') (Z.of_nat 2) (BinFile BinWind)) None tr = Some (Data data)).
  { apply Pr. exists data. split; [left; rewrite <- Ed; reflexivity|reflexivity]. }
  destruct (existsb (fun e => match effect_path e with Some p => String.eqb p (file_path (swiss_run_of t') (Z.of_nat 2) (BinFile BinWind)) | None => false end) tr) eqn:Ex.
  - apply existsb_exists in Ex. destruct Ex as (e & J & Ep). destruct (effect_path e) as [p|] eqn:P; [|discriminate]. exists e, p. split; [exact J|]. split; [exact P|].
    assert (Pa : part_of (swiss_render_latest true powi_rt two_times (listing a b c) flat false [2] ["wind_10m"%string]) tr) by (exists [], (Ok tt); rewrite app_nil_r; exact R).
    destruct (written_at _ _ _ _ _ _ _ _ _ _ _ (listing_dated a b c) Pa J P) as (t2 & (fs & f & Sf & Rf) & _ & I).
    change (Ok (fs ++ [f]) = Ok (entries a b c)) in Sf. injection Sf as Sf. change (entries a b c) with ([entry a 2; entry b 0] ++ [entry c 1]) in Sf. apply app_inj_tail in Sf. destruct Sf as [_ ->].
    destruct C as [-> | ->]; vm_compute in Pt; injection Pt as <-; vm_compute in Rf; injection Rf as <-; exact I.
  - exfalso. rewrite file_after_untouched in Q; [discriminate|]. intros e p J P E. subst p.
    assert (N : existsb (fun e => match effect_path e with Some p => String.eqb p (file_path (swiss_run_of t') (Z.of_nat 2) (BinFile BinWind)) | None => false end) tr = true).
    { apply existsb_exists. exists e. split; [exact J|]. rewrite P. apply String.eqb_refl. }
    congruence.
Qed.
Lemma entry_time time n i : time_of two_times (entry time n) i -> (time = "06"%string /\ i = instant at_six) \/ (time = "09"%string /\ i = instant at_nine).
Proof.
  intros (t & o & E & ->). cbn [entry ft_ref] in E. unfold two_times in E. destruct (String.eqb time "06") eqn:E6.
  - injection E as <- <-. apply String.eqb_eq in E6. left. split; [exact E6|]. lia.
  - destruct (String.eqb time "09") eqn:E9; [|discriminate]. injection E as <- <-. apply String.eqb_eq in E9. right. split; [exact E9|]. lia.
Qed.
Lemma three_listed (le : Z -> Z -> Prop) f1 f2 f3 : (forall i j, time_of two_times f1 i -> time_of two_times f2 j -> le i j) -> (forall i j, time_of two_times f1 i -> time_of two_times f3 j -> le i j) ->
  (forall i j, time_of two_times f2 i -> time_of two_times f3 j -> le i j) -> listed two_times le [f1; f2; f3].
Proof.
  intros A B C before f between g after i j E. destruct before as [|x [|x' [|x'' before]]]; cbn [app] in E.
  - injection E as <- E. destruct between as [|y [|y' between]]; cbn [app] in E.
    + injection E as <- _. apply A.
    + injection E as _ <- _. apply B.
    + injection E as _ _ E. destruct between; discriminate.
  - injection E as _ <- E. destruct between as [|y between]; cbn [app] in E; [injection E as <- _; apply C|]. injection E as _ E. destruct between; discriminate.
  - injection E as _ _ _ E. destruct between; discriminate.
  - injection E as _ _ _ E. destruct before; discriminate.
Qed.
Lemma six_nine : instant at_six <= instant at_nine.
Proof. vm_compute. discriminate. Qed.
(** The service adds the entry of 9 o'clock; so the first call writes for 6 o'clock, the second one for 9 o'clock. *)
Example C90_sample : swiss_follows two_times (listing "06" "06" "06") (listing "06" "06" "09") /\
  (exists tr, swiss_render_latest true powi_rt two_times (listing "06" "06" "06") flat false [2] ["wind_10m"%string] tr (Ok tt) /\
     exists e p, In e tr /\ effect_path e = Some p /\ in_run p (24 * day_number (day_of 2025 11 20) + 6)) /\
  (exists tr, swiss_render_latest true powi_rt two_times (listing "06" "06" "09") flat false [2] ["wind_10m"%string] tr (Ok tt) /\
     exists e p, In e tr /\ effect_path e = Some p /\ in_run p (24 * day_number (day_of 2025 11 20) + 9)).
Proof.
  split; [|split; [exact (listing_writes "06" "06" "06" at_six eq_refl (or_introl eq_refl))|exact (listing_writes "06" "06" "09" at_nine eq_refl (or_intror eq_refl))]].
  intros l l' E E'. change (Ok l = Ok (entries "06" "06" "06")) in E. change (Ok l' = Ok (entries "06" "06" "09")) in E'. injection E as ->. injection E' as ->. pose proof six_nine. split.
  - apply three_listed; intros i j I J; apply entry_time in I, J; destruct I as [[? ->]|[? ->]]; try discriminate; destruct J as [[? ->]|[? ->]]; try discriminate; lia.
  - intros before f i Q T. change (entries "06" "06" "06") with ([entry "06" 2; entry "06" 0] ++ [entry "06" 1]) in Q. apply app_inj_tail in Q. destruct Q as [_ <-].
    apply entry_time in T. destruct T as [[_ ->]|[? _]]; [|discriminate]. exists (entry "06" 2), (instant at_six). split; [now left|]. split; [|lia].
    exists at_six, 0. split; [reflexivity|]. lia.
Qed.
(** Finding: a service that lists the entry of 9 o'clock first makes the call write for 6 o'clock. *)
Example C90_oldest_sample : listed two_times Z.ge (entries "09" "09" "06") /\
  exists tr, swiss_render_latest true powi_rt two_times (listing "09" "09" "06") flat false [2] ["wind_10m"%string] tr (Ok tt) /\
    exists e p, In e tr /\ effect_path e = Some p /\ in_run p (24 * day_number (day_of 2025 11 20) + 6).
Proof.
  split; [|exact (listing_writes "09" "09" "06" at_six eq_refl (or_introl eq_refl))]. pose proof six_nine.
  apply three_listed; intros i j I J; apply entry_time in I, J; destruct I as [[? ->]|[? ->]]; try discriminate; destruct J as [[? ->]|[? ->]]; try discriminate; lia.
Qed.
