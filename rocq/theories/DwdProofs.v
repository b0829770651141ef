(** Proofs about the files of the German weather service (C49, C50, C54, C59). *)
From Coq Require Import Ascii String ZArith List Bool Lia Permutation.
From Verif Require Import Base F32 Grib2Model GeoModel Par ParFacts TileModel ChartModel ChartSpec MetobinModel Text TextFacts TextSpec TextSpecProofs
  ForecastModel ForecastSpec ForecastProofs FetchModel FetchSpec FetchProofs RenderProofs DwdModel DwdSpec.
Import ListNotations.
Open Scope Z_scope.

(** ** C49 *)
Section Urls.
  Local Open Scope string_scope.
  Definition var_of (f : dwd_file) : string := match f with SingleFile v _ => single_name v | LevelFile v _ _ => level_name v | HeightFile _ => "hhl" end.
  Definition base_of (m : fc_model) : string :=
    match m with IconD2 => "https://opendata.dwd.de/weather/nwp/icon-d2/grib/" | _ => "https://opendata.dwd.de/weather/nwp/icon-eu/grib/" end.
  Definition mid_of (m : fc_model) (f : dwd_file) : string :=
    match m, f with
    | IconD2, SingleFile _ _ => "icon-d2_germany_regular-lat-lon_single-level_"
    | IconD2, LevelFile _ _ _ => "icon-d2_germany_regular-lat-lon_model-level_"
    | IconD2, HeightFile _ => "icon-d2_germany_regular-lat-lon_time-invariant_"
    | _, SingleFile _ _ => "icon-eu_europe_regular-lat-lon_single-level_"
    | _, LevelFile _ _ _ => "icon-eu_europe_regular-lat-lon_model-level_"
    | _, HeightFile _ => "icon-eu_europe_regular-lat-lon_time-invariant_"
    end.
  Definition rest_of (m : fc_model) (f : dwd_file) : string :=
    match m, f with
    | IconD2, SingleFile v n => dec_pad 3 n ++ "_2d_" ++ single_name v ++ ".grib2.bz2"
    | IconD2, LevelFile v n l => dec_pad 3 n ++ "_" ++ dec l ++ "_" ++ level_name v ++ ".grib2.bz2"
    | IconD2, HeightFile l => "000_" ++ dec l ++ "_hhl.grib2.bz2"
    | _, SingleFile v n => dec_pad 3 n ++ "_" ++ single_name_upper v ++ ".grib2.bz2"
    | _, LevelFile v n l => dec_pad 3 n ++ "_" ++ dec l ++ "_" ++ level_name_upper v ++ ".grib2.bz2"
    | _, HeightFile l => dec l ++ "_HHL.grib2.bz2"
    end.
  Lemma url_form run f u : dwd_url run f = Ok u ->
    dwd_model (run_model run) /\
    u = base_of (run_model run) ++ run_name run ++ String "/" (var_of f ++ String "/" (mid_of (run_model run) f ++ date_text (run_date run) ++ run_name run ++ "_" ++ rest_of (run_model run) f)).
  Proof.
    destruct run as [m d n]. cbn [run_model run_date run_name]. unfold dwd_model.
    destruct f as [v s|v s l|l]; unfold dwd_url, single_url, level_url, hhl_url, single_level_url, multi_level_url, time_invariant_url; cbn [run_model run_date run_name];
      destruct m; cbn [single_prefix_suffix level_prefix_suffix hhl_prefix_suffix obind omap base_url run_model run_name run_date]; try discriminate; intro H; apply (f_equal (fun o => match o with Ok a => a | _ => EmptyString end)) in H;
      subst u; (split; [auto|]); cbn [base_of mid_of rest_of var_of st_nr numbered]; rewrite ?append_assoc; reflexivity.
  Qed.
  Lemma var_no_slash f : contains "/" (var_of f) = false.
  Proof. destruct f as [[]|[]|]; reflexivity. Qed.
  Lemma var_inj f f' : var_of f = var_of f' ->
    match f, f' with
    | SingleFile v _, SingleFile v' _ => v = v' | LevelFile v _ _, LevelFile v' _ _ => v = v' | HeightFile _, HeightFile _ => True | _, _ => False
    end.
  Proof. destruct f as [[]|[]|], f' as [[]|[]|]; cbn; intro H; solve [reflexivity|exact I|discriminate H]. Qed.
  Lemma c49_injective_proof : forall run run' f f' url, valid_run run -> valid_run run' -> dwd_file_ok f -> dwd_file_ok f' ->
    dwd_url run f = Ok url -> dwd_url run' f' = Ok url -> run = run' /\ f = f'.
  Proof.
    intros run run' f f' url [V S] [V' S'] Of Of' U U'. apply url_form in U, U'. destruct U as [M U], U' as [M' U']. rewrite U in U'. clear U.
    assert (Em : run_model run = run_model run').
    { destruct M as [M|M], M' as [M'|M']; rewrite M, M' in *; try reflexivity; cbn [base_of append] in U'; discriminate U'. }
    rewrite Em in U'. apply append_inv_head in U'. apply sep_inv in U'; [|exact S|exact S']. destruct U' as [En U'].
    apply sep_inv in U'; [|apply var_no_slash..]. destruct U' as [Ev U']. apply var_inj in Ev.
    assert (Emid : mid_of (run_model run') f = mid_of (run_model run') f') by (destruct f, f'; try contradiction; reflexivity).
    rewrite Emid in U'. apply append_inv_head in U'. apply date_text_inv in U'; [|exact V|exact V']. destruct U' as [Ed U'].
    rewrite En in U'. apply append_inv_head in U'. apply (append_inv_head "_") in U'.
    split; [destruct run, run'; cbn in *; congruence|].
    destruct M' as [M'|M']; rewrite M' in U'; destruct f as [v s|v s l|l], f' as [v' s'|v' s' l'|l']; try contradiction; cbn [rest_of dwd_file_ok] in *; subst.
    - apply dec_pad_inv in U'; [|tauto|tauto|reflexivity|reflexivity]. destruct U' as [-> _]. reflexivity.
    - apply dec_pad_inv in U'; [|tauto|tauto|reflexivity|reflexivity]. destruct U' as [-> U']. apply (append_inv_head "_") in U'.
      apply dec_inv in U'; [|tauto|tauto|reflexivity|reflexivity]. destruct U' as [-> _]. reflexivity.
    - apply (append_inv_head "000_") in U'. apply dec_inv in U'; [|tauto|tauto|reflexivity|reflexivity]. destruct U' as [-> _]. reflexivity.
    - apply dec_pad_inv in U'; [|tauto|tauto|reflexivity|reflexivity]. destruct U' as [-> _]. reflexivity.
    - apply dec_pad_inv in U'; [|tauto|tauto|reflexivity|reflexivity]. destruct U' as [-> U']. apply (append_inv_head "_") in U'.
      apply dec_inv in U'; [|tauto|tauto|reflexivity|reflexivity]. destruct U' as [-> _]. reflexivity.
    - apply dec_inv in U'; [|tauto|tauto|reflexivity|reflexivity]. destruct U' as [-> _]. reflexivity.
  Qed.
  Lemma first_level_range m : first_level m = fst (vertical_level_range m).
Proof. destruct m; reflexivity. Qed.
Lemma last_level_range m : last_level m = snd (vertical_level_range m).
Proof. destruct m; reflexivity. Qed.
(** The URL written out. *)
Lemma c49_layout_proof : forall run f url, valid_run run -> dwd_file_ok f -> (dwd_url run f = Ok url <-> url_layout run f url).
Proof.
  intros run f url [V _] Fo. destruct (date_text_exists _ V) as (y0 & mo0 & d0 & Y0 & M0 & D0). pose proof (date_text_padded _ _ _ _ V Y0 M0 D0) as T0.
  assert (Sl : forall v, single_lower v = single_name v) by (destruct v; reflexivity).
  assert (Su : forall v, single_upper v = single_name_upper v) by (destruct v; reflexivity).
  assert (Ll : forall v, level_lower v = level_name v) by (destruct v; reflexivity).
  assert (Lu : forall v, level_upper v = level_name_upper v) by (destruct v; reflexivity).
  unfold url_layout. split.
  - intro E. exists y0, mo0, d0.
    destruct f as [v nr|v nr level|level]; cbn [dwd_file_ok] in Fo; cbn [dwd_url] in E; unfold single_url, level_url, hhl_url, single_prefix_suffix, level_prefix_suffix, hhl_prefix_suffix,
        single_level_url, multi_level_url, time_invariant_url in E; destruct (run_model run); try discriminate E;
      cbn [obind omap base_url numbered st_nr] in E; injection E as <-; rewrite <- T0; rewrite !append_assoc; cbn [append]; cbv zeta; eexists;
      (split; [exact Y0|]); (split; [exact M0|]); (split; [exact D0|]); (split; [cbn [append]; repeat f_equal; reflexivity|]).
    1: exists (dec_pad 3 nr); rewrite (padded_dec_pad 3 nr) by lia; rewrite ?Sl, ?Su, !append_assoc; auto.
    1: exists (dec_pad 3 nr); rewrite (padded_dec_pad 3 nr) by lia; rewrite ?Sl, ?Su, !append_assoc; auto.
    1: exists (dec_pad 3 nr), (dec level); rewrite (padded_dec_pad 3 nr), (plain_dec level) by lia; rewrite ?Ll, ?Lu, !append_assoc; auto.
    1: exists (dec_pad 3 nr), (dec level); rewrite (padded_dec_pad 3 nr), (plain_dec level) by lia; rewrite ?Ll, ?Lu, !append_assoc; auto.
    1: exists (dec level); rewrite plain_dec by lia; rewrite !append_assoc; auto.
    1: exists (dec level); rewrite plain_dec by lia; rewrite !append_assoc; auto.
  - intros (y & mo & d & file & Y & M & D & R). pose proof (date_text_padded _ _ _ _ V Y M D) as T. cbv zeta in R.
    destruct f as [v nr|v nr level|level]; cbn [dwd_file_ok] in Fo; cbn [dwd_url]; unfold single_url, level_url, hhl_url, single_prefix_suffix, level_prefix_suffix, hhl_prefix_suffix,
        single_level_url, multi_level_url, time_invariant_url; destruct (run_model run); try contradiction;
      cbn [obind omap base_url numbered st_nr]; rewrite <- T; destruct R as [-> R].
    1, 2: destruct R as (st & S & ->); apply padded_dec_pad in S; [|lia|lia]; subst st; rewrite ?Sl, ?Su, !append_assoc; reflexivity.
    1, 2: destruct R as (st & l & S & L & ->); apply padded_dec_pad in S; [|lia|lia]; apply plain_dec in L; [|lia]; subst st l; rewrite ?Ll, ?Lu, !append_assoc; reflexivity.
    1, 2: destruct R as (l & L & ->); apply plain_dec in L; [|lia]; subst l; rewrite !append_assoc; reflexivity.
Qed.
Lemma c49_total_proof : forall run f,
    (dwd_model (run_model run) -> exists url, dwd_url run f = Ok url) /\ (~ dwd_model (run_model run) -> dwd_url run f = Panic).
  Proof.
    intros [m d n] f. unfold dwd_model. cbn [run_model]. split.
    - intros [->| ->]; destruct f; eexists; reflexivity.
    - intro N. destruct m; try (exfalso; tauto); destruct f; reflexivity.
  Qed.
End Urls.

(** ** C50 *)
Lemma all_found_spec head urls : forall n,
  (fst (all_found head n urls) = true -> forall u, In u urls -> exists n', head n' u = Some 200) /\
  (fst (all_found head n urls) = false -> exists u n', In u urls /\ head n' u <> Some 200).
Proof.
  induction urls as [|u urls IH]; intro n; cbn [all_found].
  - split; [intros _ u []|discriminate].
  - destruct (head n u) as [s|] eqn:E; [destruct (Z.eqb_spec s 200) as [->|N]|].
    + destruct (IH (S n)) as [I1 I2]. split.
      * intros H u' [<-|J]; [eauto|exact (I1 H u' J)].
      * intro H. destruct (I2 H) as (u' & n' & J & K). exists u', n'. split; [now right|exact K].
    + cbn. split; [discriminate|]. intros _. exists u, n. split; [now left|]. congruence.
    + cbn. split; [discriminate|]. intros _. exists u, n. split; [now left|]. congruence.
Qed.
Lemma probe_urls_spec m d name : dwd_model m -> exists urls, probe_urls (run_of m d name) {| st_nr := snd (step_range m); st_url := EmptyString |} = Ok urls /\
  (forall f, probed m f -> exists u, dwd_url (run_of m d name) f = Ok u /\ In u urls) /\
  (forall u, In u urls -> exists f, probed m f /\ dwd_url (run_of m d name) f = Ok u).
Proof.
  intro M. assert (L : snd (step_range m) = last_step m) by (destruct m; reflexivity). rewrite L. fold (numbered (last_step m)).
  assert (T : forall f, exists u, dwd_url (run_of m d name) f = Ok u) by (intro f; exact (proj1 (c49_total_proof (run_of m d name) f) M)).
  destruct (T (SingleFile ClctMod (last_step m))) as (u1 & E1). destruct (T (SingleFile TotPrec (last_step m))) as (u2 & E2).
  destruct (T (SingleFile Ceiling (last_step m))) as (u3 & E3). destruct (T (SingleFile Ww (last_step m))) as (u4 & E4).
  destruct (T (SingleFile U10m (last_step m))) as (u5 & E5). destruct (T (SingleFile V10m (last_step m))) as (u6 & E6).
  destruct (T (SingleFile Vmax10m (last_step m))) as (u7 & E7). destruct (T (SingleFile T2m (last_step m))) as (u8 & E8).
  destruct (T (LevelFile Clc (last_step m) 65)) as (u9 & E9). destruct (T (LevelFile UWind (last_step m) 65)) as (u10 & E10).
  exists [u1; u2; u3; u4; u5; u6; u7; u8; u9; u10]. split; [|split].
  - unfold probe_urls. cbn [dwd_url] in *. rewrite E1, E2, E3, E4, E5, E6, E7, E8, E9, E10. reflexivity.
  - intros f [(v & ->)|[->| ->]]; [destruct v|exists u9|exists u10]; [exists u3|exists u1|exists u2|exists u4|exists u5|exists u6|exists u7|exists u8| |]; (split; [assumption|cbn; auto 12]).
  - intros u J. cbn in J. unfold probed.
    repeat (destruct J as [<-|J]; [eexists; split; [|eassumption]; eauto|]). contradiction.
Qed.
Lemma find_run_spec head m today : dwd_model m -> forall names n, exists o, find_run head n m today names = Ok o /\
  match o with
  | Some run => exists name l1 l2, names = l1 ++ name :: l2 /\ run = run_of m today name /\ complete_run head run /\
      forall name', In name' l1 -> incomplete_run head (run_of m today name')
  | None => forall name', In name' names -> incomplete_run head (run_of m today name')
  end.
Proof.
  intro M. induction names as [|name names IH]; intro n; cbn [find_run].
  - exists None. split; [reflexivity|]. intros ? [].
  - destruct (probe_urls_spec m today name M) as (urls & E & P1 & P2). fold (run_of m today name). rewrite E. cbn [obind].
    pose proof (all_found_spec head urls n) as [F1 F2]. destruct (all_found head n urls) as [[] n'] eqn:A; cbn [fst] in F1, F2.
    + exists (Some (run_of m today name)). split; [reflexivity|]. exists name, [], names. split; [reflexivity|]. split; [reflexivity|]. split; [|intros ? []].
      intros f Pf. cbn [run_of run_model] in Pf. destruct (P1 f Pf) as (u & Eu & J). destruct (F1 eq_refl u J) as (k & Hk). eauto.
    + assert (I0 : incomplete_run head (run_of m today name)).
      { destruct (F2 eq_refl) as (u & k & J & H). destruct (P2 u J) as (f & Pf & Ef). exists f, u, k. cbn [run_of run_model]. auto. }
      destruct (IH n') as (o & -> & S). exists o. split; [reflexivity|]. destruct o as [run|].
      * destruct S as (name0 & l1 & l2 & -> & Er & C & I). exists name0, (name :: l1), l2. split; [reflexivity|]. split; [exact Er|]. split; [exact C|].
        intros name' [<-|J]; auto.
      * intros name' [<-|J]; auto.
Qed.
Lemma c50_latest_proof : forall head m today today', dwd_model m -> exists run, find_latest_run head m today today' = Ok run /\
  ((exists name later, run = run_of m today name /\ run_before name later /\ complete_run head run /\
      forall name', In name' later -> incomplete_run head (run_of m today name')) \/
   (run = run_of IconD2 (prev_day today') "21" /\ forall name later, run_before name later -> incomplete_run head (run_of m today name))).
Proof.
  intros head m today today' M. unfold find_latest_run. destruct (find_run_spec head m today M run_names_reversed 0) as (o & -> & S). cbn [omap].
  eexists. split; [reflexivity|]. destruct o as [run|].
  - left. destruct S as (name & l1 & l2 & E & -> & C & I). exists name, (rev l1). split; [reflexivity|]. split; [|split; [exact C|]].
    + exists (rev l2). apply (f_equal (@rev string)) in E. unfold run_names_reversed in E. rewrite rev_involutive, rev_app_distr in E. cbn [rev] in E. rewrite <- app_assoc in E. exact E.
    + intros name' J. apply I. now apply in_rev.
  - right. split; [reflexivity|]. intros name later (earlier & E). apply S. unfold run_names_reversed. apply in_rev. rewrite rev_involutive. unfold run_names. rewrite E.
    apply in_or_app. right. now left.
Qed.
Lemma c50_steady_proof : forall avail m today today' name later, dwd_model m -> run_before name later ->
  let found d := forall f u, probed m f -> dwd_url (run_of m today d) f = Ok u -> avail u = Some 200 in
  find_latest_run (fun _ => avail) m today today' = Ok (run_of m today name) <->
  (found name /\ forall name', In name' later -> ~ found name') \/
  ((forall name' later', run_before name' later' -> ~ found name') /\ run_of IconD2 (prev_day today') "21" = run_of m today name).
Proof.
  intros avail m today today' name later M B found.
  assert (Hc : forall d, complete_run (fun _ => avail) (run_of m today d) -> found d).
  { intros d C f u Pf E. destruct (C f Pf) as (u' & n & E' & H). rewrite E in E'. injection E' as <-. exact H. }
  assert (Hi : forall d, incomplete_run (fun _ => avail) (run_of m today d) -> ~ found d).
  { intros d (f & u & n & Pf & E & N) F. exact (N (F f u Pf E)). }
  assert (ND : NoDup run_names) by (vm_compute; repeat (apply NoDup_cons; [cbn; intro H; repeat (destruct H as [H|H]; [discriminate|]); exact H|]); apply NoDup_nil).
  assert (Hn : forall n l n' l', run_before n l -> run_before n' l' -> n = n' -> l = l').
  { intros n l n' l' (e & E) (e' & E') <-. assert (ND' := ND). unfold run_names in ND'. rewrite E in ND'. rewrite E in E'. clear E.
    revert e' E'. induction e as [|x e IHe]; intros [|x' e'] Q; cbn [app] in *; inversion Q; subst; auto.
    - exfalso. inversion ND' as [|? ? N _]. apply N, in_or_app. right. now left.
    - exfalso. inversion ND' as [|? ? N _]. apply N, in_or_app. right. now left.
    - inversion ND'; eauto. }
  assert (Ht : forall n l n' l', run_before n l -> run_before n' l' -> n = n' \/ In n l' \/ In n' l).
  { intros n l n' l' (e & E) (e' & E'). rewrite E in E'. clear -E'. revert e' E'. induction e as [|x e IHe]; intros [|x' e'] Q; cbn [app] in *; inversion Q; subst; auto.
    - right. right. apply in_or_app. right. now left.
    - right. left. apply in_or_app. right. now left.
    - eauto. }
  destruct (c50_latest_proof (fun _ => avail) m today today' M) as (run & -> & [(n1 & l1 & -> & B1 & C & I)|[-> I]]); split.
  - intro E. injection E as ->. left. split; [exact (Hc _ C)|]. intros n' J. apply Hi. rewrite (Hn _ _ _ _ B B1 eq_refl) in J. auto.
  - intros [[F L]|[L _]].
    + do 2 f_equal. destruct (Ht _ _ _ _ B B1) as [E|[J|J]]; [congruence| |].
      * destruct (Hi _ (I _ J) F).
      * destruct (L _ J (Hc _ C)).
    + destruct (L _ _ B1 (Hc _ C)).
  - intro E. injection E as Em Ed En. right. split; [intros n' l' B'; exact (Hi _ (I _ _ B'))|]. congruence.
  - intros [[F L]|[L E]]; [destruct (Hi _ (I _ _ B) F)|congruence].
Qed.
Lemma c50_unsupported_proof : forall head m today today', ~ dwd_model m -> find_latest_run head m today today' = Panic.
Proof. intros head m today today' N. destruct m; try (exfalso; apply N; unfold dwd_model; solve [auto]); reflexivity. Qed.
Lemma is_leap_days y : days_before_year (y + 1) = days_before_year y + (if is_leap y then 366 else 365).
Proof.
  unfold days_before_year, is_leap.
  assert (A : (y + 1 + 3) / 4 = (y + 3) / 4 + if y mod 4 =? 0 then 1 else 0).
  { destruct (Z.eqb_spec (y mod 4) 0); Z.div_mod_to_equations; lia. }
  assert (B : (y + 1 + 99) / 100 = (y + 99) / 100 + if y mod 100 =? 0 then 1 else 0).
  { destruct (Z.eqb_spec (y mod 100) 0); Z.div_mod_to_equations; lia. }
  assert (C : (y + 1 + 399) / 400 = (y + 399) / 400 + if y mod 400 =? 0 then 1 else 0).
  { destruct (Z.eqb_spec (y mod 400) 0); Z.div_mod_to_equations; lia. }
  rewrite A, B, C. destruct (Z.eqb_spec (y mod 4) 0), (Z.eqb_spec (y mod 100) 0), (Z.eqb_spec (y mod 400) 0); cbn [andb orb negb]; try lia; exfalso; Z.div_mod_to_equations; lia.
Qed.
Lemma days_in_year y : days_before_month y 12 = if is_leap y then 366 else 365.
Proof. unfold days_before_month, days_in_month. cbn. destruct (is_leap y); reflexivity. Qed.
Lemma c50_yesterday_proof : forall d, valid_date d -> (year d, month d, day d) <> (0, 1, 1) ->
  valid_date (prev_day d) /\ day_number (prev_day d) = day_number d - 1.
Proof.
  intros [y mo da] (Y & M & D) N. cbn [year month day] in *. unfold prev_day, day_number, valid_date. cbn [year month day].
  assert (P : forall yy mm, 28 <= days_in_month yy mm) by (intros; unfold days_in_month; destruct (mm =? 2), (is_leap yy), ((mm =? 4) || (mm =? 6) || (mm =? 9) || (mm =? 11)); lia).
  destruct (Z.ltb_spec 1 da); cbn [year month day]; [split; lia|].
  destruct (Z.ltb_spec 1 mo); cbn [year month day].
  - pose proof (P y (mo - 1)). split; [lia|]. replace (Z.to_nat (mo - 1)) with (S (Z.to_nat (mo - 1 - 1))) by lia. cbn [days_before_month].
    replace (Z.of_nat (S (Z.to_nat (mo - 1 - 1)))) with (mo - 1) by lia. lia.
  - assert (mo = 1) by lia. assert (da = 1) by lia. subst. assert (y <> 0) by congruence. split; [unfold days_in_month; cbn; lia|].
    replace (Z.to_nat (12 - 1)) with 11%nat by reflexivity. pose proof (is_leap_days (y - 1)) as L. replace (y - 1 + 1) with y in L by lia.
    pose proof (days_in_year (y - 1)) as Q. change (days_before_month (y - 1) 12) with (days_before_month (y - 1) 11 + days_in_month (y - 1) 12) in Q.
    change (days_before_month y (Z.to_nat (1 - 1))) with 0. assert (days_in_month (y - 1) 12 = 31) by reflexivity. rewrite L, <- Q. lia.
Qed.

(** ** C54 *)

Lemma step_in m s : In s (forecast_steps m) <-> s = numbered (st_nr s) /\ 2 <= st_nr s <= last_step m.
Proof.
  unfold forecast_steps, steps_of_range. rewrite in_map_iff. split.
  - intros (n & <- & J). apply TileProofs.in_range in J. cbn [st_nr]. split; [reflexivity|]. destruct m; cbn in *; lia.
  - intros [E J]. exists (st_nr s). split; [symmetry; exact E|]. apply TileProofs.in_range. destruct m; cbn in *; lia.
Qed.
Lemma steps_nodup m : NoDup (map st_nr (forecast_steps m)).
Proof. rewrite (proj1 (c48_steps_proof m)). apply TileProofs.nodup_range. Qed.
Lemma steps_nonneg m : Forall (fun s => 0 <= st_nr s) (forecast_steps m).
Proof. apply Forall_forall. intros s J. apply step_in in J. lia. Qed.
Lemma found_run head model today today' run : dwd_model model -> valid_date today -> valid_date (prev_day today') ->
  find_latest_run head model today today' = Ok run -> valid_run run /\ dwd_model (run_model run).
Proof.
  intros M V V' F. destruct (c50_latest_proof head model today today' M) as (run' & F' & H). rewrite F in F'. injection F' as <-.
  destruct H as [(name & later & -> & (earlier & E) & _)|[-> _]].
  - split; [|exact M]. split; [exact V|]. cbn [run_of run_name]. assert (J : In name run_names) by (unfold run_names; rewrite E; apply in_or_app; right; now left).
    cbn in J. repeat (destruct J as [<-|J]; [reflexivity|]). contradiction.
  - split; [|now left]. split; [exact V'|reflexivity].
Qed.
Section Rendering.
  Variables (chk : bool) (powi : f32 -> Z -> f32) (fetch : fetcher) (m : libm).
  Lemma render_run faulty head today today' model vars steps tr r : dwd_model model ->
    dwd_render_latest chk powi fetch m faulty head today today' model vars steps tr r ->
    exists run, find_latest_run head model today today' = Ok run /\
      whole chk m run vars steps (forecast_steps (run_model run)) (forecast_steps (run_model run)) (forecast_steps (run_model run)) (forecast_steps (run_model run)) (forecast_steps (run_model run))
        (read_cloud_precip_weather chk powi fetch run) (read_wind chk powi fetch run) (read_temp chk powi fetch run)
        (read_hhl chk powi fetch run (vertical_level_range (run_model run)))
        (read_vertical_cloud chk powi fetch run (vertical_level_range (run_model run)))
        (read_vertical_wind chk powi fetch run (vertical_level_range (run_model run))) faulty tr r.
  Proof.
    intros M R. unfold dwd_render_latest in R. destruct (c50_latest_proof head model today today' M) as (run & F & _). rewrite F in R. exists run. split; [exact F|exact R].
  Qed.
  Lemma all_steps_nonneg md t : Forall (fun s => 0 <= st_nr s) (steps_for (forecast_steps md) (forecast_steps md) (forecast_steps md) (forecast_steps md) (forecast_steps md) t).
  Proof. destruct t; cbn [steps_for]; try apply steps_nonneg. constructor. Qed.
  Lemma all_steps_nodup md t : NoDup (map st_nr (steps_for (forecast_steps md) (forecast_steps md) (forecast_steps md) (forecast_steps md) (forecast_steps md) t)).
  Proof. destruct t; cbn [steps_for]; try apply steps_nodup. constructor. Qed.
End Rendering.
Lemma c54_dwd_order_proof : forall chk powi fetch m faulty head today today' model vars steps tr r plan,
  dwd_model model -> valid_date today -> valid_date (prev_day today') -> plan_of vars plan ->
  dwd_render_latest chk powi fetch m faulty head today today' model vars steps tr r ->
  exists run o, find_latest_run head model today today' = Ok run /\
    let levels := vertical_level_range (run_model run) in
    (In EHeights tr -> read_hhl chk powi fetch run levels o) /\
    for_seq plan (perform (dwd_cloud_precip chk powi fetch m faulty steps run) (dwd_wind chk powi fetch m faulty steps run)
      (dwd_temp chk powi fetch m faulty steps run) o (dwd_vertical_cloud chk powi fetch faulty steps levels run)
      (dwd_vertical_wind chk powi fetch faulty steps levels run)) tr r.
Proof.
  intros chk powi fetch m faulty head today today' model vars steps tr r plan M V V' P R.
  destruct (render_run chk powi fetch m faulty head today today' model vars steps tr r M R) as (run & F & W). destruct (found_run _ _ _ _ _ M V V' F) as [VR _].
  apply (whole_plan _ _ _ _ _ _ _ _ _ _ _ _ _ _ _ _ VR (all_steps_nonneg (run_model run)) faulty plan) in W; [|exact P]. destruct W as (o & H1 & H2). exists run, o. auto.
Qed.
Lemma c54_dwd_heights_proof : forall chk powi fetch m faulty head today today' model vars steps tr r,
  dwd_model model -> valid_date today -> valid_date (prev_day today') ->
  dwd_render_latest chk powi fetch m faulty head today today' model vars steps tr r ->
  (heights_read tr <= 1)%nat /\ (~ chosen vars Heights -> heights_read tr = 0%nat) /\ (r = Ok tt -> chosen vars Heights -> heights_read tr = 1%nat).
Proof.
  intros chk powi fetch m faulty head today today' model vars steps tr r M V V' R.
  destruct (render_run chk powi fetch m faulty head today today' model vars steps tr r M R) as (run & F & W). destruct (found_run _ _ _ _ _ M V V' F) as [VR _].
  exact (whole_heights _ _ _ _ _ _ _ _ _ _ _ _ _ _ _ _ VR (all_steps_nonneg (run_model run)) faulty tr r W).
Qed.
Lemma c54_dwd_paths_proof : forall chk powi fetch m faulty head today today' model vars steps tr r e p,
  dwd_model model -> valid_date today -> valid_date (prev_day today') ->
  dwd_render_latest chk powi fetch m faulty head today today' model vars steps tr r -> In e tr -> effect_path e = Some p ->
  exists run t n rest, find_latest_run head model today today' = Ok run /\ named vars t /\ In (Layer t) order /\ wanted_nr run steps n /\
    p = (output_path run n t ++ rest)%string.
Proof.
  intros chk powi fetch m faulty head today today' model vars steps tr r e p M V V' R J Ep.
  destruct (render_run chk powi fetch m faulty head today today' model vars steps tr r M R) as (run & F & W). destruct (found_run _ _ _ _ _ M V V' F) as [VR _].
  destruct (whole_paths _ _ _ _ _ _ _ _ _ _ _ _ _ _ _ _ VR (all_steps_nonneg (run_model run)) faulty tr r e p W J Ep) as (t & s & rest & N & Js & Ws & ->).
  exists run, t, (st_nr s), rest. split; [exact F|]. split; [exact N|]. assert (X : In (Layer t) order /\ In s (forecast_steps (run_model run))).
  { destruct t; cbn [steps_for] in Js; try (destruct Js; fail); (split; [cbn; auto 10|exact Js]). }
  destruct X as [X1 X2]. split; [exact X1|]. split; [|reflexivity]. apply step_in in X2. split; [tauto|exact Ws].
Qed.
Lemma c54_dwd_same_proof : forall chk powi fetch m faulty head today today' model vars vars' steps tr r,
  same_layers vars vars' -> dwd_render_latest chk powi fetch m faulty head today today' model vars steps tr r ->
  dwd_render_latest chk powi fetch m faulty head today today' model vars' steps tr r.
Proof.
  intros chk powi fetch m faulty head today today' model vars vars' steps tr r S R. unfold dwd_render_latest in *.
  destruct (find_latest_run head model today today') as [run|?|]; cbn [p_let] in *; [|exact R|exact R]. eapply selected_same; eassumption.
Qed.

(** ** C59 *)
Lemma forall2_impl {A B} (P Q : A -> B -> Prop) l l' : (forall a b, P a b -> Q a b) -> Forall2 P l l' -> Forall2 Q l l'.
Proof. intros H F. induction F; constructor; auto. Qed.
Section Reading.
  Variables (chk : bool) (powi : f32 -> Z -> f32) (fetch : fetcher).
  Lemma fetch_regular_spec {T} url missing transform (g : value_grid T) : fetch_regular chk powi fetch url missing transform (Ok g) <->
    exists bs d rest, fetch url (Ok bs) /\ read_single_doc chk bs = Ok (d, rest) /\ regular_create_and_transform powi d missing transform = Ok g.
  Proof.
    unfold fetch_regular, fetch_doc. split.
    - intro H. apply r_bind_ok in H. destruct H as (d & H & G). apply r_bind_ok in H. destruct H as (bs & B & D). unfold r_of in *.
      destruct (read_single_doc chk bs) as [[d' rest]|?|] eqn:E; cbn [omap fst] in D; try discriminate. injection D as <-. exists bs, d, rest. auto.
    - intros (bs & d & rest & B & D & G). apply r_bind_ok. exists d. split; [|symmetry; exact G]. apply r_bind_ok. exists bs. split; [exact B|]. unfold r_of. rewrite D. reflexivity.
  Qed.
  Lemma read_single_spec v run s g : read_single chk powi fetch v run s (Ok g) <-> float_grid chk powi fetch run v (st_nr s) g.
  Proof.
    unfold read_single, float_grid, grid_from. rewrite r_bind_ok. cbn [dwd_url]. change (single_url v run (numbered (st_nr s))) with (single_url v run s). unfold r_of. split.
    - intros (url & E & H). apply fetch_regular_spec in H. destruct H as (bs & d & rest & H). exists url, bs, d, rest. split; [symmetry; exact E|exact H].
    - intros (url & bs & d & rest & E & H). exists url. split; [symmetry; exact E|]. apply fetch_regular_spec. eauto.
  Qed.
  Lemma read_levels_spec v missing transform run s gs :
    read_levels chk powi fetch v missing transform run s (vertical_level_range (run_model run)) (Ok gs) <->
    level_grids chk powi fetch run (LevelFile v (st_nr s)) missing transform gs.
  Proof.
    unfold read_levels, level_grids, r_collect. rewrite first_level_range, last_level_range. split; apply forall2_impl; intros level g; rewrite r_bind_ok; cbn [dwd_url grid_from]; unfold grid_from, r_of; cbn [dwd_url];
      change (level_url v run (numbered (st_nr s)) level) with (level_url v run s level).
    - intros (url & E & H). apply fetch_regular_spec in H. destruct H as (bs & d & rest & H). exists url, bs, d, rest. split; [symmetry; exact E|exact H].
    - intros (url & bs & d & rest & E & H). exists url. split; [symmetry; exact E|]. apply fetch_regular_spec. eauto.
  Qed.
  Lemma read_hhl_spec run gs : read_hhl chk powi fetch run (vertical_level_range (run_model run)) (Ok gs) <->
    level_grids chk powi fetch run HeightFile HHL_MISSING hhl_transform gs.
  Proof.
    unfold read_hhl, level_grids, r_collect. rewrite first_level_range, last_level_range. split; apply forall2_impl; intros level g; rewrite r_bind_ok; unfold grid_from, r_of; cbn [dwd_url].
    - intros (url & E & H). apply fetch_regular_spec in H. destruct H as (bs & d & rest & H). exists url, bs, d, rest. split; [symmetry; exact E|exact H].
    - intros (url & bs & d & rest & E & H). exists url. split; [symmetry; exact E|]. apply fetch_regular_spec. eauto.
  Qed.
  Hypothesis (St : steady fetch).
  Lemma det_regular {T} url missing (transform : f32 -> T) : det (fetch_regular chk powi fetch url missing transform).
  Proof. apply det_bind; [apply det_bind; [intros a b; apply St|intro; apply det_of]|intro; apply det_of]. Qed.
  Lemma det_single v run s : det (read_single chk powi fetch v run s).
  Proof. apply det_bind; [apply det_of|intro; apply det_regular]. Qed.
  Lemma det_levels v missing transform run s levels : det (read_levels chk powi fetch v missing transform run s levels).
  Proof. apply det_collect. intro. apply det_bind; [apply det_of|intro; apply det_regular]. Qed.
  Ltac dets := repeat (apply det_bind; [first [apply det_of|apply det_single|apply det_levels]|intro]); try apply det_of.
  Lemma det_cpw run s : det (read_cloud_precip_weather chk powi fetch run s).
  Proof. apply det_bind; [unfold read_cloud_precip; dets|intro]. apply det_bind; [unfold read_weather; dets|intro; apply det_of]. Qed.
  Lemma det_wind run s : det (read_wind chk powi fetch run s).
  Proof. unfold read_wind. dets. Qed.
  Lemma det_vc run levels h s : det (read_vertical_cloud chk powi fetch run levels h s).
  Proof. unfold read_vertical_cloud, read_clc. dets. Qed.
  Lemma det_vw run levels h s : det (read_vertical_wind chk powi fetch run levels h s).
  Proof. unfold read_vertical_wind, read_u, read_v. dets. Qed.
End Reading.
Lemma unwrap_ok {A} (o : outcome A) a : r_of (unwrap o) (Ok a) -> o = Ok a.
Proof. unfold r_of, unwrap. destruct o; congruence. Qed.
Lemma wind_new_ok u v g l : wind_new u v g = Ok l -> l = {| wl_zonal := u; wl_meridional := v; wl_gusts := g |}.
Proof. unfold wind_new. repeat match goal with |- context [if ?b then _ else _] => destruct b | |- context [match ?o with Some _ => _ | None => _ end] => destruct o end; intro H; try discriminate H; injection H as <-; reflexivity. Qed.
Lemma cloud_precip_new_ok c p0 p1 l : cloud_precip_new c p0 p1 = Ok l -> l = {| cp_cloud := c; cp_precip0 := p0; cp_precip1 := p1 |}.
Proof. unfold cloud_precip_new. repeat match goal with |- context [if ?b then _ else _] => destruct b end; intro H; try discriminate H; injection H as <-; reflexivity. Qed.
Lemma weather_new_ok c p0 p1 l : weather_new c p0 p1 = Ok l -> l = {| we_clct := c; we_ceiling := p0; we_ww := p1 |}.
Proof. unfold weather_new. repeat match goal with |- context [if ?b then _ else _] => destruct b end; intro H; try discriminate H; injection H as <-; reflexivity. Qed.
Lemma vertical_cloud_new_ok a b l : vertical_cloud_new a b = Ok l -> l = {| vc_hhl := a; vc_clc := b |}.
Proof. unfold vertical_cloud_new. repeat match goal with |- context [if ?b then _ else _] => destruct b end; intro H; try discriminate H; injection H as <-; reflexivity. Qed.
Lemma vertical_wind_new_ok a b c l : vertical_wind_new a b c = Ok l -> l = {| vw_hhl := a; vw_u := b; vw_v := c |}.
Proof. unfold vertical_wind_new. repeat match goal with |- context [if ?b then _ else _] => destruct b end; intro H; try discriminate H; injection H as <-; reflexivity. Qed.

Lemma c59_proof : forall chk powi fetch m head today today' model vars steps tr,
  dwd_model model -> valid_date today -> valid_date (prev_day today') -> steady fetch ->
  dwd_render_latest chk powi fetch m false head today today' model vars steps tr (Ok tt) ->
  exists run, find_latest_run head model today today' = Ok run /\
  (named vars Temp2m -> forall n, wanted_nr run steps n -> exists temp, float_grid chk powi fetch run T2m n temp /\
     rendered chk m (temp_kind chk m) run n temp tr) /\
  (named vars Wind10m -> forall n, wanted_nr run steps n -> exists u v gusts,
     float_grid chk powi fetch run U10m n u /\ float_grid chk powi fetch run V10m n v /\ float_grid chk powi fetch run Vmax10m n gusts /\
     rendered chk m (wind_kind chk m) run n {| wl_zonal := u; wl_meridional := v; wl_gusts := Some gusts |} tr) /\
  (named vars CloudPrecip -> forall n, wanted_nr run steps n -> exists clct prec0 prec1 ceiling ww,
     float_grid chk powi fetch run ClctMod n clct /\ float_grid chk powi fetch run TotPrec (n - 1) prec0 /\ float_grid chk powi fetch run TotPrec n prec1 /\
     float_grid chk powi fetch run Ceiling n ceiling /\ float_grid chk powi fetch run Ww n ww /\
     rendered chk m (cloud_precip_kind chk m) run n
       ({| cp_cloud := clct; cp_precip0 := prec0; cp_precip1 := prec1 |}, {| we_clct := clct; we_ceiling := ceiling; we_ww := Some ww |}) tr) /\
  (named vars VerticalCloud \/ named vars VerticalWind -> exists hhl, level_grids chk powi fetch run HeightFile HHL_MISSING hhl_transform hhl /\
     (named vars VerticalCloud -> forall n, wanted_nr run steps n -> exists clc,
        level_grids chk powi fetch run (LevelFile Clc n) CLC_MISSING clc_transform clc /\
        rendered chk m vertical_cloud_kind run n {| vc_hhl := hhl; vc_clc := clc |} tr) /\
     (named vars VerticalWind -> forall n, wanted_nr run steps n -> exists u v,
        level_grids chk powi fetch run (LevelFile UWind n) U_V_MISSING u_v_transform u /\
        level_grids chk powi fetch run (LevelFile VWind n) U_V_MISSING u_v_transform v /\
        rendered chk m vertical_wind_kind run n {| vw_hhl := hhl; vw_u := u; vw_v := v |} tr)).
Proof.
  intros chk powi fetch m head today today' model vars steps tr M V V' St R.
  destruct (render_run chk powi fetch m false head today today' model vars steps tr _ M R) as (run & F & W). destruct (found_run _ _ _ _ _ M V V' F) as [VR _].
  exists run. split; [exact F|].
  destruct (whole_files _ _ _ _ _ _ _ _ _ _ _ _ _ _ _ _ VR (all_steps_nonneg (run_model run)) (all_steps_nodup (run_model run))
    (fun s => det_cpw chk powi fetch St run s) (fun s => det_wind chk powi fetch St run s) (fun s => det_single chk powi fetch St T2m run s)
    (fun h s => det_vc chk powi fetch St run _ h s) (fun h s => det_vw chk powi fetch St run _ h s) tr W) as (Hcp & Hwi & Hte & Hv). clear W R.
  assert (Js : forall n, wanted_nr run steps n -> In (numbered n) (forecast_steps (run_model run)) /\ wanted steps (numbered n)).
  { intros n [B Wn]. split; [apply step_in; cbn [st_nr numbered]; auto|exact Wn]. }
  split; [|split; [|split]].
  - intros N n Wn. destruct (Js n Wn) as [J W]. destruct (Hte N _ J W) as (l & Rl & Re). exists l. split; [|exact Re]. apply read_single_spec in Rl. exact Rl.
  - intros N n Wn. destruct (Js n Wn) as [J W]. destruct (Hwi N _ J W) as (l & Rl & Re). unfold read_wind in Rl.
    apply r_bind_ok in Rl. destruct Rl as (u & Ru & Rl). apply r_bind_ok in Rl. destruct Rl as (v & Rv & Rl). apply r_bind_ok in Rl. destruct Rl as (g & Rg & Rl).
    symmetry in Rl. apply wind_new_ok in Rl. subst l. apply read_single_spec in Ru, Rv, Rg. exists u, v, g. auto.
  - intros N n Wn. destruct (Js n Wn) as [J W]. destruct (Hcp N _ J W) as (l & Rl & Re). unfold read_cloud_precip_weather in Rl.
    apply r_bind_ok in Rl. destruct Rl as (cp & Rcp & Rl). apply r_bind_ok in Rl. destruct Rl as (we & Rwe & Rl). injection Rl as ->.
    unfold read_cloud_precip in Rcp. apply r_bind_ok in Rcp. destruct Rcp as (s1 & H1 & Rcp). apply r_bind_ok in Rcp. destruct Rcp as (b & Hb & Rcp).
    apply r_bind_ok in Rcp. destruct Rcp as (s2 & H2 & Rcp). apply r_bind_ok in Rcp. destruct Rcp as (s3 & H3 & Rcp).
    apply r_bind_ok in Rcp. destruct Rcp as (clct & Rc & Rcp). apply r_bind_ok in Rcp. destruct Rcp as (p0 & R0 & Rcp). apply r_bind_ok in Rcp. destruct Rcp as (p1 & R1 & Rcp).
    symmetry in Rcp. apply cloud_precip_new_ok in Rcp. subst cp.
    unfold read_weather in Rwe. apply r_bind_ok in Rwe. destruct Rwe as (clct' & Rc' & Rwe). apply r_bind_ok in Rwe. destruct Rwe as (ce & Rce & Rwe). apply r_bind_ok in Rwe. destruct Rwe as (ww & Rww & Rwe).
    symmetry in Rwe. apply weather_new_ok in Rwe. subst we.
    cbn [st_nr numbered] in *. assert (Hn : 2 <= n) by (destruct Wn; lia). assert (Hl : n < 2 ^ 64) by (destruct Wn as [Wn _]; destruct (run_model run); cbn in Wn; lia).
    apply unwrap_ok in H1, H2, H3. assert (Eb : b = n - 1).
    { unfold r_of, usub in Hb. destruct (Z.leb_spec 1 n); [injection Hb as ->; reflexivity|lia]. }
    subst b. assert (E1 : st_nr s1 = n). { pose proof (c48_lookup_proof (forecast_steps (run_model run)) n) as L. rewrite H1 in L. tauto. }
    assert (E2 : st_nr s2 = n - 1). { pose proof (c48_lookup_proof (forecast_diff_steps (run_model run)) (n - 1)) as L. rewrite H2 in L. tauto. }
    assert (E3 : st_nr s3 = n). { pose proof (c48_lookup_proof (forecast_diff_steps (run_model run)) n) as L. rewrite H3 in L. tauto. }
    apply read_single_spec in Rc, R0, R1, Rc', Rce, Rww. rewrite E1 in Rc. rewrite E2 in R0. rewrite E3 in R1. cbn [st_nr numbered] in Rc', Rce, Rww.
    assert (Ec : clct' = clct).
    { apply (det_single chk powi fetch St ClctMod run (numbered n)); apply read_single_spec; assumption. }
    subst clct'. exists clct, p0, p1, ce, ww. auto 10.
  - intro N. destruct (Hv N) as (hhl & Rh & Hvc & Hvw). exists hhl. apply read_hhl_spec in Rh. split; [exact Rh|]. split.
    + intros N' n Wn. destruct (Js n Wn) as [J W]. destruct (Hvc N' _ J W) as (l & Rl & Re). unfold read_vertical_cloud in Rl. apply r_bind_ok in Rl. destruct Rl as (clc & Rc & Rl).
      symmetry in Rl. apply vertical_cloud_new_ok in Rl. subst l. apply read_levels_spec in Rc. exists clc. auto.
    + intros N' n Wn. destruct (Js n Wn) as [J W]. destruct (Hvw N' _ J W) as (l & Rl & Re). unfold read_vertical_wind in Rl. apply r_bind_ok in Rl. destruct Rl as (u & Ru & Rl).
      apply r_bind_ok in Rl. destruct Rl as (v & Rv & Rl). symmetry in Rl. apply vertical_wind_new_ok in Rl. subst l. apply read_levels_spec in Ru, Rv. exists u, v. auto.
Qed.

(** *** Success *)
Section Success.
  Variables (lost : err -> Prop) (chk : bool) (powi : f32 -> Z -> f32) (fetch : fetcher) (run : fc_run) (w h : Z) (e : extent).
  Definition fits {T} (g : value_grid T) : Prop := dims g = (w, h) /\ extent_of g = e /\ complete g.
  Lemma good_regular {T} f (missing : T) transform known (u : outcome string) : u = dwd_url run f -> good_file chk powi fetch lost run f missing transform w h e known ->
    gives lost (r_bind (r_of u) (fun url => fetch_regular chk powi fetch url missing transform)) (fun g => fits g /\ Forall known (vg_values g) /\ vg_missing g = missing).
  Proof.
    intros -> (url & E & H). eapply gives_bind; [eapply (gives_of _ _ url (eq url)); [exact E|reflexivity]|]. intros ? <-.
    unfold fetch_regular, fetch_doc. eapply gives_bind with (P := fun d => exists g, regular_create_and_transform powi d missing transform = Ok g /\ fits g /\ Forall known (vg_values g) /\ vg_missing g = missing).
    - eapply gives_bind; [exact H|]. intros bs [((d & rest) & E1 & g & E3 & D & Ex & C & K)|(er & E1 & Lo)].
      + eapply gives_of; [rewrite E1; reflexivity|]. exists g. split; [exact E3|]. split; [exact (conj D (conj Ex C))|]. split; [exact K|]. cbn [fst] in E3.
        unfold regular_create_and_transform in E3. destruct (calculate_data_points _ _ _ _) as [vs|?|]; try discriminate E3. cbn [obind] in E3.
        destruct (dimensions_and_extent d) as [[[w' h'] e']|?|]; try discriminate E3. injection E3 as <-. reflexivity.
      + eapply gives_lost; [rewrite E1; reflexivity|exact Lo].
    - intros d (g & E1 & Q). eapply gives_of; eassumption.
  Qed.
  Hypotheses (G : run_files chk powi fetch lost run w h e) (Hw : 0 <= w) (Hh : 0 <= h) (He : extent_eqb e e = true).
  Lemma good_single v s : 1 <= st_nr s <= last_step (run_model run) ->
    gives lost (read_single chk powi fetch v run s) (fun g => fits g /\ Forall (match v with Ww => known_code | _ => fun _ => True end) (vg_values g) /\ vg_missing g = f32_of_Z (-1)).
  Proof. intro B. destruct G as (G1 & _). exact (good_regular (SingleFile v (st_nr s)) _ _ _ (single_url v run s) eq_refl (G1 v (st_nr s) B)). Qed.
  Lemma fits_dims {S T} (a : value_grid S) (b : value_grid T) : fits a -> fits b -> dims_eqb a b = true.
  Proof. intros (D & _) (D' & _). unfold dims in *. injection D as D1 D2. injection D' as D1' D2'. unfold dims_eqb. rewrite D1, D2, D1', D2', !Z.eqb_refl. reflexivity. Qed.
  Lemma fits_extents {S T} (a : value_grid S) (b : value_grid T) : fits a -> fits b -> extents_eqb a b = true.
  Proof. intros (_ & D & _) (_ & D' & _). unfold extents_eqb, extent_of in *. rewrite D, D'. exact He. Qed.
  Definition fits_list (gs : list bgrid) : Prop :=
    Forall fits gs /\ length gs = length (range (fst (vertical_level_range (run_model run))) (snd (vertical_level_range (run_model run)))).
  Lemma levels_list (P : Z -> bgrid -> Prop) gs : (forall l g, P l g -> fits g) ->
    Forall2 P (range (fst (vertical_level_range (run_model run))) (snd (vertical_level_range (run_model run)))) gs -> fits_list gs.
  Proof.
    intros I F. split; [|clear I; symmetry; induction F; [reflexivity|cbn; now f_equal]].
    induction F as [|l g ls gs H F IH]; constructor; eauto.
  Qed.
  Lemma good_levels v s : 2 <= st_nr s <= last_step (run_model run) ->
    gives lost (read_levels chk powi fetch v (match v with Clc => CLC_MISSING | _ => U_V_MISSING end) (match v with Clc => clc_transform | _ => u_v_transform end) run s
      (vertical_level_range (run_model run))) fits_list.
  Proof.
    intro B. destruct G as (_ & G2 & _). eapply gives_impl; [|apply gives_collect with (P := fun _ g => fits g)]; [intros gs; apply levels_list; auto|].
    intros level J. apply TileProofs.in_range in J. rewrite <- first_level_range, <- last_level_range in J. eapply gives_impl; [|exact (good_regular (LevelFile v (st_nr s) level) _ _ _ (level_url v run s level) eq_refl (G2 v (st_nr s) level B J))].
    intros g H. exact (proj1 H).
  Qed.
  Lemma good_heights : gives lost (read_hhl chk powi fetch run (vertical_level_range (run_model run))) fits_list.
  Proof.
    destruct G as (_ & _ & G3). eapply gives_impl; [|apply gives_collect with (P := fun _ g => fits g)]; [intros gs; apply levels_list; auto|].
    intros level J. apply TileProofs.in_range in J. rewrite <- first_level_range, <- last_level_range in J. eapply gives_impl; [|exact (good_regular (HeightFile level) _ _ _ (hhl_url run level) eq_refl (G3 level J))].
    intros g H. exact (proj1 H).
  Qed.
  Lemma levels_some : (0 < length (range (fst (vertical_level_range (run_model run))) (snd (vertical_level_range (run_model run)))))%nat.
  Proof. destruct (run_model run); vm_compute; lia. Qed.
  Lemma fits_complete gs : fits_list gs -> Forall complete gs.
  Proof. intros [F _]. eapply Forall_impl; [|exact F]. intros g (_ & _ & C). exact C. Qed.
  Lemma fits_head gs : fits_list gs -> exists g, hd_error gs = Some g /\ dims g = (w, h).
  Proof.
    intros [F L]. pose proof levels_some as N. rewrite <- L in N. destruct gs as [|g gs]; cbn in N; [lia|]. exists g. split; [reflexivity|]. inversion F as [|? ? (D & _) _]. exact D.
  Qed.
  Lemma fits_len gs gs' : fits_list gs -> fits_list gs' -> len gs = len gs' /\ len gs <> 0.
  Proof. intros [_ L] [_ L']. pose proof levels_some. unfold len. rewrite L, L'. lia. Qed.
  Variables (m : libm) (A : tiles_addressable chk m run e).
  Lemma good_temp s : 1 <= st_nr s <= last_step (run_model run) -> gives lost (read_temp chk powi fetch run s) (computable chk m (temp_kind chk m) run).
  Proof.
    intro B. eapply gives_impl; [|exact (good_single T2m s B)]. intros g ((D & E & C) & _). apply (c46_temp_data_proof chk m run g w h); auto. unfold extent_of in E. now rewrite E.
  Qed.
  Lemma good_wind s : 1 <= st_nr s <= last_step (run_model run) -> gives lost (read_wind chk powi fetch run s) (computable chk m (wind_kind chk m) run).
  Proof.
    intro B. eapply gives_bind; [exact (good_single U10m s B)|]. intros u (Fu & _). eapply gives_bind; [exact (good_single V10m s B)|]. intros v (Fv & _).
    eapply gives_bind; [exact (good_single Vmax10m s B)|]. intros g (Fg & _). eapply gives_of.
    - unfold wind_new. rewrite (fits_dims u v), (fits_extents u v), (fits_dims g u), (fits_extents g u) by assumption. cbn [negb]. reflexivity.
    - apply (c46_wind_data_proof chk m run _ w h); cbn [wl_zonal wl_meridional wl_gusts]; auto; try apply Fu; try apply Fv.
      + destruct Fu as (_ & E & _). unfold extent_of in E. now rewrite E.
      + intros g' Eg. injection Eg as <-. apply Fg.
  Qed.
  Lemma codes_fine g clct ceiling : fits g -> Forall known_code (vg_values g) -> vg_missing g = f32_of_Z (-1) -> forall x y, 0 <= x < w -> 0 <= y < h ->
    ww_by_xy {| we_clct := clct; we_ceiling := ceiling; we_ww := Some g |} x y <> Panic.
  Proof.
    intros (D & _ & C) K Mi x y X Y. unfold ww_by_xy. cbn [we_ww]. unfold value_by_xy. change (carrier f32_type) with f32. destruct (index_by_xy (vg_grid g) x y) as [i|] eqn:Ei; [|cbn [obind]; intro Q; discriminate Q].
    assert (Bi : 0 <= i < Z.of_nat (length (vg_values g))).
    { unfold complete in C. rewrite D in C. cbn [fst snd] in C. unfold dims in D. injection D as Dw Dh. revert Ei. unfold index_by_xy. rewrite Dw, Dh.
      repeat match goal with |- context [if ?b then _ else _] => destruct b end; intro H; try discriminate H; injection H as <-; nia. }
    unfold index_vec in *. destruct (nth_error (vg_values g) (Z.to_nat i)) as [v|] eqn:En.
    2: { apply nth_error_None in En. lia. }
    cbn [omap obind]. rewrite Forall_forall in K. specialize (K v (nth_error_In _ _ En)). rewrite Mi.
    destruct (negb _) eqn:Q; [|intro Z; discriminate Z]. destruct K as [->|(c & Ec)]; [vm_compute in Q; discriminate Q|]. rewrite Ec. intro Z; discriminate Z.
  Qed.
  Lemma good_cloud s : In s (forecast_steps (run_model run)) -> gives lost (read_cloud_precip_weather chk powi fetch run s) (computable chk m (cloud_precip_kind chk m) run).
  Proof.
    intro J. pose proof (proj1 (step_in _ _) J) as [_ B]. assert (B1 : 1 <= st_nr s <= last_step (run_model run)) by lia.
    destruct (c48_difference_proof (run_model run) s J) as (s0 & s1 & L0 & E0 & L1 & E1).
    assert (Ls : exists s', step_by_nr (forecast_steps (run_model run)) (st_nr s) = Ok s' /\ st_nr s' = st_nr s).
    { pose proof (c48_lookup_proof (forecast_steps (run_model run)) (st_nr s)) as L. destruct (step_by_nr (forecast_steps (run_model run)) (st_nr s)) as [s'|?|]; [exists s'; split; [reflexivity|exact (proj1 L)]| |contradiction].
      exfalso. apply L. now apply in_map. }
    destruct Ls as (s' & Ls & Es).
    unfold read_cloud_precip_weather. eapply gives_bind with (P := fun cp => fits (cp_cloud cp) /\ fits (cp_precip0 cp) /\ fits (cp_precip1 cp)).
    - unfold read_cloud_precip. rewrite Ls. eapply gives_bind; [eapply (gives_of _ _ s' (eq s')); reflexivity|]. intros ? <-.
      eapply gives_bind; [eapply (gives_of _ _ (st_nr s - 1) (eq (st_nr s - 1))); [|reflexivity]; unfold usub; destruct (Z.leb_spec 1 (st_nr s)); [reflexivity|lia]|]. intros ? <-.
      rewrite L0, L1. eapply gives_bind; [eapply (gives_of _ _ s0 (eq s0)); reflexivity|]. intros ? <-. eapply gives_bind; [eapply (gives_of _ _ s1 (eq s1)); reflexivity|]. intros ? <-.
      eapply gives_bind; [apply (good_single ClctMod s'); rewrite Es; exact B1|]. intros c (Fc & _). eapply gives_bind; [apply (good_single TotPrec s0); rewrite E0; lia|]. intros p0 (F0 & _).
      eapply gives_bind; [apply (good_single TotPrec s1); rewrite E1; exact B1|]. intros p1 (F1 & _).
      eapply gives_of; [unfold cloud_precip_new; rewrite (fits_dims c p0), (fits_dims p0 p1), (fits_extents c p0), (fits_extents p0 p1) by assumption; reflexivity|]. cbn. auto.
    - intros cp (Fc & F0 & F1). eapply gives_bind with (P := fun we => exists g, fits (we_clct we) /\ fits (we_ceiling we) /\ we = {| we_clct := we_clct we; we_ceiling := we_ceiling we; we_ww := Some g |} /\
        fits g /\ Forall known_code (vg_values g) /\ vg_missing g = f32_of_Z (-1)).
      + unfold read_weather. eapply gives_bind; [exact (good_single ClctMod s B1)|]. intros c (Fc' & _). eapply gives_bind; [exact (good_single Ceiling s B1)|]. intros ce (Fce & _).
        eapply gives_bind; [exact (good_single Ww s B1)|]. intros ww (Fw & Kw & Mw).
        eapply gives_of; [unfold weather_new; rewrite (fits_dims c ce), (fits_extents c ce) by assumption; reflexivity|]. exists ww. cbn. auto 10.
      + intros we (g & Fw & Fce & Ew & Fg & Kg & Mg). eapply gives_of; [reflexivity|].
        apply (c46_cloud_precip_data_proof chk m run cp we w h) with (w' := w) (h' := h); try assumption; try (apply Fc || apply F0 || apply F1 || apply Fw || apply Fce).
        * destruct Fc as (_ & E & _). unfold extent_of in E. now rewrite E.
        * rewrite Ew. exact (codes_fine g _ _ Fg Kg Mg).
  Qed.
  Lemma good_vc s hhl : 2 <= st_nr s <= last_step (run_model run) -> fits_list hhl ->
    gives lost (read_vertical_cloud chk powi fetch run (vertical_level_range (run_model run)) hhl s) (computable chk m vertical_cloud_kind run).
  Proof.
    intros B Fh. eapply gives_bind; [exact (good_levels Clc s B)|]. intros clc Fc. destruct (fits_len hhl clc Fh Fc) as [E N]. destruct (fits_head clc Fc) as (g & Hg & Dg).
    assert (X : vertical_cloud_new hhl clc = Ok {| vc_hhl := hhl; vc_clc := clc |}).
    { unfold vertical_cloud_new. rewrite <- E, Z.eqb_refl. destruct (Z.eqb_spec (len hhl) 0); [contradiction|reflexivity]. }
    eapply gives_of; [exact X|]. apply (c46_vertical_cloud_data_proof chk m run hhl clc _ g w h X Hg Dg Hw Hh); now apply fits_complete.
  Qed.
  Lemma good_vw s hhl : 2 <= st_nr s <= last_step (run_model run) -> fits_list hhl ->
    gives lost (read_vertical_wind chk powi fetch run (vertical_level_range (run_model run)) hhl s) (computable chk m vertical_wind_kind run).
  Proof.
    intros B Fh. eapply gives_bind; [exact (good_levels UWind s B)|]. intros u Fu. eapply gives_bind; [exact (good_levels VWind s B)|]. intros v Fv.
    destruct (fits_len hhl u Fh Fu) as [E N]. destruct (fits_len hhl v Fh Fv) as [E' _]. destruct (fits_head u Fu) as (g & Hg & Dg).
    assert (X : vertical_wind_new hhl u v = Ok {| vw_hhl := hhl; vw_u := u; vw_v := v |}).
    { unfold vertical_wind_new. rewrite <- E, <- E', Z.eqb_refl. destruct (Z.eqb_spec (len hhl) 0); [contradiction|reflexivity]. }
    eapply gives_of; [exact X|]. apply (c46_vertical_wind_data_proof chk m run hhl u v _ g w h X Hg Dg Hw Hh); now apply fits_complete.
  Qed.
  Lemma run_live vars steps : valid_run run ->
    live lost (render_selected vars (dwd_cloud_precip chk powi fetch m false steps run) (dwd_wind chk powi fetch m false steps run) (dwd_temp chk powi fetch m false steps run)
      (read_hhl chk powi fetch run (vertical_level_range (run_model run)))
      (dwd_vertical_cloud chk powi fetch false steps (vertical_level_range (run_model run)) run)
      (dwd_vertical_wind chk powi fetch false steps (vertical_level_range (run_model run)) run)).
  Proof.
    intro V. destruct (kind_in chk m) as (K1 & K2 & K3 & K4 & K5). pose proof (steps_nonneg (run_model run)) as NN.
    assert (B1 : forall s, In s (forecast_steps (run_model run)) -> 1 <= st_nr s <= last_step (run_model run)) by (intros s J; apply step_in in J; lia).
    assert (B2 : forall s, In s (forecast_steps (run_model run)) -> 2 <= st_nr s <= last_step (run_model run)) by (intros s J; apply step_in in J; lia).
    apply selected_live.
    - intros _. apply (render_live lost chk m _ K1 run _ steps (read_cloud_precip_weather chk powi fetch run) V NN); [intros s J; exact (proj1 (good_cloud s J))|].
      intros s o J _ R. exact (proj2 (good_cloud s J) o R).
    - intros _. apply (render_live lost chk m _ K2 run _ steps (read_wind chk powi fetch run) V NN); [intros s J; exact (proj1 (good_wind s (B1 s J)))|].
      intros s o J _ R. exact (proj2 (good_wind s (B1 s J)) o R).
    - intros _. apply (render_live lost chk m _ K3 run _ steps (read_temp chk powi fetch run) V NN); [intros s J; exact (proj1 (good_temp s (B1 s J)))|].
      intros s o J _ R. exact (proj2 (good_temp s (B1 s J)) o R).
    - intros _. exact (proj1 good_heights).
    - intros _ o Ho. destruct (proj2 good_heights o Ho) as [(hhl & -> & Fh)|X]; [|now right]. left. exists hhl. split; [reflexivity|]. split; intros _.
      + apply (render_live lost chk m _ K4 run _ steps (read_vertical_cloud chk powi fetch run _ hhl) V NN); [intros s J; exact (proj1 (good_vc s hhl (B2 s J) Fh))|].
        intros s o J _ R. exact (proj2 (good_vc s hhl (B2 s J) Fh) o R).
      + apply (render_live lost chk m _ K5 run _ steps (read_vertical_wind chk powi fetch run _ hhl) V NN); [intros s J; exact (proj1 (good_vw s hhl (B2 s J) Fh))|].
        intros s o J _ R. exact (proj2 (good_vw s hhl (B2 s J) Fh) o R).
  Qed.
End Success.
Lemma c62_dwd_proof : forall lost chk powi fetch m head today today' model vars steps run w h e,
  dwd_model model -> valid_date today -> valid_date (prev_day today') -> find_latest_run head model today today' = Ok run ->
  run_files chk powi fetch lost run w h e -> 0 <= w -> 0 <= h -> extent_eqb e e = true -> tiles_addressable chk m run e ->
  (exists tr r, dwd_render_latest chk powi fetch m false head today today' model vars steps tr r) /\
  forall tr r, dwd_render_latest chk powi fetch m false head today today' model vars steps tr r -> r = Ok tt \/ exists er, r = Err er /\ lost er.
Proof.
  intros lost chk powi fetch m head today today' model vars steps run w h e M V V' F G Hw Hh He A. destruct (found_run _ _ _ _ _ M V V' F) as [VR _].
  unfold dwd_render_latest. rewrite F. cbn [p_let]. exact (run_live lost chk powi fetch run w h e G Hw Hh He m A vars steps VR).
Qed.
Lemma c59_succeeds_proof : forall chk powi fetch m head today today' model vars steps run w h e,
  dwd_model model -> valid_date today -> valid_date (prev_day today') -> find_latest_run head model today today' = Ok run ->
  good_run chk powi fetch run w h e -> 0 <= w -> 0 <= h -> extent_eqb e e = true -> tiles_addressable chk m run e ->
  (exists tr r, dwd_render_latest chk powi fetch m false head today today' model vars steps tr r) /\
  forall tr r, dwd_render_latest chk powi fetch m false head today today' model vars steps tr r -> r = Ok tt.
Proof.
  intros chk powi fetch m head today today' model vars steps run w h e M V V' F G Hw Hh He A.
  destruct (c62_dwd_proof (fun _ => False) chk powi fetch m head today today' model vars steps run w h e M V V' F G Hw Hh He A) as [T H].
  split; [exact T|]. intros tr r R. destruct (H tr r R) as [E|(er & _ & [])]. exact E.
Qed.
