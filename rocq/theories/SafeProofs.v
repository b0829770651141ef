(** Proofs about the contents of files that can end a call in a panic (C85). *)
From Coq Require Import String ZArith Reals List Bool Lia Lra.
From Flocq Require Import Core.Core.
From Verif Require Import Base F32 F32Facts Grib2Model Grib2Spec Grib2Proofs Grib2DocProofs GeoModel GeoSpec GeoProofs TileModel TileSpec ChartModel ChartSpec
  MetobinModel MetobinSpec MetobinProofs MercatorProofs Par ForecastModel ForecastSpec ForecastProofs FetchModel FetchSpec FetchProofs RenderProofs DwdModel DwdSpec DwdProofs MapSpec MapProofs
  FieldSpec FieldProofs ReqSpec ReqProofs SafeSpec.
Import ListNotations.
Open Scope Z_scope.

(** ** Totality of the reading *)
Lemma tot_of {A} (o : outcome A) : exists r, r_of o r.
Proof. exists o. reflexivity. Qed.
Lemma tot_bind {A B} (p : result A) (q : A -> result B) : (exists o, p o) -> (forall a, exists o, q a o) -> exists o, r_bind p q o.
Proof. intros ([a|e|] & P) Q; [destruct (Q a) as (o & Qo); exists o, (Ok a); auto|exists (Err e), (Err e); auto|exists Panic, Panic; auto]. Qed.
Lemma tot_collect {A B} (f : A -> result B) l : (forall x, exists o, f x o) -> exists o, r_collect f l o.
Proof.
  intro H. induction l as [|x l ([ys|e|] & IH)]; [exists (Ok []); constructor| | |].
  - destruct (H x) as ([y|e|] & F); [exists (Ok (y :: ys)); constructor; assumption|exists (Err e), x; split; [now left|exact F]|exists Panic, x; split; [now left|exact F]].
  - destruct IH as (x' & J & F). exists (Err e), x'. split; [now right|exact F].
  - destruct IH as (x' & J & F). exists Panic, x'. split; [now right|exact F].
Qed.
Ltac tot := repeat match goal with
  | |- exists o, r_of _ o => apply tot_of
  | |- exists o, r_collect _ _ o => apply tot_collect; intro
  | |- exists o, r_bind _ _ o => apply tot_bind; [|intro]
  end.

Section Service.
  Variables (chk : bool) (powi : f32 -> Z -> f32) (fetch : fetcher) (T : forall url, exists o, fetch url o).
  Lemma tot_regular {A} url (missing : A) transform : exists o, fetch_regular chk powi fetch url missing transform o.
  Proof. unfold fetch_regular, fetch_doc. tot. apply T. Qed.
  Lemma tot_single v run s : exists o, read_single chk powi fetch v run s o.
  Proof. unfold read_single. tot. apply tot_regular. Qed.
  Lemma tot_levels v missing transform run s levels : exists o, read_levels chk powi fetch v missing transform run s levels o.
  Proof. unfold read_levels. tot. apply tot_regular. Qed.
  Lemma tot_hhl run levels : exists o, read_hhl chk powi fetch run levels o.
  Proof. unfold read_hhl. tot. apply tot_regular. Qed.
  Lemma tot_wind run s : exists o, read_wind chk powi fetch run s o.
  Proof. unfold read_wind. tot; apply tot_single. Qed.
  Lemma tot_cloud run s : exists o, read_cloud_precip_weather chk powi fetch run s o.
  Proof. unfold read_cloud_precip_weather, read_cloud_precip, read_weather. tot; apply tot_single. Qed.
  Lemma tot_vc run levels hhl s : exists o, read_vertical_cloud chk powi fetch run levels hhl s o.
  Proof. unfold read_vertical_cloud, read_clc. tot; apply tot_levels. Qed.
  Lemma tot_vw run levels hhl s : exists o, read_vertical_wind chk powi fetch run levels hhl s o.
  Proof. unfold read_vertical_wind, read_u, read_v. tot; apply tot_levels. Qed.
End Service.

(** ** Grids of safe files *)
Definition any (e : err) : Prop := True.
Definition from_points {T} (powi : f32 -> Z -> f32) (w : wire) (missing : T) transform (g : value_grid T) : Prop :=
  forall r e d b f k v, w5_tpl (w_5 w) = W5_0 r e d b f -> nth_error (vg_values g) k = Some v -> (k < Z.to_nat (w3_points (w_3 w)))%nat /\ point_value powi w r e d missing transform k v.
Definition fine {T} (powi : f32 -> Z -> f32) (f : dwd_file) (missing : T) transform (g : value_grid T) : Prop :=
  0 <= fst (dims g) /\ 0 <= snd (dims g) /\ complete g /\ vg_missing g = missing /\ (drawn f = true -> on_map (extent_of g)) /\
  exists w r e d b fi, w5_tpl (w_5 w) = W5_0 r e d b fi /\ safe_message powi f w /\ from_points powi w missing transform g /\
    exists t, w3_tpl (w_3 w) = W3_0 t /\ dims g = (w30_ni t, w30_nj t).

Lemma safe_grid {T} chk powi f w (missing : T) transform : wf_message chk w -> safe_message powi f w ->
  ends_in any (fine powi f missing transform) (regular_create_and_transform powi (message_meaning w) missing transform).
Proof.
  intros W S. pose proof S as S'. unfold safe_message in S. destruct (w5_tpl (w_5 w)) as [r e d b fi|n sk] eqn:E5.
  2:{ right. exists EInvalid. split; [|exact I]. unfold regular_create_and_transform, calculate_data_points, message_meaning. cbn [d_s5 meaning5 s5_template]. rewrite E5. reflexivity. }
  destruct S as [D S]. destruct (points_read chk powi w r e d b fi missing transform W E5) as [P P']. destruct (P D) as [vs V].
  destruct (w3_tpl (w_3 w)) as [t|u] eqn:E3.
  2:{ right. exists EInvalid. split; [|exact I]. unfold regular_create_and_transform. rewrite V. cbn [obind].
      unfold dimensions_and_extent, message_meaning. cbn [d_s3 meaning3 s3_template]. rewrite E3. reflexivity. }
  destruct S as (N & (F1 & F2 & F3 & F4 & O1 & O2 & M) & C). destruct (wf_angles chk w t W E3) as (Bi & Bj & A1 & A2 & A3 & A4 & Bp).
  left. unfold regular_create_and_transform. rewrite V. cbn [obind]. rewrite (regular_extent chk w t W E3).
  destruct (extent_new_spec (lat_lon_new (angle (w30_lat1 t)) (angle (w30_lon1 t))) (lat_lon_new (angle (w30_lat2 t)) (angle (w30_lon2 t)))) as [X _].
  { split; apply normalize_spec; apply angle_fin; assumption. }
  { split; apply normalize_spec; apply angle_fin; assumption. }
  assert (Ola := normalized_ordered _ _ F1 F3 O1). assert (Olo := normalized_ordered _ _ F2 F4 O2).
  rewrite X by (split; assumption). eexists. split; [reflexivity|]. destruct (P' vs V) as [L Pk].
  unfold fine, dims, complete, extent_of. cbn [vg_grid value_grid_new grid_new g_w g_h g_extent vg_missing vg_values fst snd].
  split; [lia|]. split; [lia|]. split; [unfold dims; cbn [vg_grid value_grid_new grid_new g_w g_h vg_values fst snd]; rewrite L; lia|]. split; [reflexivity|]. split.
  - intro Dr. destruct (M Dr) as [M1 M2]. unfold on_map, fin_extent, fin_coord. cbn [min_coord max_coord lat_lon_new lat lon].
    destruct (normalize_spec _ (angle_fin _ A1)) as (G1 & B1 & _). destruct (normalize_spec _ (angle_fin _ A2)) as (G2 & B2 & _).
    destruct (normalize_spec _ (angle_fin _ A3)) as (G3 & B3 & _). destruct (normalize_spec _ (angle_fin _ A4)) as (G4 & B4 & _).
    pose proof (normalized_error _ F1) as R1. pose proof (normalized_error _ F3) as R3. apply Rabs_le_inv in R1, R3. apply IZR_le in M1, M2.
    split; [split; split; assumption|]. cbn [lat_lon_new lat lon] in Ola, Olo. lra.
  - exists w, r, e, d, b, fi. split; [exact E5|]. split; [exact S'|]. split; [|exists t; split; [exact E3|reflexivity]].
    intros r' e' d' b' fi' k v E5' K. rewrite E5 in E5'. injection E5' as <- <- <- <- <-. cbn [vg_values value_grid_new] in K. split; [|exact (Pk k v K)].
    rewrite <- L. apply nth_error_Some. congruence.
Qed.
Lemma safe_codes powi f we g : fine powi f (f32_of_Z (-1)) (fun x => x) g -> coded f = true -> we_ww we = Some g ->
  forall x y, 0 <= x -> 0 <= y -> ww_by_xy we x y <> Panic.
Proof.
  intros (Hw & Hh & C & Mi & _ & w & r & e & d & b & fi & E5 & S & Pt & t & E3 & Dg) Cd E x y X Y. unfold ww_by_xy. rewrite E. unfold value_by_xy. change (carrier f32_type) with f32.
  destruct (index_by_xy (vg_grid g) x y) as [i|] eqn:Ei; [|cbn [obind]; discriminate].
  assert (Bt : 0 <= i < w30_ni t * w30_nj t).
  { revert Ei. unfold index_by_xy. unfold dims in *. cbn [fst snd] in *. injection Dg as <- <-.
    destruct (Z.leb_spec (g_w (vg_grid g)) x); [discriminate|]. destruct (Z.leb_spec (g_h (vg_grid g)) y); [discriminate|]. intro H1. injection H1 as <-. nia. }
  assert (Bi : 0 <= i < Z.of_nat (length (vg_values g))) by (unfold complete in C; rewrite Dg in C; cbn [fst snd] in C; lia).
  unfold index_vec in *. destruct (nth_error (vg_values g) (Z.to_nat i)) as [v|] eqn:En; [|apply nth_error_None in En; lia].
  cbn [omap obind]. rewrite Mi. destruct (negb _) eqn:Q; [|discriminate].
  destruct (Pt r e d b fi _ _ E5 En) as [Bk Pv]. unfold safe_message in S. rewrite E5, E3 in S. destruct S as (_ & _ & _ & K). assert (Bn : (Z.to_nat i < Z.to_nat (w30_ni t * w30_nj t))%nat) by lia. specialize (K Cd _ v Bn).
  assert (Pn : point_value powi w r e d None Some (Z.to_nat i) (Some v)).
  { unfold point_value in *. destruct (has_value _ _ && _).
    - destruct Pv as (p & Ep & ->). exists p. auto.
    - subst v. vm_compute in Q. discriminate Q. }
  specialize (K Pn). cbn [v_eqb f32_type] in Q. destruct K as [K|K]; [rewrite K in Q; discriminate Q|].
  destruct (c45_domain_proof (f_to_u8 v)) as [(_ & c & Ec)|[NK _]]; [|contradiction]. rewrite Ec. discriminate.
Qed.

(** ** The files of a run *)
Section Run.
  Variables (chk : bool) (powi : f32 -> Z -> f32) (fetch : fetcher) (variables : list string) (steps : list Z) (run : fc_run).
  Hypotheses (V : valid_run run) (Md : dwd_model (run_model run)) (Sv : safe_service chk powi fetch variables steps run).
  Notation files := (dwd_files variables steps run).
  Lemma safe_regular {T} f (missing : T) transform (u : outcome string) : In f files -> u = dwd_url run f ->
    gives any (r_bind (r_of u) (fun url => fetch_regular chk powi fetch url missing transform)) (fine powi f missing transform).
  Proof.
    intros J ->. destruct Sv as [Tt Sf]. pose proof (files_ok variables steps run) as Ok_. rewrite Forall_forall in Ok_. specialize (Ok_ f J).
    destruct (proj1 (c49_total_proof run f) Md) as (url & Eu).
    pose proof (proj1 (c49_layout_proof run f url V Ok_) Eu) as Lu.
    eapply gives_bind; [eapply (gives_of _ _ url (eq url)); [exact Eu|reflexivity]|]. intros ? <-.
    unfold fetch_regular, fetch_doc. eapply gives_bind with (P := fun d => exists w, wf_message chk w /\ safe_message powi f w /\ d = message_meaning w).
    - eapply gives_bind with (P := fun bs => safe_answer chk powi f (Ok bs)).
      + split; [apply Tt|]. intros o Ho. pose proof (Sf f url o J Lu Ho) as S. pose proof S as S'. destruct S' as [(e & ->)|(bs & -> & _)]; [right; exists e; split; [reflexivity|exact I]|left; eauto].
      + intros bs [(e & X)|(bs' & E & B & N & Sm)]; [discriminate X|]. injection E as <-. destruct (read_single_doc chk bs) as [[d rest]|e|] eqn:R.
        * destruct Sm as [Sm|(w & rest' & W & Eb & Sm)].
          { destruct (c04_accepted_is_message_proof chk bs d rest B R) as (w & W & Eb & _). destruct (Sm w rest W Eb). }
          subst bs. rewrite (read_single_doc_bwd chk w rest' W) in R. injection R as <- <-. eapply gives_of; [reflexivity|]. exists w. auto.
        * eapply gives_lost; [reflexivity|exact I].
        * exfalso. exact (N (proj1 (single_doc_panic chk bs B) R)).
    - intros d (w & W & S & ->). destruct (safe_grid chk powi f w missing transform W S) as [(g & E & F)|(e & E & L)]; [eapply gives_of; eassumption|eapply gives_lost; eassumption].
  Qed.
  Lemma safe_single v s : In (SingleFile v (st_nr s)) files -> gives any (read_single chk powi fetch v run s) (fine powi (SingleFile v (st_nr s)) (f32_of_Z (-1)) (fun x => x)).
  Proof. intro J. exact (safe_regular (SingleFile v (st_nr s)) _ _ (single_url v run s) J eq_refl). Qed.
  Lemma of_layer t f : named variables t -> In f (layer_files steps run t) -> In f files.
  Proof.
    intros N J. apply selected_spec in N. rewrite <- named_same in N. unfold dwd_files. rewrite !in_app_iff. destruct t; rewrite ?N; cbn [only_if layer_files] in *; auto 10.
    destruct J.
  Qed.
  Lemma of_heights level : named variables VerticalCloud \/ named variables VerticalWind -> In level (run_levels run) -> In (HeightFile level) files.
  Proof.
    intros N J. assert (E : is_named variables VerticalCloud || is_named variables VerticalWind = true).
    { rewrite !named_same. apply orb_true_iff. destruct N as [N|N]; apply selected_spec in N; auto. }
    unfold dwd_files. rewrite !in_app_iff. rewrite E. cbn [only_if]. do 3 right. left. now apply in_map.
  Qed.
  Lemma in_steps s : In s (forecast_steps (run_model run)) -> wanted steps s -> In (st_nr s) (run_steps steps run).
  Proof.
    intros J W. apply step_in in J. destruct J as [_ B]. unfold run_steps. apply filter_In. split; [apply TileProofs.in_range; lia|].
    unfold is_wanted. destruct steps as [|a l] eqn:E; [reflexivity|]. destruct W as [W|W]; [discriminate W|]. apply existsb_exists. exists (st_nr s). split; [exact W|apply Z.eqb_refl].
  Qed.
  Definition all_fine {T} (f : Z -> dwd_file) (missing : T) transform (gs : list (value_grid T)) : Prop :=
    Forall2 (fun level g => fine powi (f level) missing transform g) (run_levels run) gs.
  Lemma levels_eq : range (fst (vertical_level_range (run_model run))) (snd (vertical_level_range (run_model run))) = run_levels run.
  Proof. unfold run_levels. rewrite first_level_range, last_level_range. reflexivity. Qed.
  Lemma safe_levels v missing transform s : (forall level, In level (run_levels run) -> In (LevelFile v (st_nr s) level) files) ->
    gives any (read_levels chk powi fetch v missing transform run s (vertical_level_range (run_model run))) (all_fine (LevelFile v (st_nr s)) missing transform).
  Proof.
    intro J. unfold read_levels. rewrite levels_eq. apply gives_collect. intros level L. exact (safe_regular (LevelFile v (st_nr s) level) _ _ (level_url v run s level) (J level L) eq_refl).
  Qed.
  Lemma safe_heights : named variables VerticalCloud \/ named variables VerticalWind ->
    gives any (read_hhl chk powi fetch run (vertical_level_range (run_model run))) (all_fine HeightFile HHL_MISSING hhl_transform).
  Proof.
    intro N. unfold read_hhl. rewrite levels_eq. apply gives_collect. intros level L. exact (safe_regular (HeightFile level) _ _ (hhl_url run level) (of_heights level N L) eq_refl).
  Qed.
  Lemma fine_length {T} f (missing : T) transform gs : all_fine f missing transform gs -> length gs = length (run_levels run).
  Proof. intro F. symmetry. induction F; [reflexivity|cbn; now f_equal]. Qed.
  Lemma fine_complete {T} f (missing : T) transform gs : all_fine f missing transform gs -> Forall complete gs.
  Proof. intro F. unfold all_fine in F. induction F as [|l g ls gs (_ & _ & C & _) F IH]; constructor; assumption. Qed.
  Lemma fine_head {T} f (missing : T) transform gs : all_fine f missing transform gs -> exists g, hd_error gs = Some g /\ 0 <= fst (dims g) /\ 0 <= snd (dims g).
  Proof.
    intro F. pose proof (levels_some run) as N. rewrite levels_eq in N. unfold all_fine in F. destruct F as [|l g ls gs (A & B & _) F]; [cbn in N; lia|]. exists g. auto.
  Qed.
  Lemma run_some : (0 < length (run_levels run))%nat.
  Proof. pose proof (levels_some run) as N. rewrite levels_eq in N. exact N. Qed.

  Variables (m : libm) (A : libm_accurate m).
  Lemma fine_addressable f (missing : f32) transform g : fine powi f missing transform g -> drawn f = true -> tiles_addressable chk m run (g_extent (vg_grid g)).
  Proof. intros (_ & _ & _ & _ & O & _) D. apply c64_addressable_proof; [exact A|]. exact (O D). Qed.
  Lemma pair_dims {T} (g : value_grid T) : dims g = (fst (dims g), snd (dims g)).
  Proof. destruct (dims g). reflexivity. Qed.
  Lemma safe_temp s : named variables Temp2m -> In s (forecast_steps (run_model run)) -> wanted steps s ->
    gives any (read_temp chk powi fetch run s) (computable chk m (temp_kind chk m) run).
  Proof.
    intros N J W. pose proof (in_steps s J W) as Js. unfold read_temp. eapply gives_impl; [|apply safe_single; apply (of_layer Temp2m _ N); cbn [layer_files]; now apply in_map].
    intros g F. pose proof F as (Hw & Hh & C & _). apply (c46_temp_data_proof chk m run g _ _ (fine_addressable _ _ _ _ F eq_refl) (pair_dims g) Hw Hh C).
  Qed.
  Lemma safe_wind s : named variables Wind10m -> In s (forecast_steps (run_model run)) -> wanted steps s ->
    gives any (read_wind chk powi fetch run s) (computable chk m (wind_kind chk m) run).
  Proof.
    intros N J W. pose proof (in_steps s J W) as Js. assert (I1 : forall v, In v [U10m; V10m; Vmax10m] -> In (SingleFile v (st_nr s)) files).
    { intros v Jv. apply (of_layer Wind10m _ N). cbn [layer_files]. rewrite !in_app_iff. destruct Jv as [<-|[<-|[<-|[]]]]; [left|right; left|right; right]; now apply in_map. }
    unfold read_wind. eapply gives_bind; [apply safe_single; apply I1; cbn; auto|]. intros u Fu. eapply gives_bind; [apply safe_single; apply I1; cbn; auto|]. intros v Fv.
    eapply gives_bind; [apply safe_single; apply I1; cbn; auto|]. intros g Fg.
    assert (E : wind_new u v (Some g) = Ok {| wl_zonal := u; wl_meridional := v; wl_gusts := Some g |} \/ wind_new u v (Some g) = Err EInvalid).
    { unfold wind_new. repeat match goal with |- context [if ?b then _ else _] => destruct b end; auto. }
    destruct E as [E|E]; [|eapply gives_lost; [exact E|exact I]]. eapply gives_of; [exact E|].
    destruct Fv as (_ & _ & Cv & _). destruct Fg as (_ & _ & Cg & _). pose proof Fu as (Hw & Hh & Cu & _).
    apply (c46_wind_data_proof chk m run _ (fst (dims u)) (snd (dims u))); cbn [wl_zonal wl_meridional wl_gusts]; try assumption.
    - exact (fine_addressable _ _ _ _ Fu eq_refl).
    - apply pair_dims.
    - intros g' Eg. injection Eg as <-. exact Cg.
  Qed.
  Lemma safe_cloud s : named variables CloudPrecip -> In s (forecast_steps (run_model run)) -> wanted steps s ->
    gives any (read_cloud_precip_weather chk powi fetch run s) (computable chk m (cloud_precip_kind chk m) run).
  Proof.
    intros N J W. pose proof (in_steps s J W) as Js. pose proof (proj1 (step_in _ _) J) as [_ B].
    assert (I1 : forall v, In v [ClctMod; TotPrec; Ceiling; Ww] -> In (SingleFile v (st_nr s)) files).
    { intros v Jv. apply (of_layer CloudPrecip _ N). cbn [layer_files]. rewrite !in_app_iff. destruct Jv as [<-|[<-|[<-|[<-|[]]]]]; [left|do 3 right; left|do 4 right; left|do 5 right]; now apply in_map. }
    assert (I0 : In (SingleFile TotPrec (st_nr s - 1)) files).
    { apply (of_layer CloudPrecip _ N). cbn [layer_files]. rewrite !in_app_iff. do 2 right. left. apply in_map_iff. exists (st_nr s). auto. }
    destruct (c48_difference_proof (run_model run) s J) as (s0 & s1 & L0 & E0 & L1 & E1).
    assert (Ls : exists s', step_by_nr (forecast_steps (run_model run)) (st_nr s) = Ok s' /\ st_nr s' = st_nr s).
    { pose proof (c48_lookup_proof (forecast_steps (run_model run)) (st_nr s)) as L. destruct (step_by_nr (forecast_steps (run_model run)) (st_nr s)) as [s'|?|]; [exists s'; split; [reflexivity|exact (proj1 L)]| |contradiction].
      exfalso. apply L. now apply in_map. }
    destruct Ls as (s' & Ls & Es). rewrite <- E0 in I0.
    unfold read_cloud_precip_weather. eapply gives_bind with (P := fun cp => tiles_addressable chk m run (g_extent (vg_grid (cp_cloud cp))) /\ 0 <= fst (dims (cp_cloud cp)) /\ 0 <= snd (dims (cp_cloud cp)) /\
      complete (cp_cloud cp) /\ complete (cp_precip0 cp) /\ complete (cp_precip1 cp)).
    - unfold read_cloud_precip. rewrite Ls. eapply gives_bind; [eapply (gives_of _ _ s' (eq s')); reflexivity|]. intros ? <-.
      eapply gives_bind; [eapply (gives_of _ _ (st_nr s - 1) (eq (st_nr s - 1))); [|reflexivity]; unfold usub; destruct (Z.leb_spec 1 (st_nr s)); [reflexivity|lia]|]. intros ? <-.
      rewrite L0, L1. eapply gives_bind; [eapply (gives_of _ _ s0 (eq s0)); reflexivity|]. intros ? <-. eapply gives_bind; [eapply (gives_of _ _ s1 (eq s1)); reflexivity|]. intros ? <-.
      eapply gives_bind; [apply (safe_single ClctMod s'); rewrite Es; apply I1; cbn; auto|]. intros c Fc. eapply gives_bind; [apply (safe_single TotPrec s0); exact I0|]. intros p0 (_ & _ & C0 & _).
      eapply gives_bind; [apply (safe_single TotPrec s1); rewrite E1; apply I1; cbn; auto|]. intros p1 (_ & _ & C1 & _).
      assert (E : cloud_precip_new c p0 p1 = Ok {| cp_cloud := c; cp_precip0 := p0; cp_precip1 := p1 |} \/ cloud_precip_new c p0 p1 = Err EInvalid).
      { unfold cloud_precip_new. repeat match goal with |- context [if ?b then _ else _] => destruct b end; auto. }
      destruct E as [E|E]; [|eapply gives_lost; [exact E|exact I]]. eapply gives_of; [exact E|]. cbn [cp_cloud cp_precip0 cp_precip1]. pose proof Fc as (Hw & Hh & Cc & _).
      split; [exact (fine_addressable _ _ _ _ Fc eq_refl)|]. auto.
    - intros cp (Ac & Hw & Hh & C0 & C1 & C2). eapply gives_bind with (P := fun we => 0 <= fst (dims (we_clct we)) /\ 0 <= snd (dims (we_clct we)) /\ complete (we_clct we) /\ complete (we_ceiling we) /\
        forall x y, 0 <= x -> 0 <= y -> ww_by_xy we x y <> Panic).
      + unfold read_weather. eapply gives_bind; [apply (safe_single ClctMod s); apply I1; cbn; auto|]. intros c (Hw' & Hh' & Cc & _). eapply gives_bind; [apply (safe_single Ceiling s); apply I1; cbn; auto|]. intros ce (_ & _ & Cce & _).
        eapply gives_bind; [apply (safe_single Ww s); apply I1; cbn; auto|]. intros ww Fw.
        assert (E : weather_new c ce (Some ww) = Ok {| we_clct := c; we_ceiling := ce; we_ww := Some ww |} \/ weather_new c ce (Some ww) = Err EInvalid).
        { unfold weather_new. repeat match goal with |- context [if ?b then _ else _] => destruct b end; auto. }
        destruct E as [E|E]; [|eapply gives_lost; [exact E|exact I]]. eapply gives_of; [exact E|]. cbn [we_clct we_ceiling]. repeat (split; [assumption|]).
        apply (safe_codes powi _ {| we_clct := c; we_ceiling := ce; we_ww := Some ww |} _ Fw eq_refl eq_refl).
      + intros we (Hw' & Hh' & C3 & C4 & K). eapply gives_of; [reflexivity|].
        apply (c46_cloud_precip_data_proof chk m run cp we _ _ Ac (pair_dims _) Hw Hh C0 C1 C2 _ _ (pair_dims _) Hw' Hh' C3 C4).
        intros x y X Y. apply K; lia.
  Qed.
  Lemma safe_vc s hhl : named variables VerticalCloud -> In s (forecast_steps (run_model run)) -> wanted steps s -> all_fine HeightFile HHL_MISSING hhl_transform hhl ->
    gives any (read_vertical_cloud chk powi fetch run (vertical_level_range (run_model run)) hhl s) (computable chk m vertical_cloud_kind run).
  Proof.
    intros N J W Fh. pose proof (in_steps s J W) as Js. unfold read_vertical_cloud, read_clc. eapply gives_bind.
    { apply safe_levels. intros level L. apply (of_layer VerticalCloud _ N). cbn [layer_files]. apply in_flat_map. exists (st_nr s). split; [exact Js|]. now apply in_map. }
    intros clc Fc. pose proof (fine_length _ _ _ _ Fh) as L1. pose proof (fine_length _ _ _ _ Fc) as L2. pose proof run_some as R. destruct (fine_head _ _ _ _ Fc) as (g & Hg & Hw & Hh).
    assert (X : vertical_cloud_new hhl clc = Ok {| vc_hhl := hhl; vc_clc := clc |}).
    { unfold vertical_cloud_new, len. unfold bgrid in *. rewrite L1, L2, Z.eqb_refl. destruct (Z.eqb_spec (Z.of_nat (length (run_levels run))) 0); [lia|reflexivity]. }
    eapply gives_of; [exact X|]. apply (c46_vertical_cloud_data_proof chk m run hhl clc _ g _ _ X Hg (pair_dims g) Hw Hh (fine_complete _ _ _ _ Fh) (fine_complete _ _ _ _ Fc)).
  Qed.
  Lemma safe_vw s hhl : named variables VerticalWind -> In s (forecast_steps (run_model run)) -> wanted steps s -> all_fine HeightFile HHL_MISSING hhl_transform hhl ->
    gives any (read_vertical_wind chk powi fetch run (vertical_level_range (run_model run)) hhl s) (computable chk m vertical_wind_kind run).
  Proof.
    intros N J W Fh. pose proof (in_steps s J W) as Js. unfold read_vertical_wind, read_u, read_v. eapply gives_bind.
    { apply safe_levels. intros level L. apply (of_layer VerticalWind _ N). cbn [layer_files]. apply in_app_iff. left. apply in_flat_map. exists (st_nr s). split; [exact Js|]. now apply in_map. }
    intros u Fu. eapply gives_bind.
    { apply safe_levels. intros level L. apply (of_layer VerticalWind _ N). cbn [layer_files]. apply in_app_iff. right. apply in_flat_map. exists (st_nr s). split; [exact Js|]. now apply in_map. }
    intros v Fv. pose proof (fine_length _ _ _ _ Fh) as L1. pose proof (fine_length _ _ _ _ Fu) as L2. pose proof (fine_length _ _ _ _ Fv) as L3. pose proof run_some as R. destruct (fine_head _ _ _ _ Fu) as (g & Hg & Hw & Hh).
    assert (X : vertical_wind_new hhl u v = Ok {| vw_hhl := hhl; vw_u := u; vw_v := v |}).
    { unfold vertical_wind_new, len. unfold bgrid in *. rewrite L1, L2, L3, Z.eqb_refl. destruct (Z.eqb_spec (Z.of_nat (length (run_levels run))) 0); [lia|reflexivity]. }
    eapply gives_of; [exact X|]. apply (c46_vertical_wind_data_proof chk m run hhl u v _ g _ _ X Hg (pair_dims g) Hw Hh (fine_complete _ _ _ _ Fh) (fine_complete _ _ _ _ Fu) (fine_complete _ _ _ _ Fv)).
  Qed.
  Lemma safe_live : live any (render_selected variables (dwd_cloud_precip chk powi fetch m false steps run) (dwd_wind chk powi fetch m false steps run) (dwd_temp chk powi fetch m false steps run)
      (read_hhl chk powi fetch run (vertical_level_range (run_model run)))
      (dwd_vertical_cloud chk powi fetch false steps (vertical_level_range (run_model run)) run)
      (dwd_vertical_wind chk powi fetch false steps (vertical_level_range (run_model run)) run)).
  Proof.
    destruct (kind_in chk m) as (K1 & K2 & K3 & K4 & K5). pose proof (steps_nonneg (run_model run)) as NN. pose proof (proj1 Sv) as T.
    apply selected_live.
    - intro N. apply (render_live any chk m _ K1 run _ steps (read_cloud_precip_weather chk powi fetch run) V NN); [intros s J; apply (tot_cloud chk powi fetch T)|].
      intros s o J W R. exact (proj2 (safe_cloud s N J W) o R).
    - intro N. apply (render_live any chk m _ K2 run _ steps (read_wind chk powi fetch run) V NN); [intros s J; apply (tot_wind chk powi fetch T)|].
      intros s o J W R. exact (proj2 (safe_wind s N J W) o R).
    - intro N. apply (render_live any chk m _ K3 run _ steps (read_temp chk powi fetch run) V NN); [intros s J; apply (tot_single chk powi fetch T)|].
      intros s o J W R. exact (proj2 (safe_temp s N J W) o R).
    - intros _. apply (tot_hhl chk powi fetch T).
    - intros N o Ho. destruct (proj2 (safe_heights N) o Ho) as [(hhl & -> & Fh)|X]; [|now right]. left. exists hhl. split; [reflexivity|]. split; intro N'.
      + apply (render_live any chk m _ K4 run _ steps (read_vertical_cloud chk powi fetch run _ hhl) V NN); [intros s J; apply (tot_vc chk powi fetch T)|].
        intros s o J W R. exact (proj2 (safe_vc s hhl N' J W Fh) o R).
      + apply (render_live any chk m _ K5 run _ steps (read_vertical_wind chk powi fetch run _ hhl) V NN); [intros s J; apply (tot_vw chk powi fetch T)|].
        intros s o J W R. exact (proj2 (safe_vw s hhl N' J W Fh) o R).
  Qed.
End Run.

Lemma c85_dwd_proof : forall chk powi fetch m head today today' model variables steps run,
  libm_accurate m -> dwd_model model -> valid_date today -> valid_date (prev_day today') -> find_latest_run head model today today' = Ok run ->
  safe_service chk powi fetch variables steps run ->
  (exists tr r, dwd_render_latest chk powi fetch m false head today today' model variables steps tr r) /\
  forall tr r, dwd_render_latest chk powi fetch m false head today today' model variables steps tr r -> r <> Panic.
Proof.
  intros chk powi fetch m head today today' model variables steps run A M Vd Vd' F S. destruct (found_run _ _ _ _ _ M Vd Vd' F) as [VR Md].
  unfold dwd_render_latest. rewrite F. cbn [p_let]. destruct (safe_live chk powi fetch variables steps run VR Md S m A) as [T L]. split; [exact T|].
  intros tr r R. destruct (L tr r R) as [->|(e & -> & _)]; discriminate.
Qed.

(** ** The contents that are left out *)
Lemma short_data {T} chk powi w r e d b f (missing : T) transform : wf_message chk w -> w5_tpl (w_5 w) = W5_0 r e d b f -> w7_data (w_7 w) <> [] -> ~ enough_data w ->
  calculate_data_points powi (message_meaning w) missing transform = Panic.
Proof.
  intros W E5 N X. set (doc := message_meaning w).
  assert (S5 : s5_template (d_s5 doc) = SimplePacking {| t50_reference := f32_of_bits r; t50_e := sign_magnitude16 e; t50_d := sign_magnitude16 d; t50_bits := b;
    t50_field_type := lookup field_type_table FUnknown f |}).
  { unfold doc, message_meaning. cbn [d_s5 s5_template meaning5]. rewrite E5. reflexivity. }
  exact (proj2 (c07_data_points_proof T powi doc missing transform _ S5 (wf_bitmap chk w W) N) X).
Qed.
Lemma points_cases {T} chk powi w r e d b f (missing : T) transform : wf_message chk w -> w5_tpl (w_5 w) = W5_0 r e d b f ->
  (exists vs, calculate_data_points powi (message_meaning w) missing transform = Ok vs) \/ calculate_data_points powi (message_meaning w) missing transform = Panic.
Proof.
  intros W E5. destruct (points_read chk powi w r e d b f missing transform W E5) as [P _].
  destruct (w7_data (w_7 w)) as [|x l] eqn:D; [left; apply P; now left|]. assert (N : w7_data (w_7 w) <> []) by congruence.
  assert (Dec : enough_data w \/ ~ enough_data w).
  { unfold enough_data. cbv zeta. destruct (le_lt_dec (rank (w6_bitmap (w_6 w)) (Z.to_nat (w3_points (w_3 w)))) (length (w7_data (w_7 w)))); [|right; intros [_ ?]; lia].
    destruct (w6_bitmap (w_6 w)) as [|b0 bm]; [left; auto|]. destruct (le_lt_dec (Z.to_nat (w3_points (w_3 w))) (8 * length (b0 :: bm))); [left; auto|right; intros [[?|?] _]; [discriminate|lia]]. }
  destruct Dec as [X|X]; [left; apply P; now right|right; exact (short_data chk powi w r e d b f missing transform W E5 N X)].
Qed.
Lemma missing_cell g : (exists data, temp_bin g = Ok data) -> 0 <= fst (dims g) -> 0 <= snd (dims g) -> ~ Z.of_nat (length (vg_values g)) < fst (dims g) * snd (dims g).
Proof.
  intros (data & E) W H L. set (w := fst (dims g)) in *. set (h := snd (dims g)) in *. unfold temp_bin in E. change (g_w (vg_grid g)) with w in E. change (g_h (vg_grid g)) with h in E.
  assert (0 < w) by nia. assert (0 < h) by nia.
  match type of E with bin_values _ _ ?c = _ => set (cell := c) in E; assert (Sz : forall x y b, 0 <= x < w -> 0 <= y < h -> cell x y = Ok b -> size b = 1) end.
  { intros x y b _ _ Ec. unfold cell in Ec. destruct (temp_by_xy g x y) as [v|?|]; cbn in Ec; try discriminate Ec. injection Ec as <-. reflexivity. }
  pose proof (bin_values_spec 1 w h cell ltac:(lia) W H Sz) as P. rewrite E in P. destruct P as [_ P].
  pose proof (P (w - 1) (h - 1) ltac:(lia) ltac:(lia)) as Eb. cbv beta in Eb. unfold cell, temp_by_xy, value_by_xy, index_by_xy in Eb. change (g_w (vg_grid g)) with w in Eb. change (g_h (vg_grid g)) with h in Eb.
  destruct (Z.leb_spec w (w - 1)); [lia|]. destruct (Z.leb_spec h (h - 1)); [lia|]. cbn [orb] in Eb. unfold index_vec in Eb. change (carrier f32_type) with f32 in *.
  destruct (nth_error (vg_values g) (Z.to_nat (w - 1 + (h - 1) * w))) as [v|] eqn:En; [|cbn in Eb; discriminate Eb].
  assert (Ln : (Z.to_nat (w - 1 + (h - 1) * w) < length (vg_values g))%nat) by (apply nth_error_Some; congruence). nia.
Qed.

Lemma bad_read chk powi (fetch : fetcher) run s url : valid_run run -> dwd_model (run_model run) -> 0 <= st_nr s -> url_layout run (SingleFile T2m (st_nr s)) url ->
  (forall o, fetch url o -> exists bs, o = Ok bs /\ Forall is_byte bs /\ bad_bytes chk bs) ->
  forall o, read_temp chk powi fetch run s o -> o = Panic \/ exists g, o = Ok g /\ 0 <= fst (dims g) /\ 0 <= snd (dims g) /\ Z.of_nat (length (vg_values g)) < fst (dims g) * snd (dims g).
Proof.
  intros V M Nn Lu Bf o Ro. apply (c49_layout_proof run _ url V) in Lu; [|cbn; lia]. unfold read_temp, read_single in Ro. destruct Ro as (u & Hu & Ro). unfold r_of in Hu. change (single_url T2m run s) with (dwd_url run (SingleFile T2m (st_nr s))) in Hu.
  rewrite Lu in Hu. subst u. unfold fetch_regular, fetch_doc in Ro. destruct Ro as (od & (ob & Hb & Rd) & Ro). destruct (Bf ob Hb) as (bs & -> & B & Bad). unfold r_of in Rd.
  destruct Bad as [Bp|(w & rest & r & e & d & b & f & W & -> & E5 & Bad)].
  { apply (single_doc_panic chk bs B) in Bp. rewrite Bp in Rd. cbn [omap] in Rd. subst od. left. exact Ro. }
  rewrite (read_single_doc_bwd chk w rest W) in Rd. cbn [omap] in Rd. subst od. unfold r_of in Ro. cbn [fst] in Ro. subst o.
  unfold regular_create_and_transform.
  destruct Bad as [[Nd X]|(t & E3 & Bad)]; [rewrite (short_data chk powi w r e d b f _ _ W E5 Nd X); now left|].
  destruct (points_cases chk powi w r e d b f SINGLE_MISSING (fun x => x) W E5) as [(vs & Ev)|Ev]; [|rewrite Ev; now left].
  rewrite Ev. cbn [obind]. rewrite (regular_extent chk w t W E3). destruct (points_read chk powi w r e d b f SINGLE_MISSING (fun x => x) W E5) as [_ P]. destruct (P vs Ev) as [L _].
  destruct (wf_angles chk w t W E3) as (Bi & Bj & A1 & A2 & A3 & A4 & Bp).
  destruct Bad as [Bad|(F1 & F2 & F3 & F4 & O)].
  - unfold extent_new. destruct (fgt _ _ || fgt _ _); cbn [omap]; [now left|]. right. eexists. split; [reflexivity|]. unfold dims. cbn [vg_grid value_grid_new grid_new g_w g_h vg_values fst snd]. rewrite L. lia.
  - left. destruct (extent_new_spec (lat_lon_new (angle (w30_lat1 t)) (angle (w30_lon1 t))) (lat_lon_new (angle (w30_lat2 t)) (angle (w30_lon2 t)))) as [_ X].
    + split; apply normalize_spec; apply angle_fin; assumption.
    + split; apply normalize_spec; apply angle_fin; assumption.
    + rewrite X; [reflexivity|]. cbn [lat_lon_new lat lon]. intros [La Lo]. destruct O as [O|O]; [pose proof (normalized_strict _ _ F1 F3 O)|pose proof (normalized_strict _ _ F2 F4 O)]; lra.
Qed.

Lemma c85_bad_proof : forall chk powi fetch m head today today' model n run url,
  dwd_model model -> valid_date today -> valid_date (prev_day today') -> find_latest_run head model today today' = Ok run ->
  2 <= n <= last_step (run_model run) -> url_layout run (SingleFile T2m n) url -> (forall url, exists o, fetch url o) ->
  (forall o, fetch url o -> exists bs, o = Ok bs /\ Forall is_byte bs /\ bad_bytes chk bs) ->
  (exists tr r, dwd_render_latest chk powi fetch m false head today today' model ["temp_2m"%string] [n] tr r) /\
  forall tr r, dwd_render_latest chk powi fetch m false head today today' model ["temp_2m"%string] [n] tr r -> r = Panic.
Proof.
  intros chk powi fetch m head today today' model n run url M Vd Vd' F Bn Lu T Bf. destruct (found_run _ _ _ _ _ M Vd Vd' F) as [V Md].
  unfold dwd_render_latest. rewrite F. cbn [p_let]. destruct (kind_in chk m) as (_ & _ & K3 & _). pose proof (steps_nonneg (run_model run)) as NN.
  assert (Eq : forall tr r, render_selected ["temp_2m"%string] (dwd_cloud_precip chk powi fetch m false [n] run) (dwd_wind chk powi fetch m false [n] run) (dwd_temp chk powi fetch m false [n] run)
      (read_hhl chk powi fetch run (vertical_level_range (run_model run)))
      (dwd_vertical_cloud chk powi fetch false [n] (vertical_level_range (run_model run)) run)
      (dwd_vertical_wind chk powi fetch false [n] (vertical_level_range (run_model run)) run) tr r <-> p_then (dwd_temp chk powi fetch m false [n] run) (p_end (Ok tt)) tr r).
  { intros tr r. unfold render_selected. change (FetchModel.selected ["temp_2m"%string] CloudPrecip) with false. change (FetchModel.selected ["temp_2m"%string] Wind10m) with false. change (FetchModel.selected ["temp_2m"%string] Temp2m) with true. change (FetchModel.selected ["temp_2m"%string] VerticalCloud) with false. change (FetchModel.selected ["temp_2m"%string] VerticalWind) with false. cbn [p_if orb]. rewrite !p_then_skip. reflexivity. }
  assert (Tr : forall s, In s (forecast_steps (run_model run)) -> wanted [n] s -> forall o, read_temp chk powi fetch run s o ->
    o = Panic \/ exists g, o = Ok g /\ 0 <= fst (dims g) /\ 0 <= snd (dims g) /\ Z.of_nat (length (vg_values g)) < fst (dims g) * snd (dims g)).
  { intros s J [W|[W|[]]]; [discriminate W|]. subst n. apply (bad_read chk powi fetch run s url V Md ltac:(lia) Lu Bf). }
  assert (R1 : exists tr r, dwd_temp chk powi fetch m false [n] run tr r).
  { apply (c46_runs_proof chk m _ K3 run _ [n] (read_temp chk powi fetch run) V NN). intros s J. apply (tot_single chk powi fetch T). }
  assert (R2 : forall tr r, dwd_temp chk powi fetch m false [n] run tr r -> r = Panic).
  { intros tr r R. assert (D : r = Ok tt \/ r <> Ok tt) by (destruct r as [[]|?|]; [now left|right; discriminate|right; discriminate]). destruct D as [->|D].
    - exfalso. destruct (c46_success_proof chk m _ K3 false run _ [n] (read_temp chk powi fetch run) tr V NN R) as [_ S].
      assert (J : In (numbered n) (forecast_steps (run_model run))) by (apply step_in; split; [reflexivity|exact Bn]).
      destruct (S _ J (or_intror (or_introl eq_refl))) as (g & Rg & Cg). destruct (Tr _ J (or_intror (or_introl eq_refl)) _ Rg) as [X|(g' & X & Hw & Hh & L)]; [discriminate X|]. injection X as <-.
      exact (missing_cell g (proj2 Cg _ _ (or_introl eq_refl)) Hw Hh L).
    - destruct (c46_failure_proof chk m _ K3 false run _ [n] (read_temp chk powi fetch run) tr r V NN R D) as (s & J & W & X). destruct r as [?|e|]; [destruct X| |reflexivity].
      exfalso. destruct (Tr s J W _ X) as [Y|(g & Y & _)]; discriminate Y. }
  split.
  - destruct R1 as (tr & r & R). pose proof (R2 tr r R) as ->. exists tr, Panic. apply Eq. left. split; [exact R|discriminate].
  - intros tr r R. apply Eq in R. destruct R as [[R _]|(t1 & t2 & _ & R & _)]; [exact (R2 tr r R)|]. specialize (R2 _ _ R). discriminate R2.
Qed.
