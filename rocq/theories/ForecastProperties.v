(** The properties C46-C48 and C58, about forecast steps, the rendering of forecasts and the files written. *)
From Coq Require Import Ascii String ZArith List Bool Lia Permutation.
From Verif Require Import Base F32 GeoModel GeoSpec ImagingModel Par ParFacts TileModel TileSpec TileProperties ChartModel ChartSpec MetobinModel Text
  ForecastModel ForecastSpec ForecastProofs.
Import ListNotations.
Open Scope Z_scope.

(** ** C46: step filter *)

(** C46.  A rendering that succeeds has read each selected step exactly once and no other, and all
    the tiles and files of every selected step could be computed, under every schedule. *)
Theorem C46_success : forall chk m k, In k (kinds chk m) -> forall faulty run steps filter read tr,
  valid_run run -> Forall (fun s => 0 <= st_nr s) steps -> k_render k faulty run steps filter read tr (Ok tt) ->
  (exists rest, Permutation (reads tr ++ rest) steps /\ Forall (wanted filter) (reads tr) /\ Forall (fun s => ~ wanted filter s) rest) /\
  (forall s, In s steps -> wanted filter s -> exists l, read s (Ok l) /\ computable chk m k run l).
Proof. exact c46_success_proof. Qed.
Print Assumptions C46_success.
(** C46.  However a rendering ends, it has read only selected steps, each at most once, and everything
    written is in the directory of such a step. *)
Theorem C46_any_end : forall chk m k, In k (kinds chk m) -> forall faulty run steps filter read tr r,
  valid_run run -> Forall (fun s => 0 <= st_nr s) steps -> k_render k faulty run steps filter read tr r ->
  (exists rest, Permutation (reads tr ++ rest) steps /\ Forall (wanted filter) (reads tr)) /\
  (forall e p, In e tr -> effect_path e = Some p -> exists s rest, In s (reads tr) /\ p = (output_path run (st_nr s) (k_type k) ++ rest)%string).
Proof. exact c46_any_end_proof. Qed.
Print Assumptions C46_any_end.
(** C46.  A rendering that fails does so because of a selected step: it returns the error of its
    reading, or panics if the reading panicked or something could not be computed (or written). *)
Theorem C46_failure : forall chk m k, In k (kinds chk m) -> forall faulty run steps filter read tr r,
  valid_run run -> Forall (fun s => 0 <= st_nr s) steps -> k_render k faulty run steps filter read tr r -> r <> Ok tt ->
  exists s, In s steps /\ wanted filter s /\
    match r with
    | Err e => read s (Err e)
    | Panic => read s Panic \/ exists l, read s (Ok l) /\ (faulty = false -> ~ computable chk m k run l)
    | Ok _ => False
    end.
Proof. exact c46_failure_proof. Qed.
Print Assumptions C46_failure.
(** C46.  If all selected steps can be read and computed, every schedule succeeds. *)
Theorem C46_succeeds : forall chk m k, In k (kinds chk m) -> forall run steps filter read,
  valid_run run -> Forall (fun s => 0 <= st_nr s) steps ->
  (forall s, In s steps -> exists o, read s o) ->
  (forall s o, In s steps -> wanted filter s -> read s o -> exists l, o = Ok l /\ computable chk m k run l) ->
  (exists tr r, k_render k false run steps filter read tr r) /\
  forall tr r, k_render k false run steps filter read tr r -> r = Ok tt.
Proof. exact c46_succeeds_proof. Qed.
Print Assumptions C46_succeeds.
(** C46.  All the tiles and files can be computed from complete grids (for the weather: with known codes). *)
Theorem C46_cloud_precip_data : forall chk m run cp we w h, tiles_addressable chk m run (g_extent (vg_grid (cp_cloud cp))) ->
  dims (cp_cloud cp) = (w, h) -> 0 <= w -> 0 <= h -> complete (cp_cloud cp) -> complete (cp_precip0 cp) -> complete (cp_precip1 cp) ->
  forall w' h', dims (we_clct we) = (w', h') -> 0 <= w' -> 0 <= h' -> complete (we_clct we) -> complete (we_ceiling we) ->
  (forall x y, 0 <= x < w' -> 0 <= y < h' -> ww_by_xy we x y <> Panic) ->
  computable chk m (cloud_precip_kind chk m) run (cp, we).
Proof. exact c46_cloud_precip_data_proof. Qed.
Print Assumptions C46_cloud_precip_data.
Theorem C46_wind_data : forall chk m run l w h, tiles_addressable chk m run (g_extent (vg_grid (wl_zonal l))) ->
  dims (wl_zonal l) = (w, h) -> 0 <= w -> 0 <= h -> complete (wl_zonal l) -> complete (wl_meridional l) -> (forall g, wl_gusts l = Some g -> complete g) ->
  computable chk m (wind_kind chk m) run l.
Proof. exact c46_wind_data_proof. Qed.
Print Assumptions C46_wind_data.
Theorem C46_temp_data : forall chk m run l w h, tiles_addressable chk m run (g_extent (vg_grid l)) ->
  dims l = (w, h) -> 0 <= w -> 0 <= h -> complete l -> computable chk m (temp_kind chk m) run l.
Proof. exact c46_temp_data_proof. Qed.
Print Assumptions C46_temp_data.
Theorem C46_vertical_cloud_data : forall chk m run hhl clc l g w h, vertical_cloud_new hhl clc = Ok l ->
  hd_error clc = Some g -> dims g = (w, h) -> 0 <= w -> 0 <= h -> Forall complete hhl -> Forall complete clc ->
  computable chk m vertical_cloud_kind run l.
Proof. exact c46_vertical_cloud_data_proof. Qed.
Print Assumptions C46_vertical_cloud_data.
Theorem C46_vertical_wind_data : forall chk m run hhl u v l g w h, vertical_wind_new hhl u v = Ok l ->
  hd_error u = Some g -> dims g = (w, h) -> 0 <= w -> 0 <= h -> Forall complete hhl -> Forall complete u -> Forall complete v ->
  computable chk m vertical_wind_kind run l.
Proof. exact c46_vertical_wind_data_proof. Qed.
Print Assumptions C46_vertical_wind_data.

Definition sample_run : fc_run := {| run_model := IconD2; run_date := {| year := 2024; month := 2; day := 29 |}; run_name := "03" |}.
Definition grid_of (vs : list f32) : fgrid := value_grid_new vs (f32_of_Z (-1)) 2 2 half_world.
Definition temps : fgrid := grid_of [f32_of_Z 273; f32_of_Z 280; f32_of_Z (-1); f32_of_Z 290].
Definition rain0 : fgrid := grid_of [f32_of_Z 0; f32_of_Z 1; f32_of_Z 2; f32_of_Z 3].
Definition rain1 : fgrid := grid_of [f32_of_Z 1; f32_of_Z 1; f32_of_Z 4; f32_of_Z (-1)].
Definition clouds : fgrid := grid_of [f32_of_Z 0; f32_of_Z 50; f32_of_Z 100; f32_of_Z 8].
Definition codes : fgrid := grid_of [f32_of_Z 1; f32_of_Z 95; f32_of_Z 61; f32_of_Z 0].
Lemma sample_run_valid : valid_run sample_run.
Proof. split; [|reflexivity]. unfold valid_date. cbn. lia. Qed.
Lemma sample_steps : Forall (fun s => 0 <= st_nr s) (forecast_steps IconD2) /\ NoDup (map st_nr (forecast_steps IconD2)).
Proof.
  split; [repeat constructor; cbn; lia|]. vm_compute.
  repeat (apply NoDup_cons; [cbn; intro H; repeat (destruct H as [H|H]; [discriminate|]); exact H|]). apply NoDup_nil.
Qed.
Ltac sample := first [reflexivity|lia|match goal with |- complete _ => vm_compute; discriminate end|apply addressable_check; vm_compute; reflexivity].
Lemma temps_computable : computable true flat (temp_kind true flat) sample_run temps.
Proof. apply (C46_temp_data true flat sample_run temps 2 2); sample. Qed.
Definition winds : wind_layer := {| wl_zonal := temps; wl_meridional := rain0; wl_gusts := Some rain1 |}.
Definition rains : cloud_precip_layer := {| cp_cloud := clouds; cp_precip0 := rain0; cp_precip1 := rain1 |}.
Definition weathers : weather_layer := {| we_clct := clouds; we_ceiling := temps; we_ww := Some codes |}.
Example C46_sample_data :
  computable true flat (wind_kind true flat) sample_run winds /\ computable true flat (cloud_precip_kind true flat) sample_run (rains, weathers).
Proof.
  split.
  - apply (C46_wind_data true flat sample_run winds 2 2); try sample. intros g E. injection E as <-. sample.
  - apply (C46_cloud_precip_data true flat sample_run rains weathers 2 2) with (w' := 2) (h' := 2); try sample.
    intros x y X Y. assert (Cx : x = 0 \/ x = 1) by lia. assert (Cy : y = 0 \/ y = 1) by lia. destruct Cx as [-> | ->], Cy as [-> | ->]; vm_compute; discriminate.
Qed.
(** The steps 2..48 of icon-d2 with filter 5, 7 and 100: exactly the steps 5 and 7 are rendered. *)
Definition sample_read (s : fc_step) (o : outcome temp_layer) : Prop := o = Ok temps.
Example C46_sample : exists tr, temp_render true flat false sample_run (forecast_steps IconD2) [5; 7; 100] sample_read tr (Ok tt) /\
  Permutation (map st_nr (reads tr)) [5; 7].
Proof.
  assert (K : In (temp_kind true flat) (kinds true flat)) by (right; right; left; reflexivity).
  destruct (C46_succeeds true flat (temp_kind true flat) K sample_run (forecast_steps IconD2) [5; 7; 100] sample_read sample_run_valid (proj1 sample_steps)) as [(tr & r & R) A].
  - intros s _. exists (Ok temps). reflexivity.
  - intros s o _ _ ->. exists temps. split; [reflexivity|exact temps_computable].
  - pose proof (A tr r R) as ->. exists tr. split; [exact R|].
    destruct (C46_success true flat _ K _ _ _ _ _ _ sample_run_valid (proj1 sample_steps) R) as ((rest & P & W & U) & _).
    apply (Permutation_map st_nr) in P. rewrite map_app in P. clear -P W U.
    assert (N := proj2 sample_steps). apply NoDup_Permutation.
    + apply (Permutation_NoDup (Permutation_sym P)) in N. clear -N. induction (map st_nr (reads tr)); [apply NoDup_nil|]. cbn in N. inversion N; subst.
      constructor; auto. intro. apply H1, in_or_app; auto.
    + repeat constructor; cbn; intuition discriminate.
    + rewrite Forall_forall in W, U. intro n. split; intro H.
      * apply in_map_iff in H. destruct H as (s & <- & J). destruct (W s J) as [E|[E|[E|[E|[]]]]]; [discriminate|cbn; auto|cbn; auto|].
        assert (J' : In (st_nr s) (map st_nr (forecast_steps IconD2))) by (apply (Permutation_in _ P), in_or_app; left; now apply in_map).
        rewrite <- E in J'. vm_compute in J'. repeat (destruct J' as [J'|J']; [discriminate|]). contradiction.
      * assert (J : In n (map st_nr (reads tr) ++ map st_nr rest)).
        { apply (Permutation_in _ (Permutation_sym P)). destruct H as [<-|[<-|[]]]; vm_compute; intuition. }
        apply in_app_or in J. destruct J as [J|J]; [exact J|]. apply in_map_iff in J. destruct J as (s & <- & J). exfalso. apply (U s J). right.
        destruct H as [H|[H|[]]]; rewrite <- H; cbn; auto.
Qed.
(** Finding: if the disk fails, the rendering of a vertical layer may end well although nothing was written. *)
Example C46_lost : vertical_cloud_render true sample_run [{| st_nr := 5; st_url := EmptyString |}] [] (fun _ o => o = Ok {| vc_hhl := [value_grid_new [10] 255 1 1 half_world]; vc_clc := [value_grid_new [100] 255 1 1 half_world] |})
  [ERead {| st_nr := 5; st_url := EmptyString |}] (Ok tt).
Proof.
  exists [Some ([ERead {| st_nr := 5; st_url := EmptyString |}], Ok tt)]. split; [|split].
  - constructor; [|constructor]. cbn. right. exists [ERead {| st_nr := 5; st_url := EmptyString |}], []. split; [reflexivity|]. split; [split; reflexivity|].
    eexists. split; [reflexivity|]. cbn. exists (Err EIo). split; [|reflexivity]. left. split; [|discriminate]. right. auto.
  - cbn. apply (il_next [] _ [] []). apply il_done. repeat constructor.
  - constructor; [eauto|constructor].
Qed.

(** ** C47: files *)

(** C47.  The path of a file determines the run, the step and the file. *)
Theorem C47_paths : forall run run' n n' f f', valid_run run -> valid_run run' -> 0 <= n -> 0 <= n' -> proper f -> proper f' ->
  file_path run n f = file_path run' n' f' -> run = run' /\ n = n' /\ f = f'.
Proof. exact c47_paths_proof. Qed.
Print Assumptions C47_paths.
(** C47.  It has the form ./output/<model>/<date><run>/<step>/<layer>/<file>. *)
Theorem C47_layout : forall run n f p, valid_run run -> 0 <= n -> proper f -> (p = file_path run n f <-> layout run n f p).
Proof. exact c47_layout_proof. Qed.
Print Assumptions C47_layout.
(** C47.  After a successful rendering each file of a selected step has its content, whatever was there before,
    and no other file has changed. *)
Theorem C47_files : forall chk m k, In k (kinds chk m) -> forall run steps filter read tr,
  valid_run run -> Forall (fun s => 0 <= st_nr s) steps -> NoDup (map st_nr steps) -> stable read ->
  k_render k false run steps filter read tr (Ok tt) ->
  (forall s l f c, In s steps -> wanted filter s -> read s (Ok l) -> produces chk m k run l f c ->
     forall before, file_after (file_path run (st_nr s) f) before tr = Some c) /\
  (forall q, (forall s l f c, In s steps -> wanted filter s -> read s (Ok l) -> produces chk m k run l f c -> q <> file_path run (st_nr s) f) ->
     forall before, file_after q before tr = before).
Proof. exact c47_files_proof. Qed.
Print Assumptions C47_files.
(** C47.  So the files after a successful rendering do not depend on the schedule. *)
Theorem C47_schedule : forall chk m k, In k (kinds chk m) -> forall run steps filter read tr tr',
  valid_run run -> Forall (fun s => 0 <= st_nr s) steps -> NoDup (map st_nr steps) -> stable read ->
  k_render k false run steps filter read tr (Ok tt) -> k_render k false run steps filter read tr' (Ok tt) ->
  forall q before, file_after q before tr = file_after q before tr'.
Proof. exact c47_schedule_proof. Qed.
Print Assumptions C47_schedule.
(** The hypotheses hold for the steps of the models; the sample of C46 is a successful rendering. *)
Example C47_sample : valid_run sample_run /\ Forall (fun s => 0 <= st_nr s) (forecast_steps IconD2) /\ NoDup (map st_nr (forecast_steps IconD2)) /\
  stable sample_read /\ proper (TileFile Temp2m 7 66 44) /\
  file_path sample_run 5 (TileFile Temp2m 7 66 44) = "./output/icon-d2/2024022903/005/temp/7/66/44.png"%string /\
  file_path sample_run 1234 (BinFile BinWeather) = "./output/icon-d2/2024022903/1234/clct_precip/WW.meteobin"%string.
Proof.
  split; [exact sample_run_valid|]. split; [apply sample_steps|]. split; [apply sample_steps|]. split; [intros s l l' E E'; unfold sample_read in *; congruence|].
  split; [|split; reflexivity]. cbn. intuition lia.
Qed.

(** ** C48: steps *)

(** C48.  The steps of each model are 2 up to the last one; the steps for differences start with 1. *)
Theorem C48_steps : forall m,
  map st_nr (forecast_steps m) = range 2 (last_step m) /\ map st_nr (forecast_diff_steps m) = 1 :: map st_nr (forecast_steps m).
Proof. exact c48_steps_proof. Qed.
Print Assumptions C48_steps.
(** C48.  Looking up a number gives the first step with it, or an error iff there is none. *)
Theorem C48_lookup : forall steps n,
  match step_by_nr steps n with
  | Ok s => st_nr s = n /\ exists l1 l2, steps = l1 ++ s :: l2 /\ ~ In n (map st_nr l1)
  | Err _ => ~ In n (map st_nr steps)
  | Panic => False
  end.
Proof. exact c48_lookup_proof. Qed.
Print Assumptions C48_lookup.
(** C48.  Every forecast step and the one before it are found among the steps for differences. *)
Theorem C48_difference : forall m s, In s (forecast_steps m) ->
  exists s0 s1, step_by_nr (forecast_diff_steps m) (st_nr s - 1) = Ok s0 /\ st_nr s0 = st_nr s - 1 /\
    step_by_nr (forecast_diff_steps m) (st_nr s) = Ok s1 /\ st_nr s1 = st_nr s.
Proof. exact c48_difference_proof. Qed.
Print Assumptions C48_difference.
Example C48_sample : map st_nr (forecast_diff_steps IconCh1) = range 1 33 /\
  step_by_nr [{| st_nr := 3; st_url := "a" |}; {| st_nr := 4; st_url := "b" |}; {| st_nr := 4; st_url := "c" |}] 4 = Ok {| st_nr := 4; st_url := "b" |} /\
  step_by_nr (forecast_steps IconCh1) 1 = Err EInvalid.
Proof. vm_compute. auto. Qed.

(** ** C58: order of effects *)

(** C58.  However a rendering ends: a file is written only after its directory was created, data only after
    the file was created, and an image is completed only after it was begun, under every schedule. *)
Theorem C58_prepared : forall chk m k, In k (kinds chk m) -> forall faulty run steps filter read tr r,
  valid_run run -> Forall (fun s => 0 <= st_nr s) steps -> k_render k faulty run steps filter read tr r ->
  forall done e rest, tr = done ++ e :: rest -> prepared done e.
Proof. exact c58_proof. Qed.
Print Assumptions C58_prepared.
Lemma drawable_dec (d d' : drawable) : {d = d'} + {d <> d'}.
Proof. decide equality; try apply Z.eq_dec. apply list_eq_dec, Z.eq_dec. Qed.
Example C58_sample : exists tr, temp_render true flat false sample_run (forecast_steps IconD2) [5; 7; 100] sample_read tr (Ok tt) /\
  exists d done rest, tr = done ++ EImage "./output/icon-d2/2024022903/005/temp/1/1/1.png" d :: rest /\ prepared done (EImage "./output/icon-d2/2024022903/005/temp/1/1/1.png" d).
Proof.
  destruct C46_sample as (tr & R & _). exists tr. split; [exact R|].
  assert (K : In (temp_kind true flat) (kinds true flat)) by (right; right; left; reflexivity).
  destruct (C47_files true flat _ K _ _ _ _ _ sample_run_valid (proj1 sample_steps) (proj2 sample_steps) (proj1 (proj2 (proj2 (proj2 C47_sample)))) R) as [F _].
  destruct (proj1 temps_computable 1 1 1 (create_single_tile true flat (temp_by_lat_lon temps) (fun v => Ok (temp_color v)) {| t_x := 1; t_y := 1; t_zoom := 1 |})) as (d & Ed).
  { eexists _, _. split; [reflexivity|]. split; [cbn; lia|]. split; [|reflexivity]. apply C32_sample. lia. }
  assert (P : file_after "./output/icon-d2/2024022903/005/temp/1/1/1.png" None tr = Some (Png d)).
  { apply (F {| st_nr := 5; st_url := EmptyString |} temps (TileFile Temp2m 1 1 1) (Png d)); [|right; left; reflexivity|reflexivity|].
    - vm_compute. intuition.
    - split; [reflexivity|]. exists d. split; [|reflexivity]. eexists _, _. split; [reflexivity|]. split; [cbn; lia|]. split; [apply C32_sample; lia|symmetry; exact Ed]. }
  assert (X : forall l b0, b0 <> Some (Png d) -> file_after "./output/icon-d2/2024022903/005/temp/1/1/1.png" b0 l = Some (Png d) -> In (EImage "./output/icon-d2/2024022903/005/temp/1/1/1.png" d) l).
  { induction l as [|e l IH]; intros b0 N H; [contradiction|]. cbn [file_after] in H. destruct e as [|  | |p' d'|p' d'|p'|p' b']; try (right; exact (IH _ N H)).
    - destruct (String.eqb _ _); right; refine (IH _ _ H); congruence.
    - destruct (String.eqb_spec p' "./output/icon-d2/2024022903/005/temp/1/1/1.png") as [->|]; [|right; exact (IH _ N H)].
      destruct (drawable_dec d d') as [->|ND]; [now left|]. right. refine (IH _ _ H). congruence.
    - destruct (String.eqb _ _); right; refine (IH _ _ H); congruence.
    - destruct (String.eqb _ _); right; refine (IH _ _ H); congruence. }
  apply X in P; [|discriminate]. apply in_split in P. destruct P as (done & rest & E). exists d, done, rest. split; [exact E|].
  exact (C58_prepared true flat _ K _ _ _ _ _ _ _ sample_run_valid (proj1 sample_steps) R done _ rest E).
Qed.
