(** The properties C55 and C61, about the command line program. *)
From Coq Require Import Ascii String ZArith List Bool Lia.
From Verif Require Import Base F32 Grib2Model Grib2Spec Grib2Samples Grib2FloatProofs GeoModel ImagingModel Par TileModel TileProperties ChartModel ChartSpec
  MetobinModel Text ForecastModel ForecastSpec ForecastProofs FetchModel FetchSpec FetchProofs DwdModel DwdSpec DwdProofs DwdProperties SwissModel SwissSpec SwissProofs
  SwissProperties CliModel CliSpec CliProofs.
Import ListNotations.
Open Scope Z_scope.

(** ** C55: calls *)

(** C55.  Called with the name of a known model, the program does exactly what the rendering of the latest forecast of this
    model does with the given variables and steps.  If that succeeds it prints nothing and exits with 0; if it ends with
    an error it prints one line that names the model and the error, and exits with 0 as well (finding); if it panics
    it exits with 101. *)
Theorem C55_report : forall w name variables steps p, rendering w name variables steps p -> forall tr printed code,
  main w {| ar_model := name; ar_variables := variables; ar_steps := steps |} tr printed code <->
  (p tr (Ok tt) /\ printed = [] /\ code = 0) \/
  (exists e, p tr (Err e) /\ printed = [("error while rendering " ++ name ++ " forecast: " ++ wo_text w e)%string] /\ code = 0) \/
  (p tr Panic /\ printed = [] /\ code = 101).
Proof. exact c55_report_proof. Qed.
Print Assumptions C55_report.
(** C55.  Called with any other name it touches no file, prints that the model is unknown and exits with 0. *)
Theorem C55_unknown : forall w a, ~ In (ar_model a) ["icon-ch1"; "icon-d2"; "icon-eu"]%string -> forall tr printed code,
  main w a tr printed code <-> tr = [] /\ printed = [("unknown model: " ++ ar_model a)%string] /\ code = 0.
Proof. exact c55_unknown_proof. Qed.
Print Assumptions C55_unknown.
(** C55.  However it ends, it touches only files in the directory of the model it was called with; called with icon-eu it may
    also touch that of icon-d2 (finding). *)
Theorem C55_files : forall w a tr printed code e p, sane w -> main w a tr printed code -> In e tr -> effect_path e = Some p ->
  exists dir, may_write (ar_model a) dir /\ In dir ["icon-ch1"; "icon-d2"; "icon-eu"]%string /\ inside dir p.
Proof. exact c55_files_proof. Qed.
Print Assumptions C55_files.

Definition sample_world (head : heads) (faulty : bool) : world :=
  {| wo_chk := true; wo_powi := powi_rt; wo_libm := flat; wo_faulty := faulty; wo_fetch := served; wo_heads := head; wo_today := today; wo_today' := today;
     wo_service := swiss_sample; wo_rfc3339 := zulu; wo_text := fun _ => "broken"%string |}.
Lemma sample_sane head faulty : sane (sample_world head faulty).
Proof. destruct C50_sample as (_ & _ & _ & _ & V & V'). split; [exact V|]. split; [exact V'|exact swiss_sample_dated]. Qed.
Definition call (name : string) (variables : list string) (steps : list Z) : cli_args := {| ar_model := name; ar_variables := variables; ar_steps := steps |}.

(** The sample of C59 as a call of the program: it succeeds, and the files are in the directory of icon-d2. *)
Lemma sample_call : exists tr, main (sample_world sample_heads false) (call "icon-d2" sample_variables [5; 6]) tr [] 0 /\
  rendered true flat (temp_kind true flat) the_run 5 (low_grid (f32_of_Z (-1)) (fun x => x)) tr.
Proof.
  destruct C59_sample as (_ & tr & R & T). exists tr. split; [|exact T].
  refine (proj2 (C55_report (sample_world sample_heads false) "icon-d2" sample_variables [5; 6] _ _ tr [] 0) (or_introl (conj R (conj eq_refl eq_refl)))).
  right. exists IconD2. split; [left; split; reflexivity|reflexivity].
Qed.
Example C55_sample : exists tr, main (sample_world sample_heads false) (call "icon-d2" sample_variables [5; 6]) tr [] 0 /\
  sane (sample_world sample_heads false) /\
  exists e p, In e tr /\ effect_path e = Some p /\ inside "icon-d2" p.
Proof.
  destruct sample_call as (tr & M & _ & T). exists tr. split; [exact M|]. split; [apply sample_sane|].
  assert (E : temp_bin (low_grid (f32_of_Z (-1)) (fun x => x)) <> Panic /\ exists d, temp_bin (low_grid (f32_of_Z (-1)) (fun x => x)) = Ok d)
    by (split; [vm_compute; discriminate|eexists; vm_compute; reflexivity]).
  destruct E as (_ & d & E). pose proof (T (BinFile BinTemp) (Data d)) as H.
  assert (P : produces true flat (temp_kind true flat) the_run (low_grid (f32_of_Z (-1)) (fun x => x)) (BinFile BinTemp) (Data d)).
  { exists d. split; [left; cbn [k_bins temp_kind]; rewrite E; reflexivity|reflexivity]. }
  specialize (H P None). assert (X : exists e, In e tr /\ effect_path e = Some (file_path the_run 5 (BinFile BinTemp))).
  { assert (W : forall l before, file_after (file_path the_run 5 (BinFile BinTemp)) before l <> before ->
      exists e, In e l /\ effect_path e = Some (file_path the_run 5 (BinFile BinTemp))).
    { induction l as [|e l IH]; intros before N; [contradiction N; reflexivity|]. cbn [file_after] in N.
      destruct e as [s| |q|q i|q i|q|q b]; try (destruct (IH before N) as (e & J & Pe); exists e; split; [now right|exact Pe]);
      (destruct (String.eqb_spec q (file_path the_run 5 (BinFile BinTemp))) as [->|Nq];
        [eexists; split; [now left|reflexivity]|destruct (IH before N) as (e & J & Pe); exists e; split; [now right|exact Pe]]). }
    apply (W tr None). rewrite H. discriminate. }
  destruct X as (e & J & Pe). exists e, (file_path the_run 5 (BinFile BinTemp)). split; [exact J|]. split; [exact Pe|].
  apply (output_inside the_run 5 Temp2m).
Qed.
(** Finding: without network the program prints a line and exits with 0. *)
Definition offline : world :=
  {| wo_chk := true; wo_powi := powi_rt; wo_libm := flat; wo_faulty := false; wo_fetch := fun _ o => o = Err EIo; wo_heads := fun _ _ => None;
     wo_today := today; wo_today' := today; wo_service := {| sv_search := fun _ o => o = Err EIo; sv_assets := fun o => o = Err EIo; sv_fetch := fun _ o => o = Err EIo |};
     wo_rfc3339 := zulu; wo_text := fun _ => "broken"%string |}.
Example C55_offline : main offline (call "icon-ch1" [] []) [] ["error while rendering icon-ch1 forecast: broken"%string] 0 /\
  forall tr printed code, main offline (call "icon-ch1" [] []) tr printed code -> tr = [] /\ code = 0.
Proof.
  split.
  - exists (Err EIo). split; [exists (Err EIo); split; [reflexivity|]|]; split; reflexivity.
  - intros tr printed code (r & (o & Eo & P) & M). cbn in Eo. subst o. destruct P as [-> ->]. destruct M as [_ ->]. auto.
Qed.
(** Finding: called with icon-eu while no run of icon-eu is complete, the program renders icon-d2, into the directory of icon-d2. *)
Definition old_run : fc_run := run_of IconD2 (prev_day today) "21".
Lemma old_good_run : good_run true powi_rt served old_run 3 2 low_extent.
Proof.
  assert (G : forall T f (missing : T) transform (known : T -> Prop), good_file true powi_rt served (fun _ => False) the_run f missing transform 3 2 low_extent known ->
    good_file true powi_rt served (fun _ => False) old_run f missing transform 3 2 low_extent known).
  { intros T f missing transform known (url & _ & R). destruct (proj1 (C49_total old_run f) (or_introl eq_refl)) as (url' & U').
    exists url'. split; [exact U'|]. exact R. }
  destruct low_good_run as (A & B & C). split; [|split]; intros; apply G; auto.
Qed.
Lemma old_addressable : tiles_addressable true flat old_run low_extent.
Proof. apply addressable_check. vm_compute. reflexivity. Qed.
Example C55_other_model : exists tr, main (sample_world (fun _ _ => None) false) (call "icon-eu" ["temp_2m"]%string [5]) tr [] 0 /\
  rendered true flat (temp_kind true flat) old_run 5 (low_grid (f32_of_Z (-1)) (fun x => x)) tr.
Proof.
  destruct C50_sample as (_ & _ & _ & _ & V & V'). assert (M : dwd_model IconEu) by (right; reflexivity).
  assert (F : find_latest_run (fun _ _ => None) IconEu today today = Ok old_run) by (vm_compute; reflexivity).
  destruct (C59_succeeds true powi_rt served flat (fun _ _ => None) today today IconEu ["temp_2m"]%string [5] old_run 3 2 low_extent
    M V V' F old_good_run ltac:(lia) ltac:(lia) ltac:(vm_compute; reflexivity) old_addressable) as [(tr & r & R) A].
  pose proof (A tr r R) as ->. assert (St : steady served) by (intros url bs bs' H H'; unfold served in *; congruence).
  exists tr. split.
  { refine (proj2 (C55_report (sample_world (fun _ _ => None) false) "icon-eu" ["temp_2m"]%string [5] _ _ tr [] 0) (or_introl (conj R (conj eq_refl eq_refl)))).
    right. exists IconEu. split; [right; split; reflexivity|reflexivity]. }
  destruct (C59_output true powi_rt served flat (fun _ _ => None) today today IconEu ["temp_2m"]%string [5] tr M V V' St R) as (run & F' & T & _).
  rewrite F in F'. injection F' as <-. destruct (T (or_intror (or_introl eq_refl)) 5) as (g & (url & bs & d & rest & _ & Hb & Hd & Hg) & Re).
  - split; [cbn; lia|right; now left].
  - unfold served in Hb. injection Hb as ->. rewrite low_read in Hd. injection Hd as <- <-. assert (E : regular_create_and_transform powi_rt low_doc (f32_of_Z (-1)) (fun x => x) =
      Ok (low_grid (f32_of_Z (-1)) (fun x => x))) by (vm_compute; reflexivity). rewrite E in Hg. injection Hg as <-. exact Re.
Qed.

(** ** C61: histories of calls *)

(** C61.  Any number of calls with other models, each of them killed at any time or ended in any way, with or without
    errors of the disk, leaves every file in the directory of a model as it was. *)
Theorem C61_untouched : forall calls dir q tr, Forall (fun c => sane (fst c)) calls -> contains "/" dir = false ->
  Forall (fun c => ~ may_write (ar_model (snd c)) dir) calls -> inside dir q -> happened calls tr ->
  forall before, file_after q before tr = before.
Proof. exact c61_untouched_proof. Qed.
Print Assumptions C61_untouched.
(** C61.  What a call has rendered is there, with its content, after any calls before it and any calls with other
    models after it. *)
Theorem C61_kept : forall chk m k run n l earlier w a later t1 tr printed code t2,
  rendered chk m k run n l tr -> Forall (fun c => sane (fst c)) later ->
  happened earlier t1 -> main w a tr printed code -> happened later t2 ->
  Forall (fun c => ~ may_write (ar_model (snd c)) (model_dir (run_model run))) later ->
  rendered chk m k run n l (t1 ++ tr ++ t2).
Proof. exact c61_kept_proof. Qed.
Print Assumptions C61_kept.

(** The sample call is killed after three effects, the program is called with a wrong name, then the sample call runs to its end, and
    then there is a call for the other service on a faulty disk. *)
Example C61_sample : exists tr,
  happened [(sample_world sample_heads false, call "icon-d2" sample_variables [5; 6]); (sample_world sample_heads false, call "icon" [] [])] (firstn 3 tr) /\
  main (sample_world sample_heads false) (call "icon-d2" sample_variables [5; 6]) tr [] 0 /\
  rendered true flat (temp_kind true flat) the_run 5 (low_grid (f32_of_Z (-1)) (fun x => x)) tr /\
  forall t2, happened [(sample_world sample_heads true, call "icon-ch1" [] [])] t2 ->
    rendered true flat (temp_kind true flat) the_run 5 (low_grid (f32_of_Z (-1)) (fun x => x)) (firstn 3 tr ++ tr ++ t2).
Proof.
  destruct sample_call as (tr & M & T). exists tr.
  assert (E : happened [(sample_world sample_heads false, call "icon-d2" sample_variables [5; 6]); (sample_world sample_heads false, call "icon" [] [])] (firstn 3 tr)).
  { exists (firstn 3 tr), (skipn 3 tr), [], 0, []. rewrite firstn_skipn, app_nil_r. split; [exact M|]. split; [|reflexivity].
    exists [], [], ["unknown model: icon"%string], 0, []. split; [|split; reflexivity]. split; [reflexivity|]. split; reflexivity. }
  split; [exact E|]. split; [exact M|]. split; [exact T|]. intros t2 H.
  refine (C61_kept true flat (temp_kind true flat) the_run 5 _ _ _ _ [(sample_world sample_heads true, call "icon-ch1" [] [])] _ tr [] 0 t2 T _ E M H _).
  - constructor; [apply sample_sane|constructor].
  - constructor; [|constructor]. intros [X|[X _]]; discriminate X.
Qed.
