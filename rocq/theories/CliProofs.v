(** Proofs about the command line program (C55, C61). *)
From Coq Require Import Ascii String ZArith List Bool Lia.
From Verif Require Import Base F32 Par TileModel ChartModel Text TextFacts ForecastModel ForecastSpec ForecastProofs FetchModel FetchSpec DwdModel DwdSpec DwdProofs
  SwissModel SwissSpec SwissProofs CliModel CliSpec.
Import ListNotations.
Open Scope Z_scope.

Lemma c55_report_proof : forall w name variables steps p, rendering w name variables steps p -> forall tr printed code,
  main w {| ar_model := name; ar_variables := variables; ar_steps := steps |} tr printed code <->
  (p tr (Ok tt) /\ printed = [] /\ code = 0) \/
  (exists e, p tr (Err e) /\ printed = [("error while rendering " ++ name ++ " forecast: " ++ wo_text w e)%string] /\ code = 0) \/
  (p tr Panic /\ printed = [] /\ code = 101).
Proof.
  intros w name variables steps p R tr printed code.
  assert (E : main w {| ar_model := name; ar_variables := variables; ar_steps := steps |} = reporting w name p).
  { destruct R as [[-> ->]|(model & [[-> ->]|[-> ->]] & ->)]; reflexivity. }
  rewrite E. unfold reporting. split.
  - intros ([[]|e|] & P & H); [left|right; left; exists e|right; right]; tauto.
  - intros [(P & H)|[(e & P & H)|(P & H)]]; eauto.
Qed.
Lemma c55_unknown_proof : forall w a, ~ In (ar_model a) ["icon-ch1"; "icon-d2"; "icon-eu"]%string -> forall tr printed code,
  main w a tr printed code <-> tr = [] /\ printed = [("unknown model: " ++ ar_model a)%string] /\ code = 0.
Proof.
  intros w a N tr printed code. unfold main. cbn [In] in N.
  destruct (String.eqb_spec (ar_model a) "icon-ch1"), (String.eqb_spec (ar_model a) "icon-d2"), (String.eqb_spec (ar_model a) "icon-eu");
    try (exfalso; apply N; rewrite_all e; auto; fail); try reflexivity; exfalso; apply N; auto.
Qed.
Lemma output_inside run n t rest : inside (model_name (run_model run)) (output_path run n t ++ rest).
Proof. unfold output_path. eexists. rewrite !append_assoc. reflexivity. Qed.
Lemma dwd_found_model head model today today' run : dwd_model model -> find_latest_run head model today today' = Ok run ->
  run_model run = model \/ run_model run = IconD2.
Proof.
  intros M F. destruct (c50_latest_proof head model today today' M) as (run' & F' & [(name & later & -> & _)|(-> & _)]); rewrite F in F'; injection F' as ->; cbn; auto.
Qed.
Lemma c55_files_proof : forall w a tr printed code e p, sane w -> main w a tr printed code -> In e tr -> effect_path e = Some p ->
  exists dir, may_write (ar_model a) dir /\ In dir ["icon-ch1"; "icon-d2"; "icon-eu"]%string /\ inside dir p.
Proof.
  intros w [name variables steps] tr printed code e p (V & V' & D) M J P. unfold main in M. cbn [ar_model ar_variables ar_steps] in *.
  destruct (String.eqb_spec name "icon-ch1") as [->|N1].
  { destruct M as (r & M & _). destruct (c54_swiss_paths_proof _ _ _ _ _ _ _ _ _ _ _ _ D M J P) as (u & hs & t & ty & l & n & rest & _ & _ & _ & _ & _ & _ & ->).
    exists "icon-ch1"%string. split; [left; reflexivity|]. split; [cbn; auto|]. exact (output_inside (swiss_run_of t) (Z.of_nat n) ty rest). }
  destruct (String.eqb_spec name "icon-d2") as [->|N2].
  { destruct M as (r & M & _). assert (Md : dwd_model IconD2) by (left; reflexivity).
    destruct (c54_dwd_paths_proof _ _ _ _ _ _ _ _ _ _ _ _ _ _ _ Md V V' M J P) as (run & t & n & rest & F & _ & _ & _ & ->).
    exists "icon-d2"%string. split; [left; reflexivity|]. split; [cbn; auto|]. pose proof (output_inside run n t rest) as H.
    destruct (dwd_found_model _ _ _ _ _ Md F) as [E|E]; rewrite E in H; exact H. }
  destruct (String.eqb_spec name "icon-eu") as [->|N3].
  { destruct M as (r & M & _). assert (Md : dwd_model IconEu) by (right; reflexivity).
    destruct (c54_dwd_paths_proof _ _ _ _ _ _ _ _ _ _ _ _ _ _ _ Md V V' M J P) as (run & t & n & rest & F & _ & _ & _ & ->).
    pose proof (output_inside run n t rest) as H. destruct (dwd_found_model _ _ _ _ _ Md F) as [E|E]; rewrite E in H; [exists "icon-eu"%string|exists "icon-d2"%string];
      (split; [unfold may_write; auto|split; [cbn; auto|exact H]]). }
  destruct M as (-> & _). contradiction.
Qed.
Lemma file_after_app q t1 : forall t2 before, file_after q before (t1 ++ t2) = file_after q (file_after q before t1) t2.
Proof. induction t1 as [|e t1 IH]; intros t2 before; cbn [app file_after]; auto. Qed.
Lemma file_after_untouched q tr : (forall e p, In e tr -> effect_path e = Some p -> p <> q) -> forall before, file_after q before tr = before.
Proof.
  induction tr as [|e tr IH]; intros H before; [reflexivity|]. cbn [file_after]. rewrite IH by (intros e' p J; apply (H e' p); now right).
  assert (X : forall p, effect_path e = Some p -> p <> q) by (intros p; apply H; now left).
  destruct e as [s| |p|p d|p d|p|p b]; try reflexivity; (destruct (String.eqb_spec p q) as [->|N]; [exfalso; apply (X q eq_refl eq_refl)|reflexivity]).
Qed.
Lemma inside_inj d d' p : contains "/" d = false -> contains "/" d' = false -> inside d p -> inside d' p -> d = d'.
Proof.
  intros C C' (rest & ->) (rest' & E). apply append_inv_head in E.
  apply (sep_inv "/" d d' rest rest' C C') in E. destruct E as [E _]. exact E.
Qed.
Lemma c61_untouched_proof : forall calls dir q tr, Forall (fun c => sane (fst c)) calls -> contains "/" dir = false ->
  Forall (fun c => ~ may_write (ar_model (snd c)) dir) calls -> inside dir q -> happened calls tr ->
  forall before, file_after q before tr = before.
Proof.
  intros calls dir q. induction calls as [|[w a] calls IH]; intros tr S C N I H before; cbn [happened] in H.
  - subst tr. reflexivity.
  - destruct H as (done & missed & printed & code & tr' & M & H & ->). rewrite file_after_app. inversion S as [|? ? S1 S2]; subst. inversion N as [|? ? N1 N2]; subst. cbn [fst snd] in *.
    rewrite (IH tr' S2 C N2 I H). apply file_after_untouched. intros e p J P ->.
    destruct (c55_files_proof w a _ _ _ e q S1 M (in_or_app _ _ _ (or_introl J)) P) as (dir' & W & J' & I').
    assert (Ed : dir' = dir) by (apply (inside_inj dir' dir q); try assumption; cbn in J'; destruct J' as [<-|[<-|[<-|[]]]]; reflexivity).
    subst dir'. exact (N1 W).
Qed.
Lemma c61_kept_proof : forall chk m k run n l earlier w a later t1 tr printed code t2,
  rendered chk m k run n l tr -> Forall (fun c => sane (fst c)) later ->
  happened earlier t1 -> main w a tr printed code -> happened later t2 ->
  Forall (fun c => ~ may_write (ar_model (snd c)) (model_dir (run_model run))) later ->
  rendered chk m k run n l (t1 ++ tr ++ t2).
Proof.
  intros chk m k run n l earlier w a later t1 tr printed code t2 [C R] S _ _ H N. replace (model_dir (run_model run)) with (model_name (run_model run)) in N by (destruct (run_model run); reflexivity). split; [exact C|]. intros f c P before. rewrite !file_after_app, (R f c P).
  apply (c61_untouched_proof later (model_name (run_model run))); try assumption.
  - destruct (run_model run); reflexivity.
  - destruct f as [t zoom x y|b]; cbn [file_path]; apply output_inside.
Qed.
