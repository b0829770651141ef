(** The property C91: which files and directories the program can touch. *)
From Coq Require Import Ascii String ZArith List Bool Lia.
From Verif Require Import Base F32 F32Facts Grib2FloatProofs GeoModel Par Text TextSpec TileModel TileProperties ChartModel ForecastModel ForecastSpec ForecastProofs FetchModel FetchSpec DwdModel DwdSpec DwdProperties
  SwissModel SwissSpec SwissProperties CliModel CliSpec CliProperties OverlapProperties ConfinedSpec ConfinedProofs.
Import ListNotations.
Open Scope Z_scope.

(** C91.  Whatever the servers answer and however the calls end, a history of calls touches only the files of published forecasts and
    their directories, for a model that one of the calls may write for. *)
Theorem C91_program : forall calls tr e, Forall (fun c => sane (fst c)) calls -> happened calls tr -> In e tr ->
  exists w a m, In (w, a) calls /\ may_write (ar_model a) (model_dir m) /\ confined m e.
Proof. exact c91_program_proof. Qed.
Print Assumptions C91_program.
(** C91.  German service: the model is the one asked for, or ICON-D2. *)
Theorem C91_dwd : forall chk powi fetch m faulty head today today' model vars steps tr r e,
  dwd_model model -> valid_date today -> valid_date (prev_day today') ->
  dwd_render_latest chk powi fetch m faulty head today today' model vars steps tr r -> In e tr -> exists m', (m' = model \/ m' = IconD2) /\ confined m' e.
Proof. exact c91_dwd_proof. Qed.
Print Assumptions C91_dwd.
(** C91.  Swiss service. *)
Theorem C91_swiss : forall chk powi rfc3339 sv m faulty steps vars tr r e,
  dated rfc3339 sv -> swiss_render_latest chk powi rfc3339 sv m faulty steps vars tr r -> In e tr -> confined IconCh1 e.
Proof. exact c91_swiss_proof. Qed.
Print Assumptions C91_swiss.
(** C91.  Such a path is below the directory of the model, and has no two dots in a row that would lead out of it. *)
Theorem C91_below : forall m p, published m p \/ published_dir m p -> inside (model_dir m) p /\ forall a b, p <> (a ++ ".." ++ b)%string.
Proof. exact c91_below_proof. Qed.
Print Assumptions C91_below.

(** The sample call writes the file of the temperatures of step 5. *)
Definition temp_path : string := file_path the_run 5 (BinFile BinTemp).
Example C91_sample : temp_path = "./output/icon-d2/2024030106/005/temp/TEMP.meteobin"%string /\
  exists tr e, happened [(sample_world sample_heads false, call "icon-d2" sample_variables [5; 6])] tr /\ sane (sample_world sample_heads false) /\ In e tr /\ effect_path e = Some temp_path.
Proof.
  split; [vm_compute; reflexivity|]. destruct sample_call as (tr & M & [[_ Cb] T]). exists tr.
  destruct (Cb BinTemp _ (or_introl eq_refl)) as (data & Ed).
  assert (Q : file_after temp_path None tr = Some (Data data)) by (apply (T (BinFile BinTemp)); exists data; split; [left; rewrite <- Ed; reflexivity|reflexivity]).
  destruct (existsb (fun e => match effect_path e with Some p => String.eqb p temp_path | None => false end) tr) eqn:Ex.
  - apply existsb_exists in Ex. destruct Ex as (e & J & Ep). destruct (effect_path e) as [p|] eqn:P; [|discriminate]. apply String.eqb_eq in Ep. subst p. exists e.
    split; [|split; [apply sample_sane|split; [exact J|exact P]]]. exists tr, [], [], 0, []. rewrite !app_nil_r. split; [exact M|]. split; reflexivity.
  - exfalso. rewrite CliProofs.file_after_untouched in Q; [discriminate|]. intros e p J P E. subst p.
    assert (N : existsb (fun e => match effect_path e with Some p => String.eqb p temp_path | None => false end) tr = true).
    { apply existsb_exists. exists e. split; [exact J|]. rewrite P. apply String.eqb_refl. }
    congruence.
Qed.
(** Other paths are not touched, also if they begin in the same way. *)
Example C91_others : ~ published IconD2 "/etc/passwd" /\ ~ published IconD2 "./output/icon-d2/../../secret" /\ ~ published_dir IconD2 "./output/icon-eu/2024030106/005/temp/".
Proof.
  split; [|split]; intro H.
  - destruct (C91_below IconD2 _ (or_introl H)) as [(rest & E) _]. discriminate E.
  - destruct (C91_below IconD2 _ (or_introl H)) as [_ N]. apply (N "./output/icon-d2/" "/../secret")%string. reflexivity.
  - destruct (C91_below IconD2 _ (or_intror H)) as [(rest & E) _]. discriminate E.
Qed.
