(** The property C89: it does not matter in which way layers and steps are asked for. *)
From Coq Require Import String ZArith List Bool Lia.
From Verif Require Import Base Par ParFacts ImagingModel GeoModel TileModel ChartModel MetobinModel Text ForecastModel ForecastSpec FetchModel FetchSpec DwdModel DwdSpec SwissModel SwissSpec
  Grib2FloatProofs TileProperties DwdProperties SwissProperties OverlapSpec OverlapProperties HistorySpec SplitSpec SplitProofs.
Import ListNotations.
Open Scope Z_scope.

(** C89.  German service: two series of calls that take the same run and together ask for the same layers and steps leave the same content
    in every file if all calls succeed, whatever was in it before.  The calls of a series may be made at the same time, under any schedule. *)
Theorem C89_dwd : forall chk powi fetch m model run calls calls' ts ts' tr tr', dwd_model model -> steady fetch ->
  Forall (fun c => possible c /\ takes model c run) (calls ++ calls') -> asks_same (map asks calls) (map asks calls') ->
  let runs c t := dwd_render_latest chk powi fetch m false (ca_heads c) (ca_begin c) (ca_end c) model (ca_vars c) (ca_steps c) t (Ok tt) in
  Forall2 runs calls ts -> interleaving ts tr -> Forall2 runs calls' ts' -> interleaving ts' tr' ->
  forall q before, found_after q before tr = found_after q before tr'.
Proof. exact c89_dwd_proof. Qed.
Print Assumptions C89_dwd.
(** C89.  The same for the Swiss service. *)
Theorem C89_swiss : forall chk powi rfc3339 sv m calls calls' ts ts' tr tr', dated rfc3339 sv -> settled sv -> asks_same calls calls' ->
  let runs c t := swiss_render_latest chk powi rfc3339 sv m false (snd c) (fst c) t (Ok tt) in
  Forall2 runs calls ts -> interleaving ts tr -> Forall2 runs calls' ts' -> interleaving ts' tr' ->
  forall q before, found_after q before tr = found_after q before tr'.
Proof. exact c89_swiss_proof. Qed.
Print Assumptions C89_swiss.
(** C89.  A call may be split into one for some of its layers and one for the others, if there are such, ... *)
Theorem C89_layers : forall vars vars' steps, vars <> [] -> vars' <> [] -> asks_same [(vars ++ vars', steps)] [(vars, steps); (vars', steps)].
Proof. exact c89_layers_proof. Qed.
Print Assumptions C89_layers.
(** ... or for some of its steps and for the others; ... *)
Theorem C89_steps : forall vars steps steps', steps <> [] -> steps' <> [] -> asks_same [(vars, steps ++ steps')] [(vars, steps); (vars, steps')].
Proof. exact c89_steps_proof. Qed.
Print Assumptions C89_steps.
(** ... the order of the names and steps and repetitions among them do not matter; ... *)
Theorem C89_order : forall vars vars' steps steps', (forall x, In x vars <-> In x vars') -> (forall n, In n steps <-> In n steps') -> asks_same [(vars, steps)] [(vars', steps')].
Proof. exact c89_order_proof. Qed.
Print Assumptions C89_order.
(** ... nor do the order of the calls and repetitions of calls; ... *)
Theorem C89_calls : forall calls calls', (forall c, In c calls <-> In c calls') -> asks_same calls calls'.
Proof. exact c89_calls_proof. Qed.
Print Assumptions C89_calls.
(** ... and to name no layer is the same as to name all. *)
Theorem C89_all : forall steps, asks_same [([], steps)] [(all_layers, steps)].
Proof. exact c89_all_proof. Qed.
Print Assumptions C89_all.
(** So an empty list must not be taken for one of the parts: this asks for all layers. *)
Example C89_empty : ~ asks_same [(["temp_2m"%string], [5])] [(["temp_2m"%string], [5]); ([], [5])].
Proof.
  intro H. destruct (proj2 (H Wind10m 5)) as (c & [<-|[]] & [E|[E|[]]] & _); [|discriminate E|discriminate E].
  exists ([], [5]). split; [cbn; auto|]. split; [now left|right; now left].
Qed.

(** The temperatures and the winds of the steps 5 and 6 in one call, or in a call for each at the same time: the same files, such as that of
    the temperatures of step 6. *)
Definition on_that_day (vars : list string) (steps : list Z) : call :=
  {| ca_heads := sample_heads; ca_begin := today; ca_end := today; ca_vars := vars; ca_steps := steps |}.
Lemma on_that_day_takes vars steps : possible (on_that_day vars steps) /\ takes IconD2 (on_that_day vars steps) the_run.
Proof.
  destruct C50_sample as (F & _ & _ & _ & V & V'). split; [|exact F]. split; [exact V|]. split; [exact V|]. cbn [on_that_day ca_begin ca_end]. vm_compute. split; discriminate.
Qed.
Example C89_sample : exists t t1 t2,
  dwd_render_latest true powi_rt served flat false sample_heads today today IconD2 ["temp_2m"; "wind_10m"]%string [5; 6] t (Ok tt) /\
  dwd_render_latest true powi_rt served flat false sample_heads today today IconD2 ["wind_10m"]%string [6; 5; 6] t1 (Ok tt) /\
  dwd_render_latest true powi_rt served flat false sample_heads today today IconD2 ["temp_2m"]%string [5; 6] t2 (Ok tt) /\
  (forall tr, interleaving [t1; t2] tr -> forall q before, found_after q before t = found_after q before tr) /\
  forall tr, interleaving [t1; t2] tr -> found_after (temp_file 6) None tr = Some (Data temp_data).
Proof.
  destruct (sample_runs ["temp_2m"; "wind_10m"]%string [5; 6]) as (t & R). destruct (sample_runs ["wind_10m"]%string [6; 5; 6]) as (t1 & R1).
  destruct (sample_runs ["temp_2m"]%string [5; 6]) as (t2 & R2). exists t, t1, t2. split; [exact R|]. split; [exact R1|]. split; [exact R2|].
  assert (X : forall tr, interleaving [t1; t2] tr -> forall q before, found_after q before t = found_after q before tr).
  { intros tr L q before. destruct C50_sample as (F & M & _).
    refine (C89_dwd true powi_rt served flat IconD2 the_run [on_that_day ["temp_2m"; "wind_10m"]%string [5; 6]] [on_that_day ["wind_10m"]%string [6; 5; 6]; on_that_day ["temp_2m"]%string [5; 6]]
      [t] [t1; t2] t tr M served_steady _ _ _ _ _ L q before).
    - repeat constructor; apply on_that_day_takes.
    - intros ty n. cbn [map asks on_that_day ca_vars ca_steps]. unfold wants, named. split.
      + intros (c & [<-|[]] & [E|J] & [E'|J']); try discriminate; cbn [fst snd] in *. destruct J as [J|[J|[]]]; rewrite <- J.
        * exists (["temp_2m"%string], [5; 6]). cbn [fst snd]. split; [cbn; auto|]. split; [right; now left|right; exact J'].
        * exists (["wind_10m"%string], [6; 5; 6]). cbn [fst snd]. split; [cbn; auto|]. split; [right; now left|right; cbn in *; tauto].
      + intros (c & [<-|[<-|[]]] & [E|J] & [E'|J']); try discriminate; cbn [fst snd] in *; exists (["temp_2m"; "wind_10m"]%string, [5; 6]); cbn [fst snd]; (split; [cbn; auto|]);
          (split; [right; cbn in *; tauto|right; cbn in *; tauto]).
    - exact (Forall2_cons (on_that_day _ _) t R (Forall2_nil _)).
    - pose proof (interleaving_concat [t]) as Lc. cbn [concat] in Lc. rewrite app_nil_r in Lc. exact Lc.
    - exact (Forall2_cons (on_that_day _ _) t1 R1 (Forall2_cons (on_that_day _ _) t2 R2 (Forall2_nil _))). }
  split; [exact X|]. intros tr L. rewrite <- (X tr L). destruct C50_sample as (Fr & M & _ & _ & V & V').
  destruct (C75_dwd true powi_rt served flat sample_heads today today IconD2 [(["temp_2m"; "wind_10m"]%string, [5; 6])] [t] t M V V' served_steady) as (run & Fr' & H).
  { exact (Forall2_cons (_, _) t R (Forall2_nil _)). }
  { pose proof (interleaving_concat [t]) as Lc. cbn [concat] in Lc. rewrite app_nil_r in Lc. exact Lc. }
  rewrite Fr in Fr'. injection Fr' as <-. apply (proj1 (H (temp_file 6))), temp_belongs. exists (["temp_2m"; "wind_10m"]%string, [5; 6]). split; [now left|].
  split; [right; now left|]. split; [cbn; lia|right; right; now left].
Qed.
(** The same for the Swiss service: the calls of the sample succeed. *)
Example C89_swiss_sample : exists t t1 t2,
  swiss_render_latest true powi_rt zulu swiss_sample flat false [1; 2] ["wind_10m"%string] t (Ok tt) /\
  swiss_render_latest true powi_rt zulu swiss_sample flat false [1] ["wind_10m"%string] t1 (Ok tt) /\
  swiss_render_latest true powi_rt zulu swiss_sample flat false [2] ["wind_10m"%string] t2 (Ok tt) /\
  forall tr, interleaving [t1; t2] tr -> forall q before, found_after q before t = found_after q before tr.
Proof.
  destruct (swiss_runs ["wind_10m"%string] [1; 2]) as (t & R). destruct (swiss_runs ["wind_10m"%string] [1]) as (t1 & R1). destruct (swiss_runs ["wind_10m"%string] [2]) as (t2 & R2).
  exists t, t1, t2. split; [exact R|]. split; [exact R1|]. split; [exact R2|]. intros tr L q before.
  refine (C89_swiss true powi_rt zulu swiss_sample flat [(["wind_10m"%string], [1; 2])] [(["wind_10m"%string], [1]); (["wind_10m"%string], [2])]
    [t] [t1; t2] t tr swiss_sample_dated swiss_sample_settled (C89_steps ["wind_10m"%string] [1] [2] ltac:(discriminate) ltac:(discriminate)) _ _ _ L q before).
  - exact (Forall2_cons (_, _) t R (Forall2_nil _)).
  - pose proof (interleaving_concat [t]) as Lc. cbn [concat] in Lc. rewrite app_nil_r in Lc. exact Lc.
  - exact (Forall2_cons (_, _) t1 R1 (Forall2_cons (_, _) t2 R2 (Forall2_nil _))).
Qed.
