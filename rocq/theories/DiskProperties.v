(** Disks that fail (C87): what a success of a call tells about the files. *)
From Coq Require Import String ZArith List Lia.
From Verif Require Import Base F32 Grib2FloatProofs GeoModel Par TileModel TileProperties ChartModel MetobinModel ForecastModel ForecastSpec ForecastProperties FetchModel FetchSpec DwdModel DwdSpec DwdProofs
  DwdProperties SwissModel SwissSpec SwissProperties OverlapSpec OverlapProofs OverlapProperties DiskSpec DiskProofs.
Import ListNotations.
Open Scope Z_scope.

(** C87.  One layer: if the rendering ends well on a disk that may fail, then for every tile and every data file of a selected step that is not of
    a vertical layer its directory is there; the file holds the image or pieces of it, or a beginning of its data, or it is a tile or a vertical
    data file and as it was before.  All other files are as they were. *)
Theorem C87_success : forall chk m k, In k (kinds chk m) -> forall run steps filter read tr,
  valid_run run -> Forall (fun s => 0 <= st_nr s) steps -> NoDup (map st_nr steps) -> stable read ->
  k_render k true run steps filter read tr (Ok tt) ->
  (forall s l f c, In s steps -> wanted filter s -> read s (Ok l) -> produces chk m k run l f c ->
     (~ vertical_file f -> has_dir tr (file_path run (st_nr s) f)) /\
     forall before, (exists found, beginning true c found /\ file_after (file_path run (st_nr s) f) before tr = Some found) \/
       (unnoticed f /\ file_after (file_path run (st_nr s) f) before tr = before)) /\
  (forall q, (forall s l f c, In s steps -> wanted filter s -> read s (Ok l) -> produces chk m k run l f c -> q <> file_path run (st_nr s) f) ->
     forall before, file_after q before tr = before).
Proof. exact c87_success_proof. Qed.
Print Assumptions C87_success.
(** C87.  A whole call for the German service. *)
Theorem C87_dwd : forall chk powi fetch m head today today' model vars steps tr,
  dwd_model model -> valid_date today -> valid_date (prev_day today') -> steady fetch ->
  dwd_render_latest chk powi fetch m true head today today' model vars steps tr (Ok tt) ->
  exists run, find_latest_run head model today today' = Ok run /\
    (forall q c, belongs chk powi fetch m [(vars, steps)] run q c -> forall before,
       (exists found, beginning true c found /\ file_after q before tr = Some found) \/ (unnoticed_path run q /\ file_after q before tr = before)) /\
    (forall q, (forall c, ~ belongs chk powi fetch m [(vars, steps)] run q c) -> forall before, file_after q before tr = before).
Proof. exact c87_dwd_proof. Qed.
Print Assumptions C87_dwd.
(** C87.  A whole call for the Swiss service. *)
Theorem C87_swiss : forall chk powi rfc3339 sv m vars steps tr, dated rfc3339 sv -> settled sv ->
  swiss_render_latest chk powi rfc3339 sv m true steps vars tr (Ok tt) ->
  exists u heights t, started chk powi rfc3339 sv u heights t /\
    (forall q c, swiss_belongs chk powi rfc3339 sv m [(vars, steps)] q c -> forall before,
       (exists found, beginning true c found /\ file_after q before tr = Some found) \/ (unnoticed_path (swiss_run_of t) q /\ file_after q before tr = before)) /\
    (forall q, (forall c, ~ swiss_belongs chk powi rfc3339 sv m [(vars, steps)] q c) -> forall before, file_after q before tr = before).
Proof. exact c87_swiss_proof. Qed.
Print Assumptions C87_swiss.
(** C87.  The data files of the layers that are not vertical are not among those that may be as before. *)
Theorem C87_noticed : forall run n b, ~ vertical_file (BinFile b) -> ~ unnoticed_path run (file_path run n (BinFile b)).
Proof. exact c87_noticed_proof. Qed.
Print Assumptions C87_noticed.
(** C87.  A disk that may fail need not: whatever a call can do on a sound disk it can do on that one. *)
Theorem C87_sound : forall chk powi fetch rfc3339 sv m head today today' model vars steps tr r,
  (dwd_render_latest chk powi fetch m false head today today' model vars steps tr r -> dwd_render_latest chk powi fetch m true head today today' model vars steps tr r) /\
  (swiss_render_latest chk powi rfc3339 sv m false steps vars tr r -> swiss_render_latest chk powi rfc3339 sv m true steps vars tr r).
Proof. exact c87_sound_proof. Qed.
Print Assumptions C87_sound.
(** C87.  Finding: however the rendering of a layer, or a whole call, can end on a sound disk, it can end the same way on a failing one
    without one image saved and without one byte written.  In particular a success does not tell that anything was written. *)
Theorem C87_lost : forall chk m k, In k (kinds chk m) -> forall run steps filter read tr r, k_render k false run steps filter read tr r ->
  exists tr', k_render k true run steps filter read tr' r /\ no_content tr'.
Proof. exact c87_lost_proof. Qed.
Print Assumptions C87_lost.
Theorem C87_dwd_lost : forall chk powi fetch m head today today' model vars steps tr r,
  dwd_render_latest chk powi fetch m false head today today' model vars steps tr r ->
  exists tr', dwd_render_latest chk powi fetch m true head today today' model vars steps tr' r /\ no_content tr'.
Proof. exact c87_dwd_lost_proof. Qed.
Print Assumptions C87_dwd_lost.
Theorem C87_swiss_lost : forall chk powi rfc3339 sv m steps vars tr r, swiss_render_latest chk powi rfc3339 sv m false steps vars tr r ->
  exists tr', swiss_render_latest chk powi rfc3339 sv m true steps vars tr' r /\ no_content tr'.
Proof. exact c87_swiss_lost_proof. Qed.
Print Assumptions C87_swiss_lost.

(** C87.  Finding: nor does a success tell that an image is whole: however a rendering, or a whole call, can end on a sound disk, it can end
    the same way with each of its images begun and none completed, and all else done. *)
Theorem C87_kind_pieces : forall chk m k, In k (kinds chk m) -> forall run steps filter read tr r, valid_run run -> Forall (fun s => 0 <= st_nr s) steps ->
  k_render k false run steps filter read tr r -> exists tr', k_render k true run steps filter read tr' r /\ in_pieces tr tr'.
Proof. exact c87_kind_pieces_proof. Qed.
Print Assumptions C87_kind_pieces.
Theorem C87_pieces : forall chk powi fetch rfc3339 sv m head today today' model vars steps tr r,
  (dwd_model model -> valid_date today -> valid_date (prev_day today') -> dwd_render_latest chk powi fetch m false head today today' model vars steps tr r ->
   exists tr', dwd_render_latest chk powi fetch m true head today today' model vars steps tr' r /\ in_pieces tr tr') /\
  (dated rfc3339 sv -> swiss_render_latest chk powi rfc3339 sv m false steps vars tr r ->
   exists tr', swiss_render_latest chk powi rfc3339 sv m true steps vars tr' r /\ in_pieces tr tr').
Proof. exact c87_pieces_proof. Qed.
Print Assumptions C87_pieces.

(** A call of the sample run that ends well although nothing was written: the temperatures of step 5 are then an empty file, and the old ones
    are gone.  On the same disk it may also end well with the file complete. *)
Lemma sample_asked : asked [(sample_variables, [5; 6])] the_run Temp2m 5.
Proof. exists (sample_variables, [5; 6]). split; [now left|]. split; [right; right; left; reflexivity|]. split; [cbn; lia|right; now left]. Qed.
Example C87_sample : temp_data <> [] /\ (exists tr, dwd_render_latest true powi_rt served flat true sample_heads today today IconD2 sample_variables [5; 6] tr (Ok tt) /\ no_content tr /\
    forall before, file_after (temp_file 5) before tr = Some (Data [])) /\
  exists tr, dwd_render_latest true powi_rt served flat true sample_heads today today IconD2 sample_variables [5; 6] tr (Ok tt) /\
    forall before, file_after (temp_file 5) before tr = Some (Data temp_data).
Proof.
  split; [exact temp_data_some|]. destruct (sample_runs sample_variables [5; 6]) as (t0 & R0). destruct C50_sample as (Fr & M & _ & _ & V & V').
  assert (N : ~ unnoticed_path the_run (temp_file 5)) by (apply C87_noticed; intros [X|X]; discriminate). split.
  - destruct (C87_dwd_lost _ _ _ _ _ _ _ _ _ _ _ _ R0) as (tr & R & NC). exists tr. split; [exact R|]. split; [exact NC|].
    destruct (C87_dwd true powi_rt served flat sample_heads today today IconD2 sample_variables [5; 6] tr M V V' served_steady R) as (run & Fr' & H & _). rewrite Fr in Fr'. injection Fr' as <-.
    specialize (H _ _ (temp_belongs _ 5 sample_asked)). intros before. destruct (H None) as [(found & _ & E)|[X _]]; [|contradiction].
    destruct (lost_empty (temp_file 5) tr NC None) as [E'|E']; [rewrite E' in E; discriminate E|]. rewrite file_after_hit in *. destruct (last_hit (temp_file 5) tr); [exact E'|discriminate E'].
  - exists t0. split; [exact (proj1 (C87_sound true powi_rt served zulu swiss_sample flat sample_heads today today IconD2 sample_variables [5; 6] t0 (Ok tt)) R0)|].
    exact (dwd_complete true powi_rt served flat sample_heads today today IconD2 (sample_variables, [5; 6]) t0 the_run M V V' served_steady R0 Fr _ _ (temp_belongs _ 5 sample_asked)).
Qed.
(** The same for the Swiss service: a call that ends well with nothing written. *)
Example C87_swiss_sample : dated zulu swiss_sample /\ settled swiss_sample /\
  exists tr, swiss_render_latest true powi_rt zulu swiss_sample flat true [1; 2] ["wind_10m"; "vertical_cloud"]%string tr (Ok tt) /\ no_content tr.
Proof.
  split; [exact swiss_sample_dated|]. split; [exact swiss_sample_settled|]. destruct (swiss_runs ["wind_10m"; "vertical_cloud"]%string [1; 2]) as (t0 & R0).
  exact (C87_swiss_lost _ _ _ _ _ _ _ _ _ R0).
Qed.
(** A call that ends well with an image that is only begun. *)
Example C87_pieces_sample : exists tr q d, dwd_render_latest true powi_rt served flat true sample_heads today today IconD2 ["temp_2m"%string] [5] tr (Ok tt) /\
  In (EPart q d) tr /\ forall q' d', ~ In (EImage q' d') tr.
Proof.
  destruct sample_image as (tr & q & d & R & J). destruct C50_sample as (_ & M & _ & _ & V & V').
  destruct (proj1 (C87_pieces true powi_rt served zulu swiss_sample flat sample_heads today today IconD2 ["temp_2m"%string] [5] tr (Ok tt)) M V V' R) as (tr' & R' & N & B & _).
  exists tr', q, d. split; [exact R'|]. split; [exact (B q d J)|exact N].
Qed.
