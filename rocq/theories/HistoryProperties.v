(** The property C83: the runs that successive calls take. *)
From Coq Require Import Ascii String ZArith List Bool Lia Sorted.
From Verif Require Import Base F32 GeoModel Par TileModel ChartModel Text TextSpec ForecastModel ForecastSpec FetchModel FetchSpec
  DwdModel DwdSpec DwdProofs DwdProperties OverlapSpec HistorySpec HistoryProofs.
Import ListNotations.
Open Scope Z_scope.

(** C83.  Successive calls for a model never go back to an earlier run, if files that were found do not vanish on the same day: the runs
    that they take start in this order. *)
Theorem C83_forward : forall m calls runs, dwd_model m -> Forall possible calls -> ForallOrdPairs (follows m) calls -> Forall2 (takes m) calls runs ->
  exists hours, Forall2 starts_at runs hours /\ StronglySorted Z.le hours.
Proof. exact c83_forward_proof. Qed.
Print Assumptions C83_forward.
(** C83.  So what a call writes, however it ends, is for a run that does not start before those of the calls before. *)
Theorem C83_written : forall chk powi fetch m faulty model calls ts, dwd_model model -> Forall possible calls -> ForallOrdPairs (follows model) calls ->
  Forall2 (fun c tr => part_of (dwd_render_latest chk powi (fetch c) m faulty (ca_heads c) (ca_begin c) (ca_end c) model (ca_vars c) (ca_steps c)) tr) calls ts ->
  exists hours, Forall2 written_for ts hours /\ StronglySorted Z.le hours.
Proof. exact c83_written_proof. Qed.
Print Assumptions C83_written.
(** C83.  The run of a call starts at 21 h of the day before the call or later, and not on a day after the call. *)
Theorem C83_recent : forall m c run, dwd_model m -> possible c -> takes m c run ->
  exists h, starts_at run h /\ 24 * day_number (ca_begin c) - 3 <= h < 24 * (day_number (ca_end c) + 1).
Proof. exact c83_recent_proof. Qed.
Print Assumptions C83_recent.

(** A day's calls and one of the next day: nothing yet, then the runs 03 and 06, then 09 too, then nothing of the next day. *)
Definition has (names : list string) (n : nat) (url : string) : option Z :=
  if existsb (fun name => String.prefix ("https://opendata.dwd.de/weather/nwp/icon-d2/grib/" ++ name ++ "/") url) names then Some 200 else Some 404.
Definition at_day (d : date) (names : list string) : call := {| ca_heads := has names; ca_begin := d; ca_end := d; ca_vars := []; ca_steps := [] |}.
Definition next : date := day_of 2024 3 2.
Definition sample_calls : list call := [at_day today []; at_day today ["03"; "06"]%string; at_day today ["03"; "06"; "09"]%string; at_day next []].
Lemma has_more names names' n n' u : incl names names' -> has names n u = Some 200 -> has names' n' u = Some 200.
Proof.
  unfold has. intros I H. destruct (existsb _ names) eqn:E; [|discriminate]. apply existsb_exists in E. destruct E as (x & J & Q).
  assert (E' : existsb (fun name => String.prefix ("https://opendata.dwd.de/weather/nwp/icon-d2/grib/" ++ name ++ "/") u) names' = true).
  { apply existsb_exists. exists x. split; [exact (I _ J)|exact Q]. }
  now rewrite E'.
Qed.
Example C83_sample : Forall possible sample_calls /\ ForallOrdPairs (follows IconD2) sample_calls /\
  Forall2 (takes IconD2) sample_calls [run_of IconD2 (day_of 2024 2 29) "21"; run_of IconD2 today "06"; run_of IconD2 today "09"; run_of IconD2 today "21"].
Proof.
  split; [|split].
  - repeat constructor; vm_compute; discriminate.
  - repeat constructor; try (vm_compute; discriminate); cbn [ca_begin ca_heads at_day]; intros E name f u n n' _ _; first [discriminate E|apply has_more; intros x J; cbn in *; tauto].
  - repeat constructor; vm_compute; reflexivity.
Qed.
(** Finding: the run of the day before is not looked for.  A call that begins before midnight and ends after it takes the last run of the day,
    although it has just been told that it is not there. *)
Example C83_unchecked : let c := {| ca_heads := has []; ca_begin := today; ca_end := next; ca_vars := []; ca_steps := [] |} in
  possible c /\ takes IconD2 c (run_of IconD2 today "21") /\ incomplete_run (ca_heads c) (run_of IconD2 today "21").
Proof.
  cbv zeta. split; [repeat constructor; vm_compute; discriminate|]. split; [vm_compute; reflexivity|].
  exists (SingleFile T2m (last_step IconD2)). eexists. exists 0%nat. split; [left; eexists; reflexivity|]. split; [reflexivity|]. vm_compute. discriminate.
Qed.
