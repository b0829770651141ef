(** The vocabulary of C83: successive calls for a model of the German weather service. *)
From Coq Require Import String ZArith List Bool.
From Verif Require Import Base F32 GeoModel Par TileModel ChartModel Text TextSpec ForecastModel ForecastSpec FetchModel FetchSpec DwdModel DwdSpec OverlapSpec.
Import ListNotations.
Open Scope Z_scope.

(** A call: what the server answers to the questions which files are there, the date when the search begins and the date when it
    has ended (the clock is read twice), the names of the layers and the numbers of the steps. *)
Record call := { ca_heads : heads; ca_begin : date; ca_end : date; ca_vars : list string; ca_steps : list Z }.
Definition possible (c : call) : Prop :=
  valid_date (ca_begin c) /\ valid_date (ca_end c) /\ 1 <= day_number (ca_begin c) <= day_number (ca_end c).
(** The second call follows the first one, and a file of a run of the day that was found in the first one is found in the second one,
    if that is on the same day. *)
Definition follows (m : fc_model) (c c' : call) : Prop :=
  day_number (ca_end c) <= day_number (ca_begin c') /\
  (ca_begin c = ca_begin c' -> forall name f u n n', probed m f -> dwd_url (run_of m (ca_begin c) name) f = Ok u ->
     ca_heads c n u = Some 200 -> ca_heads c' n' u = Some 200).
(** The run that a call takes. *)
Definition takes (m : fc_model) (c : call) (run : fc_run) : Prop := find_latest_run (ca_heads c) m (ca_begin c) (ca_end c) = Ok run.
(** The run starts at this hour, counted from the beginning of 1 January 0000. *)
Definition starts_at (run : fc_run) (hour : Z) : Prop :=
  exists h, padded 2 (run_name run) h /\ 0 <= h < 24 /\ hour = 24 * day_number (run_date run) + h.
(** All that was written is in the directory of a run that starts at this hour. *)
Definition written_for (tr : list effect) (hour : Z) : Prop :=
  exists run, starts_at run hour /\ forall e p, In e tr -> effect_path e = Some p ->
    exists rest, p = ("./output/" ++ model_name (run_model run) ++ "/" ++ date_text (run_date run) ++ run_name run ++ "/" ++ rest)%string.
