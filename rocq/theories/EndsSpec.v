(** Servers that answer (C93). *)
From Coq Require Import String List.
From Verif Require Import Base FetchModel SwissModel CliModel.

(** Every request is answered by something: a file, a list, or an error. *)
Definition answering (w : world) : Prop :=
  (forall url, exists o, wo_fetch w url o) /\ (forall rq, exists o, sv_search (wo_service w) rq o) /\ (exists o, sv_assets (wo_service w) o) /\
  (forall url, exists o, sv_fetch (wo_service w) url o).
