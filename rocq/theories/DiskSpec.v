(** The vocabulary of the property about disks that fail (C87). *)
From Coq Require Import String ZArith List.
From Verif Require Import Base ForecastModel ForecastSpec OverlapSpec.
Import ListNotations.

(** The data files of the vertical layers. *)
Definition vertical_file (f : out_file) : Prop := f = BinFile BinVerticalClouds \/ f = BinFile BinVerticalWind.
(** The files of which a call may leave an old version in place without saying so. *)
Definition unnoticed (f : out_file) : Prop := (exists t zoom x y, f = TileFile t zoom x y) \/ vertical_file f.
(** No image file is created and no byte is written. *)
Definition no_content (tr : list effect) : Prop := forall e, In e tr -> match e with EPart _ _ => False | EImage _ _ => False | EWrite _ b => b = [] | _ => True end.
(** The paths of these files. *)
Definition unnoticed_path (run : fc_run) (q : string) : Prop := exists n f, unnoticed f /\ q = file_path run n f.
(** The effects [tr'] are those of [tr] but for the images: each is begun, none is completed. *)
Definition in_pieces (tr tr' : list effect) : Prop :=
  (forall q d, ~ In (EImage q d) tr') /\ (forall q d, In (EImage q d) tr -> In (EPart q d) tr') /\
  (forall e, (forall q d, e <> EImage q d) -> (In e tr <-> In e tr')).
