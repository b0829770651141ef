(** What it means to read a value from the colour on a map (C99). *)
From Coq Require Import ZArith Reals List.
From Verif Require Import Base F32 F32Facts GeoModel GeoSpec ImagingModel ChartSpec.
Open Scope R_scope.

(** A reader finds the value [r] in the legend: the value [v] on the map is on the same side of each limit of the legend.  What is not a
    number is on no lower side. *)
Definition agrees (lg : legend) (not_a_number : bool) (v r : R) : Prop :=
  forall limit c, In (limit, c) (lg_classes lg) -> ((not_a_number = false /\ v < limit) <-> r < limit).
(** The one colour of the legend of temperatures that stands for two classes: from -10 to -8 degrees, and from 38 degrees on. *)
Definition WHITE : color := rgba 255 255 255 127.
