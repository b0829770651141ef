(** What it means that two zoom levels of the map agree (C96). *)
From Coq Require Import ZArith List.
From Verif Require Import Base ImagingModel ImagingSpec ForecastModel ForecastSpec.
Open Scope Z_scope.

(** Counted from the left edge of the world, the pixel j of tile column x is the pixel 256 x + j of its row.
    A zoom level k steps further in has 2^k pixels for every one of them in either direction, and the first of these begins at the
    same place of the map.  Hence the top row of pixels of the tile x, y at this zoom is found again in the top rows of the tiles
    in row 2^k y at zoom + k, and pixel J of column X there begins where pixel j of column x does if
    256 X + J = 2^k (256 x + j).
    [zooms_agree]: after these effects the image files of both tiles of a step are there, and wherever two pixels of their top
    rows begin at the same place they have the same colour. *)
Definition zooms_agree (run : fc_run) (n : Z) (type : layer_type) (tr : list effect) (zoom k x y X : Z) : Prop :=
  exists d d', (forall before, file_after (file_path run n (TileFile type zoom x y)) before tr = Some (Png d)) /\
    (forall before, file_after (file_path run n (TileFile type (zoom + k) X (2 ^ k * y))) before tr = Some (Png d')) /\
    forall j J, 0 <= j < 256 -> 0 <= J < 256 -> 256 * X + J = 2 ^ k * (256 * x + j) -> exists c, pixel d j 0 = Some c /\ pixel d' J 0 = Some c.
