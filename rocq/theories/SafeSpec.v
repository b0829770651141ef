(** The vocabulary of the property about the contents of files that can end a call in a panic (C85). *)
From Coq Require Import String ZArith List Bool.
From Verif Require Import Base F32 Grib2Model Grib2Spec GeoModel MetobinSpec ForecastModel FetchModel DwdModel DwdSpec FieldSpec ReqSpec.
Import ListNotations.
Open Scope Z_scope.

(** The first point of the message is the south-western one, and no point is beyond 85 degrees south or north if [flat]
    (the points are to be drawn on the square map). *)
Definition in_order (flat : bool) (t : wire3_0) : Prop :=
  angle_field (w30_lat1 t) /\ angle_field (w30_lon1 t) /\ angle_field (w30_lat2 t) /\ angle_field (w30_lon2 t) /\
  micro (w30_lat1 t) <= micro (w30_lat2 t) /\ micro (w30_lon1 t) <= micro (w30_lon2 t) /\
  (flat = true -> -85000000 <= micro (w30_lat1 t) /\ micro (w30_lat2 t) <= 85000000).
(** The files whose area is drawn on the map. *)
Definition drawn (f : dwd_file) : bool := match f with SingleFile (T2m | U10m | ClctMod) _ => true | _ => false end.
(** The files with codes of the weather. *)
Definition coded (f : dwd_file) : bool := match f with SingleFile Ww _ => true | _ => false end.

Section Safe.
  Variables (chk : bool) (powi : f32 -> Z -> f32).
  (** A message is as it should be, as far as the program does not test this: if its data are packed in the way that is
      supported, there are enough of them; and if it has a regular grid as well, then there is a point for each column and
      row, the south-western first, and each code of the weather is one of the table (-1 stands for none). *)
  Definition safe_message (f : dwd_file) (w : wire) : Prop :=
    match w5_tpl (w_5 w) with
    | W5_0 r e d _ _ => (w7_data (w_7 w) = [] \/ enough_data w) /\
        match w3_tpl (w_3 w) with
        | W3_0 t => w30_ni t * w30_nj t <= w3_points (w_3 w) /\ in_order (drawn f) t /\
            (coded f = true -> forall k v, (k < Z.to_nat (w30_ni t * w30_nj t))%nat -> point_value powi w r e d None Some k (Some v) ->
               feq v (f32_of_Z (-1)) = true \/ In (f_to_u8 v) wmo_codes)
        | _ => True
        end
    | _ => True
    end.
  (** The service does not answer, or with bytes.  The bytes are not among those for which the reader of messages panics,
      and they start with no message or with one that is safe. *)
  Definition safe_answer (f : dwd_file) (o : outcome bytes) : Prop :=
    (exists e, o = Err e) \/
    exists bs, o = Ok bs /\ Forall is_byte bs /\ ~ panic_input chk bs /\
      ((forall w rest, wf_message chk w -> bs <> message_bytes w ++ rest) \/
       exists w rest, wf_message chk w /\ bs = message_bytes w ++ rest /\ safe_message f w).
  (** The same for each file that the call asks for. *)
  Definition safe_service (fetch : fetcher) (variables : list string) (steps : list Z) (run : fc_run) : Prop :=
    (forall url, exists o, fetch url o) /\
    forall f url o, In f (dwd_files variables steps run) -> url_layout run f url -> fetch url o -> safe_answer f o.
  (** What is left out: the reader panics; the data are too few; the points are too few; or the last point is to the south
      or to the west of the first one. *)
  Definition bad_bytes (bs : bytes) : Prop :=
    panic_input chk bs \/
    exists w rest r e d b f, wf_message chk w /\ bs = message_bytes w ++ rest /\ w5_tpl (w_5 w) = W5_0 r e d b f /\
      (w7_data (w_7 w) <> [] /\ ~ enough_data w \/
       exists t, w3_tpl (w_3 w) = W3_0 t /\
         (w3_points (w_3 w) < w30_ni t * w30_nj t \/
          angle_field (w30_lat1 t) /\ angle_field (w30_lon1 t) /\ angle_field (w30_lat2 t) /\ angle_field (w30_lon2 t) /\
            (200 <= micro (w30_lat1 t) - micro (w30_lat2 t) \/ 200 <= micro (w30_lon1 t) - micro (w30_lon2 t)))).
End Safe.
