(** Wire format of a GRIB2 message, written down independently of the readers: for each
    section the sequence of its octet groups (WMO FM 92 GRIB edition 2, as far as /repo
    supports it), the conditions on them, and the record a reader has to return.
    Only the data types (not the functions) of Grib2Model.v are used here. *)
From Coq Require Import ZArith List Bool.
From Verif Require Import Base F32 Grib2Model.
Import ListNotations.
Open Scope Z_scope.

(** An octet group is a big-endian unsigned number of a given width, or raw octets. *)
Inductive field := U (width : nat) (v : Z) | Raw (bs : bytes).

Fixpoint be_bytes (n : nat) (v : Z) : bytes :=
  match n with
  | O => []
  | S k => (v / 256 ^ Z.of_nat k) mod 256 :: be_bytes k v
  end.

Definition field_bytes (f : field) : bytes :=
  match f with U n v => be_bytes n v | Raw bs => bs end.
Definition ser (fs : list field) : bytes := concat (map field_bytes fs).

(** Every number fits its width and every raw octet is an octet. *)
Definition field_ok (f : field) : Prop :=
  match f with U n v => 0 <= v < 256 ^ Z.of_nat n | Raw bs => Forall is_byte bs end.
Definition fields_ok (fs : list field) : Prop := Forall field_ok fs.

(** Meaning of a code: the entry of the code table, otherwise "unknown" with the code kept. *)
Definition lookup {A} (tbl : list (Z * A)) (unknown : Z -> A) (c : Z) : A :=
  match find (fun p => fst p =? c) tbl with Some p => snd p | None => unknown c end.

(** Flag tables: /repo counts bit 0 as the least significant one and reports a flag as
    set when the bit is clear. *)
Definition bit_clear (k v : Z) : bool := negb (Z.testbit v k).

(** A payload of [n] octets after [k] octets of a section that announces length [len]:
    [n = len - k]; if [len < k] only a release build (no overflow checks) can go on, and it
    uses the difference modulo 2^32. *)
Definition payload (chk : bool) (len k n : Z) : Prop :=
  (k <= len /\ n = len - k) \/ (chk = false /\ len < k /\ n = len - k + 2 ^ 32).

(** ** Section 0 *)
Record wire0 := { w0_reserved : bytes; w0_discipline : Z; w0_edition : Z; w0_total : Z }.
Definition layout0 (w : wire0) : list field :=
  [ Raw [71; 82; 73; 66] (* GRIB *); Raw (w0_reserved w); U 1 (w0_discipline w);
    U 1 (w0_edition w); U 8 (w0_total w) ].
Definition wf0 (w : wire0) : Prop := fields_ok (layout0 w) /\ length (w0_reserved w) = 2%nat.
Definition discipline_table : list (Z * discipline) :=
  [ (0, DMeteorological); (1, DHydrological); (2, DLandSurface); (3, DSatelliteRemoteSensing);
    (4, DSpaceWeather); (10, DOceanographic); (255, DMissing) ].
Definition meaning0 (w : wire0) : section0 :=
  {| s0_magic := [71; 82; 73; 66];
     s0_discipline := lookup discipline_table DUnknown (w0_discipline w);
     s0_edition := w0_edition w; s0_length := w0_total w |}.

(** ** Section 1 *)
Record wire1 := { w1_length : Z; w1_center : Z; w1_subcenter : Z; w1_master : Z; w1_local : Z;
  w1_significance : Z; w1_time : date_time; w1_status : Z; w1_type : Z; w1_rest : bytes }.
Definition layout1 (w : wire1) : list field :=
  [ U 4 (w1_length w); U 1 1; U 2 (w1_center w); U 2 (w1_subcenter w); U 1 (w1_master w);
    U 1 (w1_local w); U 1 (w1_significance w);
    U 2 (dt_year (w1_time w)); U 1 (dt_month (w1_time w)); U 1 (dt_day (w1_time w));
    U 1 (dt_hour (w1_time w)); U 1 (dt_minute (w1_time w)); U 1 (dt_second (w1_time w));
    U 1 (w1_status w); U 1 (w1_type w); Raw (w1_rest w) ].
(** A date of the Gregorian calendar and a time of day. *)
Definition is_leap (y : Z) : Prop := (y mod 4 = 0 /\ y mod 100 <> 0) \/ y mod 400 = 0.
Definition month_has_day (y m d : Z) : Prop :=
  1 <= d /\
  ((In m [1; 3; 5; 7; 8; 10; 12] /\ d <= 31) \/ (In m [4; 6; 9; 11] /\ d <= 30) \/
   (m = 2 /\ d <= 28) \/ (m = 2 /\ is_leap y /\ d = 29)).
Definition real_date_time (t : date_time) : Prop :=
  month_has_day (dt_year t) (dt_month t) (dt_day t) /\
  dt_hour t <= 23 /\ dt_minute t <= 59 /\ dt_second t <= 59.
Definition wf1 (w : wire1) : Prop :=
  fields_ok (layout1 w) /\ real_date_time (w1_time w) /\
  w1_length w = 21 + Z.of_nat (length (w1_rest w)).
Definition significance_table : list (Z * ref_time_significance) :=
  [ (0, RAnalysis); (1, RStartOfForecast); (2, RVerifyingTimeOfForecast); (3, RObservationTime);
    (255, RMissing) ].
Definition status_table : list (Z * production_status) :=
  [ (0, PSOperational); (1, PSTest); (2, PSResearch); (3, PSReAnalysis); (4, PSThorpex);
    (5, PSThorpexTest); (6, PSS2sOperational); (7, PSS2sTest); (8, PSUerra); (9, PSUerraTest);
    (255, PSMissing) ].
Definition data_type_table : list (Z * processed_data_type) :=
  [ (0, TAnalysis); (1, TForecast); (2, TAnalysisAndForecast); (3, TControlForecast);
    (4, TPerturbedForecast); (5, TControlAndPerturbedForecast);
    (6, TProcessedSatelliteObservations); (7, TProcessedRadarObservations);
    (8, TEventProbability); (192, TExperimental); (255, TMissing) ].
Definition meaning1 (w : wire1) : section1 :=
  {| s1_length := w1_length w; s1_number := 1; s1_center := w1_center w;
     s1_subcenter := w1_subcenter w; s1_master := w1_master w; s1_local := w1_local w;
     s1_significance := lookup significance_table RUnknown (w1_significance w);
     s1_ref_time := w1_time w;
     s1_status := lookup status_table PSUnknown (w1_status w);
     s1_data_type := lookup data_type_table TUnknown (w1_type w) |}.

(** ** Section 2 *)
Record wire2 := { w2_length : Z; w2_rest : bytes }.
Definition layout2 (w : wire2) : list field := [ U 4 (w2_length w); U 1 2; Raw (w2_rest w) ].
Definition wf2 (w : wire2) : Prop :=
  fields_ok (layout2 w) /\ w2_length w = 5 + Z.of_nat (length (w2_rest w)).
Definition meaning2 (w : wire2) : section2 := {| s2_length := w2_length w; s2_number := 2 |}.

(** ** Section 3 *)
Definition shape_table : list (Z * shape_of_earth) :=
  [ (6, SSphericalRadius6371229); (255, SMissing) ].
(** An angle field: the unsigned number converted to f32, divided by 1000000 in f32. *)
Definition angle (raw : Z) : f32 := fdiv (f32_of_Z raw) (f32_of_Z 1000000).

Record wire3_0 := { w30_shape : Z; w30_radius : scale_factor_value; w30_major : scale_factor_value;
  w30_minor : scale_factor_value; w30_ni : Z; w30_nj : Z; w30_basic : Z; w30_subdiv : Z;
  w30_lat1 : Z; w30_lon1 : Z; w30_res : Z; w30_lat2 : Z; w30_lon2 : Z; w30_di : Z; w30_dj : Z;
  w30_scan : Z }.
Definition layout3_0 (w : wire3_0) : list field :=
  [ U 1 (w30_shape w); U 1 (sf_factor (w30_radius w)); U 4 (sf_value (w30_radius w));
    U 1 (sf_factor (w30_major w)); U 4 (sf_value (w30_major w));
    U 1 (sf_factor (w30_minor w)); U 4 (sf_value (w30_minor w));
    U 4 (w30_ni w); U 4 (w30_nj w); U 4 (w30_basic w); U 4 (w30_subdiv w);
    U 4 (w30_lat1 w); U 4 (w30_lon1 w); U 1 (w30_res w); U 4 (w30_lat2 w); U 4 (w30_lon2 w);
    U 4 (w30_di w); U 4 (w30_dj w); U 1 (w30_scan w) ].
Definition meaning3_0 (w : wire3_0) : template3_0 :=
  {| t30_shape := lookup shape_table SUnknown (w30_shape w);
     t30_radius := w30_radius w; t30_major := w30_major w; t30_minor := w30_minor w;
     t30_ni := w30_ni w; t30_nj := w30_nj w; t30_basic_angle := w30_basic w;
     t30_subdivision := w30_subdiv w; t30_first_lat := angle (w30_lat1 w);
     t30_first_lon := angle (w30_lon1 w);
     t30_res_flags := {| rf_i_not_given := bit_clear 2 (w30_res w);
                         rf_j_not_given := bit_clear 3 (w30_res w);
                         rf_uv_rel_en := bit_clear 4 (w30_res w) |};
     t30_last_lat := angle (w30_lat2 w); t30_last_lon := angle (w30_lon2 w);
     t30_i_inc := angle (w30_di w); t30_j_inc := angle (w30_dj w);
     t30_scan_flags := {| sm_i_positive := bit_clear 0 (w30_scan w);
                          sm_j_negative := bit_clear 1 (w30_scan w);
                          sm_i_consecutive := bit_clear 2 (w30_scan w);
                          sm_same_direction := bit_clear 3 (w30_scan w);
                          sm_odd_offset := bit_clear 4 (w30_scan w);
                          sm_even_offset := bit_clear 5 (w30_scan w);
                          sm_j_not_offset := bit_clear 6 (w30_scan w);
                          sm_ni_nj := bit_clear 7 (w30_scan w) |} |}.

Record wire3_101 := { w3101_shape : Z; w3101_grid : Z; w3101_ref : Z; w3101_uuid : Z }.
Definition layout3_101 (w : wire3_101) : list field :=
  [ U 1 (w3101_shape w); U 3 (w3101_grid w); U 1 (w3101_ref w); U 16 (w3101_uuid w) ].
Definition meaning3_101 (w : wire3_101) : template3_101 :=
  {| t3101_shape := lookup shape_table SUnknown (w3101_shape w); t3101_grid := w3101_grid w;
     t3101_ref := w3101_ref w; t3101_uuid := w3101_uuid w |}.

Inductive wire3_tpl := W3_0 (w : wire3_0) | W3_101 (w : wire3_101).
Definition layout3_tpl (t : wire3_tpl) : list field :=
  match t with
  | W3_0 w => U 2 0 :: layout3_0 w
  | W3_101 w => U 2 101 :: layout3_101 w
  end.
Definition meaning3_tpl (t : wire3_tpl) : grid_definition_template :=
  match t with
  | W3_0 w => LatitudeLongitude (meaning3_0 w)
  | W3_101 w => UnstructuredGridTpl (meaning3_101 w)
  end.

(** The announced length of section 3 is unconstrained: the reader does not use it. *)
Record wire3 := { w3_length : Z; w3_source : Z; w3_points : Z; w3_opt_length : Z;
  w3_opt_interp : Z; w3_tpl : wire3_tpl }.
Definition layout3 (w : wire3) : list field :=
  [ U 4 (w3_length w); U 1 3; U 1 (w3_source w); U 4 (w3_points w); U 1 (w3_opt_length w);
    U 1 (w3_opt_interp w) ] ++ layout3_tpl (w3_tpl w).
Definition wf3 (w : wire3) : Prop := fields_ok (layout3 w).
Definition source_table : list (Z * grid_definition_source) :=
  [ (0, GTemplate); (1, GPredetermined); (255, GNone) ].
Definition interpretation_table : list (Z * optional_point_interpretation) :=
  [ (0, ONone); (1, OFullCoordinateCircles); (2, OCoordinateLines); (3, OActualLatitude);
    (255, OMissing) ].
Definition meaning3 (w : wire3) : section3 :=
  {| s3_length := w3_length w; s3_number := 3;
     s3_source := lookup source_table GUnknown (w3_source w); s3_points := w3_points w;
     s3_opt_length := w3_opt_length w;
     s3_opt_interp := lookup interpretation_table OUnknown (w3_opt_interp w);
     s3_template := meaning3_tpl (w3_tpl w) |}.

(** ** Section 4 *)
Definition category_table : list (Z * parameter_category) :=
  [ (0, CTemperature); (1, CMoisture); (2, CMomentum); (3, CMass); (6, CCloud);
    (191, CMiscellaneous); (255, CMissing) ].
(** Two's complement. *)
Definition signed8 (v : Z) : Z := if v <? 128 then v else v - 256.

Record wire4_1 := { w41_category : Z; w41_number : Z; w41_process : Z; w41_background : Z;
  w41_forecast : Z; w41_hours : Z; w41_minutes : Z; w41_unit : Z; w41_time : Z;
  w41_t1 : Z; w41_f1 : Z; w41_v1 : Z; w41_t2 : Z; w41_f2 : Z; w41_v2 : Z;
  w41_ens : Z; w41_pert : Z; w41_count : Z }.
Definition layout4_1 (w : wire4_1) : list field :=
  [ U 1 (w41_category w); U 1 (w41_number w); U 1 (w41_process w); U 1 (w41_background w);
    U 1 (w41_forecast w); U 2 (w41_hours w); U 1 (w41_minutes w); U 1 (w41_unit w);
    U 4 (w41_time w); U 1 (w41_t1 w); U 1 (w41_f1 w); U 4 (w41_v1 w);
    U 1 (w41_t2 w); U 1 (w41_f2 w); U 4 (w41_v2 w);
    U 1 (w41_ens w); U 1 (w41_pert w); U 1 (w41_count w) ].
Definition meaning4_1 (w : wire4_1) : template4_1 :=
  {| t41_category := lookup category_table CUnknown (w41_category w);
     t41_number := w41_number w; t41_process := w41_process w;
     t41_background := w41_background w; t41_forecast_process := w41_forecast w;
     t41_hours := w41_hours w; t41_minutes := w41_minutes w; t41_unit := w41_unit w;
     t41_forecast_time := w41_time w; t41_surf1_type := w41_t1 w;
     t41_surf1_factor := signed8 (w41_f1 w); t41_surf1_value := w41_v1 w;
     t41_surf2_type := w41_t2 w; t41_surf2_factor := signed8 (w41_f2 w);
     t41_surf2_value := w41_v2 w; t41_ens_type := w41_ens w;
     t41_perturbation := w41_pert w; t41_ens_count := w41_count w |}.

(** Templates 4.0 (23 unused octets), 4.8 (30 unused octets, the number n of time ranges,
    4 + 12 n unused octets); any other template is skipped. *)
Inductive wire4_tpl :=
  | W4_0 (category number : Z) (unused : bytes)
  | W4_1 (w : wire4_1)
  | W4_8 (category number : Z) (unused : bytes) (ranges : Z) (unused2 : bytes)
  | W4_other (n : Z) (skipped : bytes).
Definition tpl4_number (t : wire4_tpl) : Z :=
  match t with W4_0 _ _ _ => 0 | W4_1 _ => 1 | W4_8 _ _ _ _ _ => 8 | W4_other n _ => n end.
Definition layout4_tpl (t : wire4_tpl) : list field :=
  match t with
  | W4_0 c n u => [ U 1 c; U 1 n; Raw u ]
  | W4_1 w => layout4_1 w
  | W4_8 c n u r u2 => [ U 1 c; U 1 n; Raw u; U 1 r; Raw u2 ]
  | W4_other _ s => [ Raw s ]
  end.
Definition wf4_tpl (chk : bool) (len : Z) (t : wire4_tpl) : Prop :=
  match t with
  | W4_0 _ _ u => length u = 23%nat
  | W4_1 _ => True
  | W4_8 _ _ u r u2 => length u = 30%nat /\ Z.of_nat (length u2) = 4 + 12 * r
  | W4_other n s => n <> 0 /\ n <> 1 /\ n <> 8 /\ payload chk len 9 (Z.of_nat (length s))
  end.
Definition meaning4_tpl (t : wire4_tpl) : product_definition_template :=
  match t with
  | W4_0 c n _ => Template4_0 {| t40_category := lookup category_table CUnknown c; t40_number := n |}
  | W4_1 w => Template4_1 (meaning4_1 w)
  | W4_8 c n _ _ _ => Template4_8 {| t40_category := lookup category_table CUnknown c; t40_number := n |}
  | W4_other n _ => Template4_Unknown n
  end.
(** Coordinate values are IEEE-754 single precision numbers after the template. *)
Record wire4 := { w4_length : Z; w4_tpl : wire4_tpl; w4_coords : list Z }.
Definition layout4 (w : wire4) : list field :=
  [ U 4 (w4_length w); U 1 4; U 2 (Z.of_nat (length (w4_coords w))); U 2 (tpl4_number (w4_tpl w)) ]
  ++ layout4_tpl (w4_tpl w) ++ map (U 4) (w4_coords w).
Definition wf4 (chk : bool) (w : wire4) : Prop :=
  fields_ok (layout4 w) /\ wf4_tpl chk (w4_length w) (w4_tpl w) /\
  (chk = true -> 9 <= w4_length w).
Definition meaning4 (w : wire4) : section4 :=
  {| s4_length := w4_length w; s4_number := 4;
     s4_coordinates := map f32_of_bits (w4_coords w); s4_template := meaning4_tpl (w4_tpl w) |}.

(** ** Section 5 *)
Definition field_type_table : list (Z * original_field_type) :=
  [ (0, FFloatingPoint); (1, FInteger); (255, FMissing) ].
(** Sign and magnitude. *)
Definition sign_magnitude16 (v : Z) : Z := if v <? 32768 then v else 32768 - v.
Inductive wire5_tpl :=
  | W5_0 (reference e d bits ftype : Z)
  | W5_other (n : Z) (skipped : bytes).
Definition layout5_tpl (t : wire5_tpl) : list field :=
  match t with
  | W5_0 r e d b f => [ U 2 0; U 4 r; U 2 e; U 2 d; U 1 b; U 1 f ]
  | W5_other n s => [ U 2 n; Raw s ]
  end.
Definition wf5_tpl (chk : bool) (len : Z) (t : wire5_tpl) : Prop :=
  match t with
  | W5_0 _ _ _ _ _ => True
  | W5_other n s => n <> 0 /\ payload chk len 11 (Z.of_nat (length s))
  end.
Definition meaning5_tpl (t : wire5_tpl) : data_representation_template :=
  match t with
  | W5_0 r e d b f => SimplePacking {| t50_reference := f32_of_bits r;
      t50_e := sign_magnitude16 e; t50_d := sign_magnitude16 d; t50_bits := b;
      t50_field_type := lookup field_type_table FUnknown f |}
  | W5_other n _ => Template5_Unknown n
  end.
Record wire5 := { w5_length : Z; w5_points : Z; w5_tpl : wire5_tpl }.
Definition layout5 (w : wire5) : list field :=
  [ U 4 (w5_length w); U 1 5; U 4 (w5_points w) ] ++ layout5_tpl (w5_tpl w).
Definition wf5 (chk : bool) (w : wire5) : Prop :=
  fields_ok (layout5 w) /\ wf5_tpl chk (w5_length w) (w5_tpl w) /\
  (chk = true -> 11 <= w5_length w).
Definition meaning5 (w : wire5) : section5 :=
  {| s5_length := w5_length w; s5_number := 5; s5_points := w5_points w;
     s5_template := meaning5_tpl (w5_tpl w) |}.

(** ** Section 6 *)
Record wire6 := { w6_length : Z; w6_indicator : Z; w6_bitmap : bytes }.
Definition layout6 (w : wire6) : list field :=
  [ U 4 (w6_length w); U 1 6; U 1 (w6_indicator w); Raw (w6_bitmap w) ].
Definition wf6 (chk : bool) (w : wire6) : Prop :=
  fields_ok (layout6 w) /\ payload chk (w6_length w) 6 (Z.of_nat (length (w6_bitmap w))).
Definition meaning6 (w : wire6) : section6 :=
  {| s6_length := w6_length w; s6_number := 6; s6_indicator := w6_indicator w;
     s6_bitmap := w6_bitmap w |}.

(** ** Section 7: 16-bit values; a last odd octet of the announced payload is not part of
    what is read. *)
Record wire7 := { w7_length : Z; w7_data : list Z }.
Definition layout7 (w : wire7) : list field :=
  [ U 4 (w7_length w); U 1 7 ] ++ map (U 2) (w7_data w).
Definition wf7 (chk : bool) (w : wire7) : Prop :=
  fields_ok (layout7 w) /\
  exists n, payload chk (w7_length w) 5 n /\ Z.of_nat (length (w7_data w)) = n / 2.
Definition meaning7 (w : wire7) : section7 :=
  {| s7_length := w7_length w; s7_number := 7; s7_data := w7_data w |}.

(** ** Section 8 and whole messages *)
Definition layout8 : list field := [ Raw [55; 55; 55; 55] (* 7777 *) ].
Definition meaning8 : section8 := {| s8_magic := [55; 55; 55; 55] |}.

Record wire := { w_0 : wire0; w_1 : wire1; w_2 : wire2; w_3 : wire3; w_4 : wire4; w_5 : wire5;
  w_6 : wire6; w_7 : wire7 }.
Definition message_bytes (w : wire) : bytes :=
  ser (layout0 (w_0 w)) ++ ser (layout1 (w_1 w)) ++ ser (layout2 (w_2 w)) ++
  ser (layout3 (w_3 w)) ++ ser (layout4 (w_4 w)) ++ ser (layout5 (w_5 w)) ++
  ser (layout6 (w_6 w)) ++ ser (layout7 (w_7 w)) ++ ser layout8.
Definition wf_message (chk : bool) (w : wire) : Prop :=
  wf0 (w_0 w) /\ wf1 (w_1 w) /\ wf2 (w_2 w) /\ wf3 (w_3 w) /\ wf4 chk (w_4 w) /\
  wf5 chk (w_5 w) /\ wf6 chk (w_6 w) /\ wf7 chk (w_7 w).
Definition message_meaning (w : wire) : document :=
  {| d_s0 := meaning0 (w_0 w); d_s1 := meaning1 (w_1 w); d_s2 := meaning2 (w_2 w);
     d_s3 := meaning3 (w_3 w); d_s4 := meaning4 (w_4 w); d_s5 := meaning5 (w_5 w);
     d_s6 := meaning6 (w_6 w); d_s7 := meaning7 (w_7 w); d_s8 := meaning8 |}.

(** ** Inputs on which reading panics *)

(** The first [k] sections (0 .. k-1) of a well-formed message. *)
Definition leading_sections (k : nat) (w : wire) : bytes :=
  concat (firstn k
    [ ser (layout0 (w_0 w)); ser (layout1 (w_1 w)); ser (layout2 (w_2 w)); ser (layout3 (w_3 w));
      ser (layout4 (w_4 w)); ser (layout5 (w_5 w)); ser (layout6 (w_6 w)) ]).
Definition wf_leading (chk : bool) (k : nat) (w : wire) : Prop :=
  Forall (fun P => P) (firstn k
    [ wf0 (w_0 w); wf1 (w_1 w); wf2 (w_2 w); wf3 (w_3 w); wf4 chk (w_4 w); wf5 chk (w_5 w);
      wf6 chk (w_6 w) ]).

(** Start of section 1 up to the date: the date does not exist. *)
Definition bad_date (w : wire1) (number : Z) (b : bytes) : Prop :=
  let t := w1_time w in
  let head := [ U 4 (w1_length w); U 1 number; U 2 (w1_center w); U 2 (w1_subcenter w);
    U 1 (w1_master w); U 1 (w1_local w); U 1 (w1_significance w); U 2 (dt_year t);
    U 1 (dt_month t); U 1 (dt_day t); U 1 (dt_hour t); U 1 (dt_minute t); U 1 (dt_second t) ] in
  fields_ok head /\ ~ real_date_time t /\ exists rest, b = ser head ++ rest.
(** Section 1 announces less than its 21 octets. *)
Definition short_section1 (w : wire1) (b : bytes) : Prop :=
  fields_ok (layout1 w) /\ real_date_time (w1_time w) /\ w1_length w < 21 /\ w1_rest w = [] /\
  exists rest, b = ser (layout1 w) ++ rest.
(** A section whose fixed part [head] has been read announces fewer octets than that. *)
Definition short_section (len : Z) (head : list field) (b : bytes) : Prop :=
  fields_ok head /\ len < Z.of_nat (length (ser head)) /\ exists rest, b = ser head ++ rest.

Definition panic_input (chk : bool) (bs : bytes) : Prop :=
  exists k w b, wf_leading chk k w /\ bs = leading_sections k w ++ b /\
  ((k = 1%nat /\ exists w1, (exists number, bad_date w1 number b) \/ short_section1 w1 b) \/
   (k = 2%nat /\ exists len, short_section len [ U 4 len; U 1 2 ] b) \/
   (chk = true /\
    ((k = 4%nat /\ exists len number count template,
        short_section len [ U 4 len; U 1 number; U 2 count; U 2 template ] b) \/
     (k = 5%nat /\ exists len number points template,
        short_section len [ U 4 len; U 1 number; U 4 points; U 2 template ] b) \/
     (k = 6%nat /\ exists len number indicator,
        short_section len [ U 4 len; U 1 number; U 1 indicator ] b) \/
     (k = 7%nat /\ exists len number,
        short_section len [ U 4 len; U 1 number ] b)))).

(** ** Bitmaps and data points *)

(** Bit [i] of a bitmap, most significant bit of each octet first. *)
Definition bitmap_bit (bitmap : bytes) (i : nat) : bool :=
  Z.testbit (nth (i / 8) bitmap 0) (7 - Z.of_nat (i mod 8)).
(** Point [i] has a packed value: always without a bitmap, otherwise if its bit is set. *)
Definition has_value (bitmap : bytes) (i : nat) : bool :=
  match bitmap with [] => true | _ => bitmap_bit bitmap i end.
(** Number of points before [i] that have a packed value. *)
Definition rank (bitmap : bytes) (i : nat) : nat :=
  length (filter (has_value bitmap) (seq 0 i)).
(** The value of a packed number (regulation 92.9.4), in f32 arithmetic. *)
Definition unpack (reference two_e ten_d : f32) (x : Z) : f32 :=
  fdiv (fadd reference (fmul (f32_of_Z x) two_e)) ten_d.

(** ** The same message with section 2, which the standard makes optional, left out *)
Definition message_without_section2 (w : wire) : bytes :=
  ser (layout0 (w_0 w)) ++ ser (layout1 (w_1 w)) ++ ser (layout3 (w_3 w)) ++
  ser (layout4 (w_4 w)) ++ ser (layout5 (w_5 w)) ++
  ser (layout6 (w_6 w)) ++ ser (layout7 (w_7 w)) ++ ser layout8.

(** ** Sign and magnitude encoding of a 16-bit number *)
Definition encode_sign_magnitude16 (v : Z) : Z := if v <? 0 then 32768 - v else v.
