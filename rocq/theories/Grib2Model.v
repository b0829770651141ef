(** Model of src/grib2: section readers and document reader.
    Streams are byte lists (Base.v); f32 is F32.v.  [chk] is the build profile
    (true: overflow checks on). *)
From Coq Require Import ZArith List Bool.
From Verif Require Import Base F32.
Import ListNotations.
Open Scope Z_scope.

(** ** src/grib2/common *)

(** byte_reader.rs:9-14 *)
Definition read_n_bytes (size : Z) : reader bytes := take_bytes size.

(** string_reader.rs:10-17.  A Rust String is modelled by its UTF-8 bytes. *)
Definition read_n_chars (size : Z) : reader bytes :=
  b <- take_bytes size ;; if utf8_valid b then ret b else fail EUtf8.

(** signed_number.rs:4-12 *)
Definition signed_from_u16 (raw : Z) : Z :=
  let value := Z.land raw 0x7FFF in
  if 0 <? Z.land raw 0x8000 then - value else value.

(** signed_number_reader.rs:12-17 *)
Definition read_signed : reader Z := raw <- read_u16 ;; ret (signed_from_u16 raw).

(** scale_factor_value.rs:4-7, scale_factor_value_reader.rs:12-18 *)
Record scale_factor_value := { sf_factor : Z; sf_value : Z }.
Definition read_scale_factor_value : reader scale_factor_value :=
  f <- read_u8 ;; v <- read_u32 ;; ret {| sf_factor := f; sf_value := v |}.

(** angle_reader.rs:21-25, ANGLE_FACTOR = 1000000.0 *)
Definition read_angle : reader f32 :=
  v <- read_u32 ;; ret (fdiv (f32_of_Z v) (f32_of_Z 1000000)).
(** angle_reader.rs:13-18 *)
Definition read_lat_lon : reader (f32 * f32) :=
  lat <- read_angle ;; lon <- read_angle ;; ret (lat, lon).

(** ** Section 0 *)

(** section0/discipline.rs:2-11 *)
Inductive discipline := DMeteorological | DHydrological | DLandSurface
  | DSatelliteRemoteSensing | DSpaceWeather | DOceanographic | DMissing | DUnknown (v : Z).
(** section0/section0.rs:4-9 *)
Record section0 := { s0_magic : bytes; s0_discipline : discipline; s0_edition : Z; s0_length : Z }.

Definition grib_magic : bytes := [71; 82; 73; 66]. (* "GRIB", section0.rs:11 *)

(** section0_reader.rs:33-47 *)
Definition read_discipline : reader discipline :=
  v <- read_u8 ;;
  ret (if v =? 0 then DMeteorological else if v =? 1 then DHydrological
       else if v =? 2 then DLandSurface else if v =? 3 then DSatelliteRemoteSensing
       else if v =? 4 then DSpaceWeather else if v =? 10 then DOceanographic
       else if v =? 255 then DMissing else DUnknown v).

(** [let _ = ByteReader::read_n_bytes(..)]: the result is ignored (section0_reader.rs:17).
    A failed read_exact leaves an exhausted stream behind. *)
Definition ignore_read {A} (m : reader A) : reader unit := fun bs =>
  match m bs with Ok (_, rest) => Ok (tt, rest) | Err _ => Ok (tt, []) | Panic => Panic end.

(** section0_reader.rs:15-30 with section0.rs:14-32 *)
Definition read_section0 : reader section0 :=
  magic <- read_n_chars 4 ;;
  ignore_read (read_n_bytes 2) ;;;
  disc <- read_discipline ;;
  edition <- read_u8 ;;
  len <- read_u64 ;;
  if bytes_eqb magic grib_magic
  then ret {| s0_magic := magic; s0_discipline := disc; s0_edition := edition; s0_length := len |}
  else fail EInvalid.

(** ** Section 1 *)

(** section1/ref_time_significance.rs:2-9 *)
Inductive ref_time_significance := RAnalysis | RStartOfForecast | RVerifyingTimeOfForecast
  | RObservationTime | RMissing | RUnknown (v : Z).
(** section1/production_status.rs:2-15 *)
Inductive production_status := PSOperational | PSTest | PSResearch | PSReAnalysis | PSThorpex
  | PSThorpexTest | PSS2sOperational | PSS2sTest | PSUerra | PSUerraTest | PSMissing
  | PSUnknown (v : Z).
(** section1/processed_data_type.rs:2-15 *)
Inductive processed_data_type := TAnalysis | TForecast | TAnalysisAndForecast | TControlForecast
  | TPerturbedForecast | TControlAndPerturbedForecast | TProcessedSatelliteObservations
  | TProcessedRadarObservations | TEventProbability | TExperimental | TMissing
  | TUnknown (v : Z).

(** chrono NaiveDateTime, kept as its calendar components. *)
Record date_time := { dt_year : Z; dt_month : Z; dt_day : Z;
                      dt_hour : Z; dt_minute : Z; dt_second : Z }.
Definition leap_year (y : Z) : bool :=
  (y mod 4 =? 0) && (negb (y mod 100 =? 0) || (y mod 400 =? 0)).
Definition days_in_month (y m : Z) : Z :=
  if m =? 2 then (if leap_year y then 29 else 28)
  else if (m =? 4) || (m =? 6) || (m =? 9) || (m =? 11) then 30 else 31.
(** chrono NaiveDate::from_ymd_opt(..).is_some() for 16-bit years. *)
Definition valid_ymd (y m d : Z) : bool :=
  (1 <=? m) && (m <=? 12) && (1 <=? d) && (d <=? days_in_month y m).
(** chrono NaiveTime::from_hms_opt(..).is_some(). *)
Definition valid_hms (h mi s : Z) : bool := (h <? 24) && (mi <? 60) && (s <? 60).

(** section1/section1.rs:8-19 *)
Record section1 := { s1_length : Z; s1_number : Z; s1_center : Z; s1_subcenter : Z;
  s1_master : Z; s1_local : Z; s1_significance : ref_time_significance;
  s1_ref_time : date_time; s1_status : production_status; s1_data_type : processed_data_type }.

(** section1_reader.rs:47-59 *)
Definition read_ref_time_significance : reader ref_time_significance :=
  v <- read_u8 ;;
  ret (if v =? 0 then RAnalysis else if v =? 1 then RStartOfForecast
       else if v =? 2 then RVerifyingTimeOfForecast else if v =? 3 then RObservationTime
       else if v =? 255 then RMissing else RUnknown v).

(** section1_reader.rs:62-75; the two [unwrap]s panic on impossible dates and times. *)
Definition read_ref_time : reader date_time :=
  y <- read_u16 ;; mo <- read_u8 ;; d <- read_u8 ;;
  h <- read_u8 ;; mi <- read_u8 ;; s <- read_u8 ;;
  if valid_ymd y mo d && valid_hms h mi s
  then ret {| dt_year := y; dt_month := mo; dt_day := d;
              dt_hour := h; dt_minute := mi; dt_second := s |}
  else rpanic.

(** section1_reader.rs:78-96 *)
Definition read_production_status : reader production_status :=
  v <- read_u8 ;;
  ret (if v =? 0 then PSOperational else if v =? 1 then PSTest else if v =? 2 then PSResearch
       else if v =? 3 then PSReAnalysis else if v =? 4 then PSThorpex
       else if v =? 5 then PSThorpexTest else if v =? 6 then PSS2sOperational
       else if v =? 7 then PSS2sTest else if v =? 8 then PSUerra else if v =? 9 then PSUerraTest
       else if v =? 255 then PSMissing else PSUnknown v).

(** section1_reader.rs:99-117 *)
Definition read_processed_data_type : reader processed_data_type :=
  v <- read_u8 ;;
  ret (if v =? 0 then TAnalysis else if v =? 1 then TForecast else if v =? 2 then TAnalysisAndForecast
       else if v =? 3 then TControlForecast else if v =? 4 then TPerturbedForecast
       else if v =? 5 then TControlAndPerturbedForecast
       else if v =? 6 then TProcessedSatelliteObservations
       else if v =? 7 then TProcessedRadarObservations else if v =? 8 then TEventProbability
       else if v =? 192 then TExperimental else if v =? 255 then TMissing else TUnknown v).

(** section1_reader.rs:17-44 with section1.rs:26-56.  [length as usize - 21] is usize
    (64 bit) arithmetic. *)
Definition read_section1 (chk : bool) : reader section1 :=
  len <- read_u32 ;; num <- read_u8 ;; center <- read_u16 ;; sub <- read_u16 ;;
  master <- read_u8 ;; local <- read_u8 ;;
  sig <- read_ref_time_significance ;; rt <- read_ref_time ;;
  st <- read_production_status ;; ty <- read_processed_data_type ;;
  if num =? 1 then
    n <- lift (usub chk 64 len 21) ;;
    read_n_bytes n ;;;
    ret {| s1_length := len; s1_number := num; s1_center := center; s1_subcenter := sub;
           s1_master := master; s1_local := local; s1_significance := sig; s1_ref_time := rt;
           s1_status := st; s1_data_type := ty |}
  else fail EInvalid.

(** ** Section 2: section2/section2.rs:3-25, section2_reader.rs:13-24 *)
Record section2 := { s2_length : Z; s2_number : Z }.
Definition read_section2 (chk : bool) : reader section2 :=
  len <- read_u32 ;; num <- read_u8 ;;
  if num =? 2 then
    n <- lift (usub chk 64 len 5) ;;
    read_n_bytes n ;;;
    ret {| s2_length := len; s2_number := num |}
  else fail EInvalid.

(** ** Section 3 *)

(** section3/grid_definition_source.rs:2-7 *)
Inductive grid_definition_source := GTemplate | GPredetermined | GNone | GUnknown (v : Z).
(** section3/optional_point_interpretation.rs:2-9 *)
Inductive optional_point_interpretation := ONone | OFullCoordinateCircles | OCoordinateLines
  | OActualLatitude | OMissing | OUnknown (v : Z).
(** section3/shape_of_earth.rs:2-6 *)
Inductive shape_of_earth := SSphericalRadius6371229 | SMissing | SUnknown (v : Z).
(** section3/resolution_and_component_flags.rs:4-8 *)
Record resolution_flags := { rf_i_not_given : bool; rf_j_not_given : bool; rf_uv_rel_en : bool }.
(** section3/scanning_mode_flags.rs:4-13 *)
Record scanning_flags := { sm_i_positive : bool; sm_j_negative : bool; sm_i_consecutive : bool;
  sm_same_direction : bool; sm_odd_offset : bool; sm_even_offset : bool;
  sm_j_not_offset : bool; sm_ni_nj : bool }.
(** section3/grid_definition_template_3_0.rs:9-26 *)
Record template3_0 := { t30_shape : shape_of_earth; t30_radius : scale_factor_value;
  t30_major : scale_factor_value; t30_minor : scale_factor_value; t30_ni : Z; t30_nj : Z;
  t30_basic_angle : Z; t30_subdivision : Z; t30_first_lat : f32; t30_first_lon : f32;
  t30_res_flags : resolution_flags; t30_last_lat : f32; t30_last_lon : f32;
  t30_i_inc : f32; t30_j_inc : f32; t30_scan_flags : scanning_flags }.
(** section3/grid_definition_template_3_101.rs:6-11 *)
Record template3_101 := { t3101_shape : shape_of_earth; t3101_grid : Z; t3101_ref : Z;
  t3101_uuid : Z }.
(** section3/grid_definition_template.rs:5-10 (Missing and Unknown are never constructed). *)
Inductive grid_definition_template := LatitudeLongitude (t : template3_0)
  | UnstructuredGridTpl (t : template3_101).
(** section3/section3.rs:6-14 *)
Record section3 := { s3_length : Z; s3_number : Z; s3_source : grid_definition_source;
  s3_points : Z; s3_opt_length : Z; s3_opt_interp : optional_point_interpretation;
  s3_template : grid_definition_template }.

(** section3_reader.rs:39-49 *)
Definition read_grid_definition_source : reader grid_definition_source :=
  v <- read_u8 ;;
  ret (if v =? 0 then GTemplate else if v =? 1 then GPredetermined
       else if v =? 255 then GNone else GUnknown v).
(** section3_reader.rs:52-64 *)
Definition read_optional_point_interpretation : reader optional_point_interpretation :=
  v <- read_u8 ;;
  ret (if v =? 0 then ONone else if v =? 1 then OFullCoordinateCircles
       else if v =? 2 then OCoordinateLines else if v =? 3 then OActualLatitude
       else if v =? 255 then OMissing else OUnknown v).
(** shape_of_earth_reader.rs:12-21 *)
Definition read_shape_of_earth : reader shape_of_earth :=
  v <- read_u8 ;;
  ret (if v =? 6 then SSphericalRadius6371229 else if v =? 255 then SMissing else SUnknown v).
(** section3_template_3_0_reader.rs:55-64 *)
Definition read_resolution_flags : reader resolution_flags :=
  v <- read_u8 ;;
  ret {| rf_i_not_given := Z.land v 4 =? 0; rf_j_not_given := Z.land v 8 =? 0;
         rf_uv_rel_en := Z.land v 16 =? 0 |}.
(** section3_template_3_0_reader.rs:67-81 *)
Definition read_scanning_flags : reader scanning_flags :=
  v <- read_u8 ;;
  ret {| sm_i_positive := Z.land v 1 =? 0; sm_j_negative := Z.land v 2 =? 0;
         sm_i_consecutive := Z.land v 4 =? 0; sm_same_direction := Z.land v 8 =? 0;
         sm_odd_offset := Z.land v 16 =? 0; sm_even_offset := Z.land v 32 =? 0;
         sm_j_not_offset := Z.land v 64 =? 0; sm_ni_nj := Z.land v 128 =? 0 |}.
(** section3_template_3_0_reader.rs:17-52 *)
Definition read_template3_0 : reader template3_0 :=
  shape <- read_shape_of_earth ;;
  radius <- read_scale_factor_value ;; major <- read_scale_factor_value ;;
  minor <- read_scale_factor_value ;;
  ni <- read_u32 ;; nj <- read_u32 ;; ba <- read_u32 ;; sd <- read_u32 ;;
  first <- read_lat_lon ;; rf <- read_resolution_flags ;; last <- read_lat_lon ;;
  iinc <- read_angle ;; jinc <- read_angle ;; sm <- read_scanning_flags ;;
  ret {| t30_shape := shape; t30_radius := radius; t30_major := major; t30_minor := minor;
         t30_ni := ni; t30_nj := nj; t30_basic_angle := ba; t30_subdivision := sd;
         t30_first_lat := fst first; t30_first_lon := snd first; t30_res_flags := rf;
         t30_last_lat := fst last; t30_last_lon := snd last; t30_i_inc := iinc;
         t30_j_inc := jinc; t30_scan_flags := sm |}.
(** section3_template_3_101_reader.rs:13-26 *)
Definition read_template3_101 : reader template3_101 :=
  shape <- read_shape_of_earth ;; g <- read_u24 ;; r <- read_u8 ;; u <- read_u128 ;;
  ret {| t3101_shape := shape; t3101_grid := g; t3101_ref := r; t3101_uuid := u |}.
(** section3_reader.rs:67-84 *)
Definition read_grid_definition_template : reader grid_definition_template :=
  n <- read_u16 ;;
  if n =? 0 then t <- read_template3_0 ;; ret (LatitudeLongitude t)
  else if n =? 101 then t <- read_template3_101 ;; ret (UnstructuredGridTpl t)
  else fail EInvalid.
(** section3_reader.rs:17-36 with section3.rs:20-44 *)
Definition read_section3 : reader section3 :=
  len <- read_u32 ;; num <- read_u8 ;; src <- read_grid_definition_source ;;
  pts <- read_u32 ;; ol <- read_u8 ;; oi <- read_optional_point_interpretation ;;
  tpl <- read_grid_definition_template ;;
  if num =? 3 then
    ret {| s3_length := len; s3_number := num; s3_source := src; s3_points := pts;
           s3_opt_length := ol; s3_opt_interp := oi; s3_template := tpl |}
  else fail EInvalid.

(** ** Section 4 *)

(** section4/meteo_parameter_category.rs:2-11 *)
Inductive parameter_category := CTemperature | CMoisture | CMomentum | CMass | CCloud
  | CMiscellaneous | CMissing | CUnknown (v : Z).
(** section4/product_definition_template_4_0.rs:6-9 and _4_8.rs:6-9 *)
Record template4_0 := { t40_category : parameter_category; t40_number : Z }.
(** section4/product_definition_template_4_1.rs:6-25 *)
Record template4_1 := { t41_category : parameter_category; t41_number : Z; t41_process : Z;
  t41_background : Z; t41_forecast_process : Z; t41_hours : Z; t41_minutes : Z; t41_unit : Z;
  t41_forecast_time : Z; t41_surf1_type : Z; t41_surf1_factor : Z; t41_surf1_value : Z;
  t41_surf2_type : Z; t41_surf2_factor : Z; t41_surf2_value : Z; t41_ens_type : Z;
  t41_perturbation : Z; t41_ens_count : Z }.
(** section4/product_definition_template.rs:6-12 (Missing is never constructed). *)
Inductive product_definition_template := Template4_0 (t : template4_0)
  | Template4_1 (t : template4_1) | Template4_8 (t : template4_0) | Template4_Unknown (n : Z).
(** section4/section4.rs:4-9 *)
Record section4 := { s4_length : Z; s4_number : Z; s4_coordinates : list f32;
  s4_template : product_definition_template }.

(** meteo_parameter_category_reader.rs:11-25 *)
Definition read_parameter_category : reader parameter_category :=
  v <- read_u8 ;;
  ret (if v =? 0 then CTemperature else if v =? 1 then CMoisture else if v =? 2 then CMomentum
       else if v =? 3 then CMass else if v =? 6 then CCloud else if v =? 191 then CMiscellaneous
       else if v =? 255 then CMissing else CUnknown v).
(** section4_template_4_0_reader.rs:14-26 *)
Definition read_template4_0 : reader template4_0 :=
  c <- read_parameter_category ;; n <- read_u8 ;; read_n_bytes 23 ;;;
  ret {| t40_category := c; t40_number := n |}.
(** section4_template_4_1_reader.rs:12-54 *)
Definition read_template4_1 : reader template4_1 :=
  c <- read_parameter_category ;; n <- read_u8 ;; p <- read_u8 ;; b <- read_u8 ;;
  f <- read_u8 ;; h <- read_u16 ;; m <- read_u8 ;; u <- read_u8 ;; ft <- read_u32 ;;
  s1 <- read_u8 ;; f1 <- read_i8 ;; v1 <- read_u32 ;;
  s2 <- read_u8 ;; f2 <- read_i8 ;; v2 <- read_u32 ;;
  et <- read_u8 ;; pn <- read_u8 ;; ec <- read_u8 ;;
  ret {| t41_category := c; t41_number := n; t41_process := p; t41_background := b;
         t41_forecast_process := f; t41_hours := h; t41_minutes := m; t41_unit := u;
         t41_forecast_time := ft; t41_surf1_type := s1; t41_surf1_factor := f1;
         t41_surf1_value := v1; t41_surf2_type := s2; t41_surf2_factor := f2;
         t41_surf2_value := v2; t41_ens_type := et; t41_perturbation := pn;
         t41_ens_count := ec |}.
(** section4_template_4_8_reader.rs:14-31 *)
Definition read_template4_8 : reader template4_0 :=
  c <- read_parameter_category ;; n <- read_u8 ;; read_n_bytes 30 ;;;
  k <- read_u8 ;; read_n_bytes (4 + 12 * k) ;;;
  ret {| t40_category := c; t40_number := n |}.
(** section4_reader.rs:35-60 *)
Definition read_product_definition_template (n tpl_length : Z)
  : reader product_definition_template :=
  if n =? 0 then t <- read_template4_0 ;; ret (Template4_0 t)
  else if n =? 1 then t <- read_template4_1 ;; ret (Template4_1 t)
  else if n =? 8 then t <- read_template4_8 ;; ret (Template4_8 t)
  else read_n_bytes tpl_length ;;; ret (Template4_Unknown n).
(** section4_reader.rs:15-33 with section4.rs:15-33.  [length - 9] is u32 arithmetic. *)
Definition read_section4 (chk : bool) : reader section4 :=
  len <- read_u32 ;; num <- read_u8 ;; cnt <- read_u16 ;; tn <- read_u16 ;;
  tl <- lift (usub chk 32 len 9) ;;
  tpl <- read_product_definition_template tn tl ;;
  cs <- read_be_into 4 cnt ;;
  if num =? 4 then
    ret {| s4_length := len; s4_number := num; s4_coordinates := map f32_of_bits cs;
           s4_template := tpl |}
  else fail EInvalid.

(** ** Section 5 *)

(** section5/original_field_type.rs:2-7 *)
Inductive original_field_type := FFloatingPoint | FInteger | FMissing | FUnknown (v : Z).
(** section5/data_representation_template_5_0.rs:6-12 *)
Record template5_0 := { t50_reference : f32; t50_e : Z; t50_d : Z; t50_bits : Z;
  t50_field_type : original_field_type }.
(** section5/data_representation_template.rs:4-8 (Missing is never constructed). *)
Inductive data_representation_template := SimplePacking (t : template5_0) | Template5_Unknown (n : Z).
(** section5/section5.rs:5-10 *)
Record section5 := { s5_length : Z; s5_number : Z; s5_points : Z;
  s5_template : data_representation_template }.

(** data_representation_template_5_0_reader.rs:33-43 *)
Definition read_original_field_type : reader original_field_type :=
  v <- read_u8 ;;
  ret (if v =? 0 then FFloatingPoint else if v =? 1 then FInteger
       else if v =? 255 then FMissing else FUnknown v).
(** data_representation_template_5_0_reader.rs:14-30 *)
Definition read_template5_0 : reader template5_0 :=
  r <- read_u32 ;; e <- read_signed ;; d <- read_signed ;; b <- read_u8 ;;
  ft <- read_original_field_type ;;
  ret {| t50_reference := f32_of_bits r; t50_e := e; t50_d := d; t50_bits := b;
         t50_field_type := ft |}.
(** section5_reader.rs:30-47 *)
Definition read_data_representation_template (n tpl_length : Z)
  : reader data_representation_template :=
  if n =? 0 then t <- read_template5_0 ;; ret (SimplePacking t)
  else read_n_bytes tpl_length ;;; ret (Template5_Unknown n).
(** section5_reader.rs:13-28 with section5.rs:16-34 *)
Definition read_section5 (chk : bool) : reader section5 :=
  len <- read_u32 ;; num <- read_u8 ;; pts <- read_u32 ;; tn <- read_u16 ;;
  tl <- lift (usub chk 32 len 11) ;;
  tpl <- read_data_representation_template tn tl ;;
  if num =? 5 then
    ret {| s5_length := len; s5_number := num; s5_points := pts; s5_template := tpl |}
  else fail EInvalid.

(** ** Section 6: section6/section6.rs:3-31, section6_reader.rs:13-27 *)
Record section6 := { s6_length : Z; s6_number : Z; s6_indicator : Z; s6_bitmap : bytes }.
Definition read_section6 (chk : bool) : reader section6 :=
  len <- read_u32 ;; num <- read_u8 ;; ind <- read_u8 ;;
  n <- lift (usub chk 32 len 6) ;;
  bm <- read_n_bytes n ;;
  if num =? 6 then
    ret {| s6_length := len; s6_number := num; s6_indicator := ind; s6_bitmap := bm |}
  else fail EInvalid.

(** ** Section 7: section7/section7.rs:3-29, section7_reader.rs:12-33 *)
Record section7 := { s7_length : Z; s7_number : Z; s7_data : list Z }.
Definition read_section7 (chk : bool) : reader section7 :=
  len <- read_u32 ;; num <- read_u8 ;;
  n <- lift (usub chk 32 len 5) ;;
  ds <- read_be_into 2 (n / 2) ;;
  if num =? 7 then ret {| s7_length := len; s7_number := num; s7_data := ds |}
  else fail EInvalid.

(** ** Section 8: section8/section8.rs:3-19, section8_reader.rs:11-16 *)
Record section8 := { s8_magic : bytes }.
Definition end_magic : bytes := [55; 55; 55; 55]. (* "7777", section8.rs:8 *)
Definition read_section8 : reader section8 :=
  m <- read_n_chars 4 ;;
  if bytes_eqb m end_magic then ret {| s8_magic := m |} else fail EInvalid.

(** ** Documents *)

(** document/grib2_document.rs:16-26 *)
Record document := { d_s0 : section0; d_s1 : section1; d_s2 : section2; d_s3 : section3;
  d_s4 : section4; d_s5 : section5; d_s6 : section6; d_s7 : section7; d_s8 : section8 }.

(** document/grib2_document_reader.rs:39-62 *)
Definition read_single_doc (chk : bool) : reader document :=
  s0 <- read_section0 ;; s1 <- read_section1 chk ;; s2 <- read_section2 chk ;;
  s3 <- read_section3 ;; s4 <- read_section4 chk ;; s5 <- read_section5 chk ;;
  s6 <- read_section6 chk ;; s7 <- read_section7 chk ;; s8 <- read_section8 ;;
  ret {| d_s0 := s0; d_s1 := s1; d_s2 := s2; d_s3 := s3; d_s4 := s4; d_s5 := s5;
         d_s6 := s6; d_s7 := s7; d_s8 := s8 |}.

(** document/grib2_document_reader.rs:21-29: the loop.  [fuel] bounds the number of
    iterations; every document consumes at least one byte, so [S (length bs)] iterations are
    always enough (proved in Grib2Proofs.v); running out of fuel is reported as [None]. *)
Fixpoint read_docs (chk : bool) (fuel : nat) (bs : bytes) : option (outcome (list document)) :=
  match fuel with
  | O => None
  | S f =>
    match read_single_doc chk bs with
    | Ok (d, rest) =>
        match read_docs chk f rest with
        | Some (Ok ds) => Some (Ok (d :: ds))
        | other => other
        end
    | Err _ => Some (Ok [])
    | Panic => Some Panic
    end
  end.

(** document/grib2_document_reader.rs:18-36 *)
Definition read_multi_doc (chk : bool) (bs : bytes) : option (outcome (list document)) :=
  match read_docs chk (S (length bs)) bs with
  | Some (Ok []) => Some (Err EInvalid)
  | other => other
  end.

(** document/grib2_document.rs:52-65: the loop over the points, from point [i] on, [n] points
    left, [j] the next packed value.  Indexing out of bounds panics. *)
Section DataPoints.
  Context {T : Type}.
  Variables (ref_value c1 c2 : f32) (missing : T) (transform : f32 -> T).
  Variables (bitmap : bytes) (raw : list Z).

  Fixpoint data_points_loop (n : nat) (i : Z) (j : Z) : outcome (list T) :=
    match n with
    | O => Ok []
    | S n' =>
      let present : outcome bool :=
        match bitmap with
        | [] => Ok true
        | _ => match nth_error bitmap (Z.to_nat (i / 8)) with
               | Some b => Ok (0 <? Z.land b (Z.shiftr 128 (i mod 8)))
               | None => Panic
               end
        end in
      obind present (fun p =>
        if p then
          match nth_error raw (Z.to_nat j) with
          | Some r =>
              let v := fdiv (fadd ref_value (fmul (f32_of_Z r) c1)) c2 in
              omap (cons (transform v)) (data_points_loop n' (i + 1) (j + 1))
          | None => Panic
          end
        else omap (cons missing) (data_points_loop n' (i + 1) j))
    end.
End DataPoints.

(** document/grib2_document.rs:30-68.  [powi] is [f32::powi], whose precision Rust does not
    specify; it is a parameter. *)
Definition calculate_data_points {T} (powi : f32 -> Z -> f32) (d : document)
  (missing : T) (transform : f32 -> T) : outcome (list T) :=
  match s5_template (d_s5 d) with
  | SimplePacking t =>
      let c1 := powi (f32_of_Z 2) (t50_e t) in
      let c2 := powi (f32_of_Z 10) (t50_d t) in
      match s7_data (d_s7 d) with
      | [] => Ok (repeat missing (Z.to_nat (s3_points (d_s3 d))))
      | raw => data_points_loop (t50_reference t) c1 c2 missing transform
                 (s6_bitmap (d_s6 d)) raw (Z.to_nat (s3_points (d_s3 d))) 0 0
      end
  | Template5_Unknown _ => Err EInvalid
  end.
