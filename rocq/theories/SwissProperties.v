(** The properties C51, C52, C53, C54 and C60, about the forecasts of MeteoSwiss. *)
From Coq Require Import Ascii String ZArith Reals List Bool Lia Sorted Permutation.
From Verif Require Import Base F32 F32Facts Grib2Model Grib2Spec Grib2Samples Grib2FloatProofs GeoModel GeoSpec GeoRegridProofs ImagingModel Par TextSpec TileModel TileProperties
  ChartModel ChartSpec MetobinModel Text ForecastModel ForecastSpec ForecastProofs FetchModel FetchSpec FetchProofs DwdSpec DwdProofs DwdProperties
  SwissModel SwissSpec SwissProofs SwissCells SwissMissingProofs.
Import ListNotations.
Open Scope Z_scope.

(** ** C51: horizons *)

(** C51.  Exactly these texts are accepted: P, the days, any number of D, T, the hours, H and anything without another T;
    there has to be a D somewhere, and both numbers fit a byte. *)
Theorem C51_parse : forall s h, horizon_from_str s = Ok h <->
  exists dd k hh rest, s = ("P" ++ dd ++ times k "D" ++ "T" ++ hh ++ "H" ++ rest)%string /\
    byte_text dd (hz_days h) /\ byte_text hh (hz_hours h) /\ contains "T" rest = false /\ ((0 < k)%nat \/ contains "D" rest = true).
Proof. exact c51_parse_proof. Qed.
Print Assumptions C51_parse.
(** C51.  Every other text is refused with an error. *)
Theorem C51_refused : forall s, (exists h, horizon_from_str s = Ok h) \/ horizon_from_str s = Err EInvalid.
Proof. exact c51_refused_proof. Qed.
Print Assumptions C51_refused.
(** C51.  The name of a horizon is its days and hours in this form. *)
Theorem C51_name : forall h s, horizon_ok h -> (s = horizon_name h <-> horizon_text h s).
Proof. exact c51_text_proof. Qed.
Print Assumptions C51_name.
(** C51.  The name of a horizon is parsed back to it. *)
Theorem C51_round_trip : forall h, horizon_ok h -> horizon_from_str (horizon_name h) = Ok h.
Proof. exact c51_round_trip_proof. Qed.
Print Assumptions C51_round_trip.
(** C51.  The step of a horizon is its number of hours; beyond 255 it panics with overflow checks and is wrong without. *)
Theorem C51_step : forall chk h, horizon_ok h ->
  horizon_step chk h = if hours h <=? 255 then Ok (hours h) else if chk then Panic else Ok (hours h mod 256).
Proof. exact c51_step_proof. Qed.
Print Assumptions C51_step.
(** C51.  The horizon of a step has as many hours. *)
Theorem C51_from_step : forall n, 0 <= n <= 255 -> horizon_ok (horizon_from_step n) /\ hours (horizon_from_step n) = n /\ hz_hours (horizon_from_step n) < 24.
Proof. exact c51_from_step_proof. Qed.
Print Assumptions C51_from_step.

Example C51_sample : horizon_name (horizon_from_step 30) = "P1DT06H00M00S"%string /\ horizon_from_str "P1DT06H00M00S" = Ok {| hz_days := 1; hz_hours := 6 |} /\
  horizon_step true {| hz_days := 1; hz_hours := 6 |} = Ok 30 /\ horizon_ok {| hz_days := 1; hz_hours := 6 |}.
Proof. split; [|split; [|split]]; try (vm_compute; reflexivity). unfold horizon_ok. cbn. lia. Qed.
(** Finding: unusual texts are accepted, and the minutes and seconds are ignored. *)
Example C51_odd : horizon_from_str "P+1DDDT06H59M" = Ok {| hz_days := 1; hz_hours := 6 |} /\ horizon_from_str "P1T06HD" = Ok {| hz_days := 1; hz_hours := 6 |}.
Proof. split; vm_compute; reflexivity. Qed.
(** Finding: a horizon of eleven days is accepted, but has no step. *)
Example C51_overflow : horizon_from_str "P11DT00H00M00S" = Ok {| hz_days := 11; hz_hours := 0 |} /\
  horizon_step true {| hz_days := 11; hz_hours := 0 |} = Panic /\ horizon_step false {| hz_days := 11; hz_hours := 0 |} = Ok 8.
Proof. split; [|split]; vm_compute; reflexivity. Qed.

(** ** C52: files of a variable *)

(** C52.  What the search for the files of a variable gives, for each answer of the service: all the files described
    by the features, in the order of their horizons (files with the same horizon keep their order); an error if a
    feature describes no file; a panic if a horizon is beyond 255 hours (with overflow checks). *)
Theorem C52_files : forall chk sv v t o, find_files chk sv v t o ->
  exists answer, sv_search sv (file_request v t) answer /\
  match answer with
  | Ok features =>
      (exists parsed l, o = Ok l /\ Forall2 described features parsed /\ Permutation parsed l /\ (short_horizons parsed -> by_horizon parsed l) /\
         (chk = true -> (2 <= length parsed)%nat -> short_horizons parsed)) \/
      (o = Err EInvalid /\ exists f, In f features /\ forall s, ~ described f s) \/
      (o = Panic /\ chk = true /\ exists parsed, Forall2 described features parsed /\ (2 <= length parsed)%nat /\ ~ short_horizons parsed)
  | Err e => o = Err e
  | Panic => o = Panic
  end.
Proof. exact c52_files_proof. Qed.
Print Assumptions C52_files.
(** C52.  If all the features describe files within 255 hours, the search gives them. *)
Theorem C52_answer : forall chk sv v t features parsed, sv_search sv (file_request v t) (Ok features) -> Forall2 described features parsed -> short_horizons parsed ->
  exists l, find_files chk sv v t (Ok l) /\ by_horizon parsed l.
Proof. exact c52_answer_proof. Qed.
Print Assumptions C52_answer.
(** C52.  There is only one such order. *)
Theorem C52_unique : forall parsed l l', by_horizon parsed l -> by_horizon parsed l' -> l = l'.
Proof. exact c52_unique_proof. Qed.
Print Assumptions C52_unique.
(** C52.  The steps are the files, numbered from 0 in the order of the horizons; the first may be left out. *)
Theorem C52_numbers : forall chk sv v t skip steps, swiss_steps chk sv v t skip (Ok steps) ->
  exists l, files_of sv v t l /\ StronglySorted Z.lt (map st_nr steps) /\
    forall s, In s steps <-> exists i f, nth_error l i = Some f /\ (skip = true -> (1 <= i)%nat) /\ s = {| st_nr := Z.of_nat i; st_url := ss_href f |}.
Proof. exact c52_numbers_proof. Qed.
Print Assumptions C52_numbers.
(** C52.  If there is one file for each hour from 0 on, the number of each step is its horizon in hours. *)
Theorem C52_hourly : forall parsed l n, by_horizon parsed l -> Permutation parsed l -> Permutation (map (fun s => hours (ss_horizon s)) parsed) (map Z.of_nat (seq 0 n)) ->
  forall i f, nth_error l i = Some f -> hours (ss_horizon f) = Z.of_nat i.
Proof. exact c52_hourly_proof. Qed.
Print Assumptions C52_hourly.

Definition hourly (n : Z) : feature :=
  {| ft_title := "file"; ft_ref := "2025-11-20T06:00:00Z"; ft_horizon := horizon_name (horizon_from_step n); ft_hrefs := ["file://" ++ dec n]%string |}.
Definition file_of (n : Z) : swiss_step := {| ss_title := "file"; ss_horizon := horizon_from_step n; ss_href := ("file://" ++ dec n)%string |}.
(** A service that always answers with these hours. *)
Definition answering (l : list Z) : service :=
  {| sv_search := fun _ o => o = Ok (map hourly l); sv_assets := fun _ => False; sv_fetch := fun _ _ => False |}.
Definition at_six : datetime := {| dt_date := day_of 2025 11 20; dt_hour := 6; dt_minute := 0; dt_second := 0; dt_nano := 0 |}.
Lemma hourly_described n : 0 <= n <= 255 -> described (hourly n) (file_of n).
Proof.
  intro B. split; [reflexivity|]. split; [|exists []; reflexivity]. apply C51_round_trip. apply C51_from_step. exact B.
Qed.
Example C52_sample :
  find_files true (answering [26; 0; 25; 24]) ST2m at_six (Ok [file_of 0; file_of 24; file_of 25; file_of 26]) /\
  Forall2 described (map hourly [26; 0; 25; 24]) (map file_of [26; 0; 25; 24]) /\ short_horizons (map file_of [26; 0; 25; 24]).
Proof.
  split; [|split].
  - exists (Ok (map hourly [26; 0; 25; 24])). split; [reflexivity|]. vm_compute. reflexivity.
  - repeat (constructor; [apply hourly_described; lia|]). constructor.
  - repeat (constructor; [vm_compute; discriminate|]). constructor.
Qed.
(** Finding: the number of a step is its place in the list.  If the file for hour 1 is not there yet, the one
    for hour 2 becomes step 1. *)
Example C52_gap : swiss_steps true (answering [0; 2]) ST2m at_six false (Ok [{| st_nr := 0; st_url := "file://0" |}; {| st_nr := 1; st_url := "file://2" |}]).
Proof. exists (Ok [file_of 0; file_of 2]). split; [|vm_compute; reflexivity]. exists (Ok (map hourly [0; 2])). split; [reflexivity|]. vm_compute. reflexivity. Qed.
(** Finding: if a feature has several assets, any of them may be used (the HashMap is iterated in any order). *)
Example C52_hrefs : forall a b rest, described {| ft_title := "file"; ft_ref := ""; ft_horizon := "P0DT00H00M00S"; ft_hrefs := a :: b :: rest |}
  {| ss_title := "file"; ss_horizon := horizon_zero; ss_href := a |}.
Proof. intros a b rest. split; [reflexivity|]. split; [vm_compute; reflexivity|]. exists (b :: rest). reflexivity. Qed.

(** ** C53: reference times *)

(** C53.  The latest reference time is the last multiple of three hours of the day that is not after the given time. *)
Theorem C53_latest : forall t, valid_time t -> valid_time (ref_latest t) /\ dt_date (ref_latest t) = dt_date t /\
  instant (ref_latest t) mod three_hours = 0 /\ instant (ref_latest t) <= instant t /\
  forall n, n mod three_hours = 0 -> n <= instant t -> n <= instant (ref_latest t).
Proof. exact c53_latest_proof. Qed.
Print Assumptions C53_latest.
(** C53.  A text is accepted exactly if it is a time with minute and second zero and an hour divisible by three, in the
    time zone it is written in; the result is the same instant in UTC. *)
Theorem C53_parse : forall rfc3339 s,
  (rfc3339 s = None -> ref_from_str rfc3339 s = Err EInvalid) /\
  forall t offset, rfc3339 s = Some (t, offset) -> local_time t offset ->
    (dt_minute t = 0 /\ dt_second t = 0 /\ dt_hour t mod 3 = 0 ->
       exists u, ref_from_str rfc3339 s = Ok u /\ valid_time u /\ instant u = instant t - offset * 10 ^ 9) /\
    (~ (dt_minute t = 0 /\ dt_second t = 0 /\ dt_hour t mod 3 = 0) -> ref_from_str rfc3339 s = Err EInvalid).
Proof. exact c53_parse_proof. Qed.
Print Assumptions C53_parse.
(** C53.  There is a run name exactly for the hours divisible by three: the hour with two digits. *)
Theorem C53_run_name : forall t o, valid_time t -> (swiss_run_name t = o <->
  (dt_hour t mod 3 = 0 /\ exists s, o = Ok s /\ padded 2 s (dt_hour t)) \/ (dt_hour t mod 3 <> 0 /\ o = Err EInvalid)).
Proof. exact c53_run_text_proof. Qed.
Print Assumptions C53_run_name.
(** C53.  The name sent to the service is the time in the form of RFC 3339. *)
Theorem C53_text : forall t s, valid_time t -> (s = ref_name t <-> time_text t s).
Proof. exact c53_text_proof. Qed.
Print Assumptions C53_text.
(** C53.  The name sent to the service determines the time up to fractions of a second. *)
Theorem C53_name : forall t t', valid_time t -> valid_time t' -> ref_name t = ref_name t' ->
  dt_date t = dt_date t' /\ dt_hour t = dt_hour t' /\ dt_minute t = dt_minute t' /\ dt_second t = dt_second t'.
Proof. exact c53_name_proof. Qed.
Print Assumptions C53_name.
(** C53.  The name of a latest reference time is parsed back to it (by a parser that reads what is written). *)
Theorem C53_round_trip : forall rfc3339 t, valid_time t -> rfc3339 (ref_name (ref_latest t)) = Some (ref_latest t, 0) ->
  ref_from_str rfc3339 (ref_name (ref_latest t)) = Ok (ref_latest t).
Proof. exact c53_round_trip_proof. Qed.
Print Assumptions C53_round_trip.
(** C53.  The latest reference time of the service is that of the last feature of its answer. *)
Theorem C53_find : forall rfc3339 sv o, find_latest_ref rfc3339 sv o <->
  exists answer, sv_search sv latest_request answer /\
    match answer with
    | Ok features => features = [] /\ o = Err EInvalid \/ exists earlier f, features = earlier ++ [f] /\ o = ref_from_str rfc3339 (ft_ref f)
    | Err e => o = Err e
    | Panic => o = Panic
    end.
Proof. exact c53_find_proof. Qed.
Print Assumptions C53_find.

Definition zulu (s : string) : option (datetime * Z) := if String.eqb s "2025-11-20T06:00:00Z" then Some (at_six, 0)
  else if String.eqb s "2025-11-20T06:00:00+01:00" then Some (at_six, 3600) else None.
Lemma at_six_valid : valid_time at_six.
Proof. unfold valid_time, valid_date. vm_compute. intuition discriminate. Qed.
Example C53_sample : valid_time at_six /\ local_time at_six 3600 /\ ref_name at_six = "2025-11-20T06:00:00Z"%string /\ ref_from_str zulu (ref_name at_six) = Ok at_six /\
  swiss_run_name at_six = Ok "06"%string /\ ref_latest {| dt_date := day_of 2025 11 20; dt_hour := 8; dt_minute := 59; dt_second := 30; dt_nano := 1 |} = at_six.
Proof.
  split; [exact at_six_valid|]. split; [split; [exact at_six_valid|]; vm_compute; intuition discriminate|]. repeat split; vm_compute; reflexivity.
Qed.
(** Finding: with an offset that is not divisible by three hours, the time is accepted, but there is no run for it. *)
Example C53_offset : exists t, ref_from_str zulu "2025-11-20T06:00:00+01:00" = Ok t /\ swiss_run_name t = Err EInvalid.
Proof. eexists. split; vm_compute; reflexivity. Qed.

(** ** C54: selection of layers *)

(** (C60_sample below is a run that meets the hypotheses.)
    C54.  Either it ends without success before anything is done, or exactly the named layers are rendered, in the
    fixed order, each once, until one fails; the height grids are read directly before the vertical layers, and only
    if one of those is named. *)
Theorem C54_swiss_order : forall chk powi rfc3339 sv m faulty steps vars tr r plan,
  dated rfc3339 sv -> plan_of vars plan -> swiss_render_latest chk powi rfc3339 sv m faulty steps vars tr r ->
  (tr = [] /\ r <> Ok tt) \/
  exists u heights t o, started chk powi rfc3339 sv u heights t /\
    (In EHeights tr -> swiss_read_hhl chk powi (sv_fetch sv) u heights o) /\
    for_seq plan (perform (swiss_cloud_precip chk powi sv m faulty steps u t) (swiss_wind chk powi sv m faulty steps u t)
      (swiss_temp chk powi sv m faulty steps u t) o (swiss_vertical_cloud chk powi sv faulty steps u t)
      (swiss_vertical_wind chk powi sv faulty steps u t)) tr r.
Proof. exact c54_swiss_order_proof. Qed.
Print Assumptions C54_swiss_order.
(** C54.  The height grids are read at most once. *)
Theorem C54_swiss_heights : forall chk powi rfc3339 sv m faulty steps vars tr r,
  dated rfc3339 sv -> swiss_render_latest chk powi rfc3339 sv m faulty steps vars tr r ->
  (heights_read tr <= 1)%nat /\ (~ chosen vars Heights -> heights_read tr = 0%nat) /\ (r = Ok tt -> chosen vars Heights -> heights_read tr = 1%nat).
Proof. exact c54_swiss_heights_proof. Qed.
Print Assumptions C54_swiss_heights.
(** C54.  However it ends, only files of named layers and selected steps are written. *)
Theorem C54_swiss_paths : forall chk powi rfc3339 sv m faulty steps vars tr r e p,
  dated rfc3339 sv -> swiss_render_latest chk powi rfc3339 sv m faulty steps vars tr r -> In e tr -> effect_path e = Some p ->
  exists u heights t ty l n rest, started chk powi rfc3339 sv u heights t /\ named vars ty /\ In (Layer ty) order /\
    files_of sv (main_var ty) t l /\ (first_step ty <= n < length l)%nat /\ wanted_step steps n /\
    p = (output_path (swiss_run_of t) (Z.of_nat n) ty ++ rest)%string.
Proof. exact c54_swiss_paths_proof. Qed.
Print Assumptions C54_swiss_paths.
(** C54.  Order, repetitions and unknown names in the filter make no difference. *)
Theorem C54_swiss_same : forall chk powi rfc3339 sv m faulty steps vars vars' tr r, same_layers vars vars' ->
  swiss_render_latest chk powi rfc3339 sv m faulty steps vars tr r -> swiss_render_latest chk powi rfc3339 sv m faulty steps vars' tr r.
Proof. exact c54_swiss_same_proof. Qed.
Print Assumptions C54_swiss_same.

(** ** C60: from the files of the service to the output *)

(** C60.  After a successful rendering, for every named layer and selected step the map tiles and the meteobin file are
    there, with the content that belongs to the grids in the files that the service names for this very variable,
    reference time and place in the order of horizons (for the precipitation: this and the preceding place). *)
Theorem C60_output : forall chk powi rfc3339 sv m steps vars tr,
  dated rfc3339 sv -> steady (sv_fetch sv) -> swiss_render_latest chk powi rfc3339 sv m false steps vars tr (Ok tt) ->
  exists u heights t, started chk powi rfc3339 sv u heights t /\
  let run := swiss_run_of t in
  let value := value_file chk powi (sv_fetch sv) u in
  let levels := level_grids_at chk powi (sv_fetch sv) u in
  (named vars Temp2m -> exists l, files_of sv ST2m t l /\
     forall n f, nth_error l n = Some f -> wanted_step steps n ->
     exists temp, value f temp /\ rendered chk m (temp_kind chk m) run (Z.of_nat n) temp tr) /\
  (named vars Wind10m -> exists lu lv lg, files_of sv SU10m t lu /\ files_of sv SV10m t lv /\ files_of sv SVmax10m t lg /\
     forall n fu, nth_error lu n = Some fu -> wanted_step steps n ->
     exists fv fg east north gusts, nth_error lv n = Some fv /\ nth_error lg n = Some fg /\ value fu east /\ value fv north /\ value fg gusts /\
       rendered chk m (wind_kind chk m) run (Z.of_nat n) {| wl_zonal := east; wl_meridional := north; wl_gusts := Some gusts |} tr) /\
  (named vars CloudPrecip -> exists lc lp le, files_of sv SClct t lc /\ files_of sv STotPrec t lp /\ files_of sv SCeiling t le /\
     forall n fc, nth_error lc (S n) = Some fc -> wanted_step steps (S n) ->
     exists f0 f1 fe clct prec0 prec1 ceiling, nth_error lp n = Some f0 /\ nth_error lp (S n) = Some f1 /\ nth_error le (S n) = Some fe /\
       percent_file chk powi (sv_fetch sv) u fc clct /\ value f0 prec0 /\ value f1 prec1 /\ value fe ceiling /\
       rendered chk m (cloud_precip_kind chk m) run (Z.of_nat (S n))
         ({| cp_cloud := clct; cp_precip0 := prec0; cp_precip1 := prec1 |}, {| we_clct := clct; we_ceiling := ceiling; we_ww := None |}) tr) /\
  (named vars VerticalCloud \/ named vars VerticalWind -> exists hhl, levels HHL_MISSING hhl_transform heights hhl /\
     (named vars VerticalCloud -> exists l, files_of sv SClc t l /\
        forall n f, nth_error l n = Some f -> wanted_step steps n ->
        exists clc, levels CLC_MISSING clc_transform (ss_href f) clc /\ hhl <> [] /\ length clc = length hhl /\
          rendered chk m vertical_cloud_kind run (Z.of_nat n) {| vc_hhl := hhl; vc_clc := clc |} tr) /\
     (named vars VerticalWind -> exists lu lv, files_of sv SU t lu /\ files_of sv SV t lv /\
        forall n fu, nth_error lu n = Some fu -> wanted_step steps n ->
        exists fv east north, nth_error lv n = Some fv /\ levels U_V_MISSING u_v_transform (ss_href fu) east /\ levels U_V_MISSING u_v_transform (ss_href fv) north /\
          hhl <> [] /\ length east = length hhl /\ length north = length hhl /\ rendered chk m vertical_wind_kind run (Z.of_nat n) {| vw_hhl := hhl; vw_u := east; vw_v := north |} tr)).
Proof. exact c60_proof. Qed.
Print Assumptions C60_output.
(** C60.  If the service has the constants and the same number of files of each variable, no selection of layers and
    steps and no schedule makes the rendering fail. *)
Theorem C60_succeeds : forall chk powi rfc3339 sv m steps vars files count,
  good_service chk powi rfc3339 sv files count -> (1 <= count)%nat ->
  (forall e t, extent_new (lat_lon_new (f32_lit 4203 100) (f32_lit (-81) 100)) (lat_lon_new (f32_lit 5050 100) (f32_lit 1770 100)) = Ok e ->
     tiles_addressable chk m (swiss_run_of t) e) ->
  (exists tr r, swiss_render_latest chk powi rfc3339 sv m false steps vars tr r) /\
  forall tr r, swiss_render_latest chk powi rfc3339 sv m false steps vars tr r -> r = Ok tt.
Proof. exact c60_succeeds_proof. Qed.
Print Assumptions C60_succeeds.
(** C60.  Each cell of such a grid has the value of the file at the place of the nearest coordinate within 0.01 degrees (of
    equally near ones the last), or the missing value if there is none. *)
Theorem C60_cells : forall chk powi fetch T (missing : T) transform e cs u f g,
  extent_new (lat_lon_new (f32_lit 4203 100) (f32_lit (-81) 100)) (lat_lon_new (f32_lit 5050 100) (f32_lit 1770 100)) = Ok e ->
  calc_coord_dist_lookup_map chk (unstructured_new None 1851 847 e cs) (f32_lit 1 100) = Ok u ->
  Forall (clear_of_antimeridian (f32_lit 1 100)) cs -> file_grid chk powi fetch u missing transform f g ->
  exists bs d rest values, fetch (ss_href f) (Ok bs) /\ read_single_doc chk bs = Ok (d, rest) /\
    calculate_data_points powi d missing transform = Ok values /\ dims g = (1851, 847) /\ extent_of g = e /\
    forall x y, 0 <= x < 1851 -> 0 <= y < 847 ->
      (exists i c s, nth_error cs i = Some c /\ nearby (grid_new 1851 847 e) (f32_lit 1 100) c x y s /\
         (forall j c' s', nth_error cs j = Some c' -> nearby (grid_new 1851 847 e) (f32_lit 1 100) c' x y s' ->
            (xr s <= xr s')%R /\ ((i < j)%nat -> (xr s < xr s')%R)) /\
         nth_error (vg_values g) (Z.to_nat (y * 1851 + x)) = Some (nth i values missing)) \/
      ((forall c s, In c cs -> ~ nearby (grid_new 1851 847 e) (f32_lit 1 100) c x y s) /\
         nth_error (vg_values g) (Z.to_nat (y * 1851 + x)) = Some missing).
Proof. exact c60_cells_proof. Qed.
Print Assumptions C60_cells.

(** A service with three files of each variable, each of them with 33 documents. *)
Definition many : bytes := concat (repeat (message_bytes low) 33).
Definition swiss_hor : asset := {| as_id := "horizontal_constants_icon-ch1-eps.grib2"; as_href := "file://hor" |}.
Definition swiss_vert : asset := {| as_id := "vertical_constants_icon-ch1-eps.grib2"; as_href := "file://vert" |}.
Definition swiss_sample : service :=
  {| sv_search := fun _ o => o = Ok (map hourly [2; 0; 1]);
     sv_assets := fun o => o = Ok [{| as_id := "readme"; as_href := "file://readme" |}; swiss_vert; swiss_hor];
     sv_fetch := fun _ o => o = Ok many |}.
Lemma many_docs : read_multi_doc true many = Some (Ok (repeat low_doc 33)).
Proof. vm_compute. reflexivity. Qed.
Lemma many_first : exists rest, read_single_doc true many = Ok (low_doc, rest).
Proof. eexists. vm_compute. reflexivity. Qed.
Lemma many_served url bs : sv_fetch swiss_sample url (Ok bs) -> bs = many.
Proof. intro H. change (Ok bs = Ok many) in H. apply (f_equal (fun o => match o with Ok b => b | _ => [] end)) in H. exact H. Qed.
Opaque many.
Lemma many_good {T} (fetch : fetcher) lost (missing : T) transform url : (forall url, answers lost (fetch url) (fun bs => bs = many)) ->
  has_values powi_rt missing transform low_doc -> good_single true powi_rt fetch lost missing transform url.
Proof.
  intros S H. destruct (S url) as [T0 G]. split; [exact T0|]. intros o Ho. destruct (G o Ho) as [(bs & -> & ->)|L]; [|now right]. left. eexists. split; [reflexivity|].
  destruct many_first as (rest & R). left. eexists. split; [exact R|exact H].
Qed.
Lemma many_all_docs (fetch : fetcher) lost (P : list document -> Prop) url : (forall url, answers lost (fetch url) (fun bs => bs = many)) ->
  P (repeat low_doc 33) -> answers lost (fetch url) (all_docs true lost P).
Proof.
  intros S H. destruct (S url) as [T0 G]. split; [exact T0|]. intros o Ho. destruct (G o Ho) as [(bs & -> & ->)|L]; [|now right]. left. eexists. split; [reflexivity|].
  exists (Ok (repeat low_doc 33)). split; [exact many_docs|]. left. eauto.
Qed.
Lemma many_good_levels (fetch : fetcher) lost missing transform url : (forall url, answers lost (fetch url) (fun bs => bs = many)) ->
  has_values powi_rt missing transform low_doc -> good_levels true powi_rt fetch lost 2 missing transform url.
Proof.
  intros S H. apply many_all_docs; [exact S|]. split; [reflexivity|]. change (level_docs (repeat low_doc 33)) with [low_doc; low_doc]. auto.
Qed.
Lemma low_has_values : has_values powi_rt (f32_of_Z (-1)) (fun x => x) low_doc /\ has_values powi_rt (f32_of_Z (-1)) (fun x => fdiv x (f32_of_Z 100)) low_doc /\
  has_values powi_rt CLC_MISSING clc_transform low_doc /\ has_values powi_rt U_V_MISSING u_v_transform low_doc /\ has_values powi_rt HHL_MISSING hhl_transform low_doc.
Proof. repeat split; eexists; vm_compute; reflexivity. Qed.
Lemma low_coordinates : exists cs, coordinates_from_docs powi_rt low_doc low_doc = Ok cs.
Proof. eexists. vm_compute. reflexivity. Qed.
Definition sample_assets : list asset := [{| as_id := "readme"; as_href := "file://readme" |}; swiss_vert; swiss_hor].
Lemma sample_files sv lost : (forall url, answers lost (sv_fetch sv url) (fun bs => bs = many)) -> answers lost (sv_assets sv) (fun l => l = sample_assets) ->
  (forall rq, answers lost (sv_search sv rq) (fun features => features = map hourly [2; 0; 1])) -> service_files true powi_rt lost zulu sv 3 2.
Proof.
  intros S [Ta Ha] Q. destruct low_has_values as (H1 & H2 & H3 & H4 & H5). destruct low_coordinates as (cs & C). split; split; [exact Ta| |exact (proj1 (Q _))|].
  - intros o Ho. destruct (Ha o Ho) as [(l & -> & ->)|L]; [|now right]. left. exists sample_assets. split; [reflexivity|]. exists swiss_hor, swiss_vert.
    split; [exists [{| as_id := "readme"; as_href := "file://readme" |}; swiss_vert], []; repeat split; repeat (constructor; [discriminate|]); constructor|].
    split; [apply many_all_docs; [exact S|]; exists low_doc, low_doc, cs; auto|].
    split; [exists [{| as_id := "readme"; as_href := "file://readme" |}], [swiss_hor]; repeat split; repeat (constructor; [discriminate|]); constructor|].
    apply many_good_levels; [exact S|exact H5].
  - intros o Ho. destruct (proj2 (Q _) o Ho) as [(l & -> & ->)|L]; [|now right]. left. eexists. split; [reflexivity|].
    exists (map hourly [2; 0]), (hourly 1), at_six. split; [reflexivity|]. split; [vm_compute; reflexivity|]. split; [exact at_six_valid|]. split; [reflexivity|].
    intro v. split; [exact (proj1 (Q _))|]. intros o' Ho'. destruct (proj2 (Q _) o' Ho') as [(l & -> & ->)|L]; [|now right]. left. eexists. split; [reflexivity|].
    exists (map file_of [2; 0; 1]). split; [reflexivity|].
    split; [repeat (constructor; [apply hourly_described; lia|]); constructor|]. split; [repeat (constructor; [vm_compute; discriminate|]); constructor|].
    apply Forall_forall. intros s _. destruct v; cbn [good_var_file]; first [apply many_good; assumption|apply many_good_levels; assumption].
Qed.
Lemma swiss_sample_good : good_service true powi_rt zulu swiss_sample 3 2.
Proof.
  apply sample_files; [intro url| |intro rq]; (split; [eexists; reflexivity|]); intros o ->; left; eexists; (split; [reflexivity|]); reflexivity.
Qed.
Lemma swiss_sample_dated : dated zulu swiss_sample.
Proof.
  intros rq features f t offset E J P. unfold zulu in P. destruct (String.eqb (ft_ref f) "2025-11-20T06:00:00Z"); [injection P as <- <-|].
  - split; [exact at_six_valid|]. vm_compute. intuition discriminate.
  - destruct (String.eqb (ft_ref f) "2025-11-20T06:00:00+01:00"); [|discriminate]. injection P as <- <-. split; [exact at_six_valid|]. vm_compute. intuition discriminate.
Qed.
Example C60_sample : good_service true powi_rt zulu swiss_sample 3 2 /\ dated zulu swiss_sample /\ steady (sv_fetch swiss_sample) /\
  exists tr, swiss_render_latest true powi_rt zulu swiss_sample flat false [1; 2] ["wind_10m"; "vertical_cloud"]%string tr (Ok tt) /\
    exists u g, rendered true flat (wind_kind true flat) (swiss_run_of at_six) 2 {| wl_zonal := g; wl_meridional := g; wl_gusts := Some g |} tr /\
      value_file true powi_rt (sv_fetch swiss_sample) u (file_of 2) g.
Proof.
  assert (St : steady (sv_fetch swiss_sample)) by (intros url bs bs' H H'; rewrite (many_served url bs H), (many_served url bs' H'); reflexivity).
  split; [exact swiss_sample_good|]. split; [exact swiss_sample_dated|]. split; [exact St|].
  destruct (C60_succeeds true powi_rt zulu swiss_sample flat [1; 2] ["wind_10m"; "vertical_cloud"]%string 3 2 swiss_sample_good ltac:(lia)) as [(tr & r & R) A].
  { intros e t E. vm_compute in E. injection E as <-. apply addressable_check. vm_compute. reflexivity. }
  pose proof (A tr r R) as ->. exists tr. split; [exact R|].
  destruct (C60_output true powi_rt zulu swiss_sample flat [1; 2] ["wind_10m"; "vertical_cloud"]%string tr swiss_sample_dated St R) as (u & heights & t & S & _ & W & _).
  assert (Et : t = at_six).
  { destruct S as (l & hor & vert & _ & _ & _ & _ & _ & (fs & f & Ef & Rf)). cbn in Ef. injection Ef as Ef.
    change [hourly 2; hourly 0; hourly 1] with ([hourly 2; hourly 0] ++ [hourly 1]) in Ef. apply app_inj_tail in Ef. destruct Ef as [_ ->]. vm_compute in Rf. injection Rf as <-. reflexivity. }
  subst t. destruct (W (or_intror (or_introl eq_refl))) as (lu & lv & lg & Fu & Fv & Fg & H).
  assert (X : forall v l, files_of swiss_sample v at_six l -> l = [file_of 0; file_of 1; file_of 2]).
  { intros v l (features & parsed & E & F & P & B). cbn in E. injection E as ->.
    assert (Ep : parsed = map file_of [2; 0; 1]).
    { inversion F as [|? ? ? ? D1 F1]; subst. inversion F1 as [|? ? ? ? D2 F2]; subst. inversion F2 as [|? ? ? ? D3 F3]; subst. inversion F3; subst.
      assert (Y : forall n s, 0 <= n <= 255 -> described (hourly n) s -> s = file_of n).
      { intros n [a b c] Bn (E1 & E2 & more & E3). destruct (hourly_described n Bn) as (_ & E2' & _). rewrite E2 in E2'. cbn in E1, E2', E3. injection E2' as ->. injection E3 as <- _. subst a. reflexivity. }
      cbn [map]. f_equal; [|f_equal; [|f_equal]]; apply Y; try lia; assumption. }
    subst parsed. assert (Sh : short_horizons (map file_of [2; 0; 1])) by (repeat (constructor; [vm_compute; discriminate|]); constructor).
    apply (C52_unique (map file_of [2; 0; 1])); [exact (B Sh)|]. split.
    - repeat constructor; vm_compute; discriminate.
    - intro n. cbn [map List.filter]. change (hours (ss_horizon (file_of 0))) with 0. change (hours (ss_horizon (file_of 1))) with 1. change (hours (ss_horizon (file_of 2))) with 2.
      destruct (Z.eqb_spec 0 n), (Z.eqb_spec 1 n), (Z.eqb_spec 2 n); try lia; reflexivity. }
  apply X in Fu, Fv, Fg. subst lu lv lg. destruct (H 2%nat (file_of 2) eq_refl (or_intror (or_intror (or_introl eq_refl)))) as (fv & fg & a & b & c & Nv & Ng & Va & Vb & Vc & Re).
  injection Nv as <-. injection Ng as <-. assert (Y : forall g, value_file true powi_rt (sv_fetch swiss_sample) u (file_of 2) g -> g = a).
  { intros g (bs & d & rest & E1 & E2 & E3). destruct Va as (bs' & d' & rest' & E1' & E2' & E3'). apply many_served in E1, E1'. subst bs bs'. rewrite E2 in E2'. injection E2' as <- <-. congruence. }
  apply Y in Vb, Vc. subst b c. exists u, a. auto.
Qed.
(** Two coordinates; the cell (781, 397) has only the first in reach, the cell (0, 0) none. *)
Definition two_coordinates : list lat_lon := [lat_lon_new (f32_of_Z 46) (f32_of_Z 7); lat_lon_new (f32_of_Z 47) (f32_of_Z 8)].
Definition swiss_extent : extent := {| min_coord := lat_lon_new (f32_lit 4203 100) (f32_lit (-81) 100); max_coord := lat_lon_new (f32_lit 5050 100) (f32_lit 1770 100) |}.
Definition reach_of (c : lat_lon) (x y : Z) : bool :=
  match cell_centre (grid_new 1851 847 swiss_extent) x y with Some p => fgt (dist_squared c p) (fmul (f32_lit 1 100) (f32_lit 1 100)) | None => true end.
Lemma reach_nearby c x y s : nearby (grid_new 1851 847 swiss_extent) (f32_lit 1 100) c x y s -> reach_of c x y = false.
Proof. intros (p & Ep & -> & F). unfold reach_of. rewrite Ep. exact F. Qed.
Example C60_cells_sample : exists u g,
  extent_new (lat_lon_new (f32_lit 4203 100) (f32_lit (-81) 100)) (lat_lon_new (f32_lit 5050 100) (f32_lit 1770 100)) = Ok swiss_extent /\
  calc_coord_dist_lookup_map true (unstructured_new None 1851 847 swiss_extent two_coordinates) (f32_lit 1 100) = Ok u /\
  Forall (clear_of_antimeridian (f32_lit 1 100)) two_coordinates /\ value_file true powi_rt (sv_fetch swiss_sample) u (file_of 0) g /\
  nth_error (vg_values g) (Z.to_nat (397 * 1851 + 781)) = Some (f32_of_Z 0) /\ nth_error (vg_values g) (Z.to_nat 0) = Some (f32_of_Z (-1)).
Proof.
  assert (E : extent_new (lat_lon_new (f32_lit 4203 100) (f32_lit (-81) 100)) (lat_lon_new (f32_lit 5050 100) (f32_lit 1770 100)) = Ok swiss_extent) by (vm_compute; reflexivity).
  destruct (lookup_map_slots true 1851 847 swiss_extent two_coordinates (f32_lit 1 100) ltac:(lia) ltac:(lia)) as (mp & L & _).
  assert (C : Forall (clear_of_antimeridian (f32_lit 1 100)) two_coordinates).
  { assert (H : forall a b, lat_lon_new (f32_of_Z a) (f32_of_Z b) = {| lat := f32_of_Z a; lon := f32_of_Z b |} -> 0 <= a <= 100 -> 0 <= b <= 100 ->
      f32_valid (f32_of_Z a) -> f32_valid (f32_of_Z b) -> clear_of_antimeridian (f32_lit 1 100) (lat_lon_new (f32_of_Z a) (f32_of_Z b))).
    { intros a b -> A B Va Vb. destruct (f32_of_Z_exact a ltac:(lia)) as [Fa Xa]. destruct (f32_of_Z_exact b ltac:(lia)) as [Fb Xb].
      destruct swiss_distance as [_ [_ D]]. split; [split; split; assumption|]. cbn [lat lon]. rewrite Xa, Xb, <- !abs_IZR. split.
      - apply Rle_trans with (IZR (Z.abs a) + 64)%R; [apply Rplus_le_compat_l; exact D|]. rewrite <- plus_IZR. apply IZR_le. lia.
      - apply Rle_trans with (IZR (Z.abs b) + 64)%R; [apply Rplus_le_compat_l; exact D|]. rewrite <- plus_IZR. apply IZR_le. lia. }
    constructor; [|constructor; [|constructor]]; apply H; try lia; vm_compute; reflexivity. }
  destruct (regrid_fits true powi_rt 1851 847 swiss_extent two_coordinates (f32_lit 1 100) _ (f32_of_Z (-1)) (fun x => x) low_doc ltac:(lia) ltac:(lia) L (ex_intro _ _ low_values)) as (g & Rg & _).
  destruct many_first as (rest & Rm).
  assert (V : value_file true powi_rt (sv_fetch swiss_sample) {| ug_grid := grid_new 1851 847 swiss_extent; ug_coords := two_coordinates; ug_map := mp |} (file_of 0) g)
    by (exists many, low_doc, rest; split; [reflexivity|]; split; assumption).
  eexists. exists g. split; [exact E|]. split; [exact L|]. split; [exact C|]. split; [exact V|].
  destruct (C60_cells true powi_rt (sv_fetch swiss_sample) f32 (f32_of_Z (-1)) (fun x => x) swiss_extent two_coordinates _ (file_of 0) g E L C V)
    as (bs & d & rest' & values & Sv & Rd & Cv & _ & _ & W).
  apply many_served in Sv. subst bs. rewrite Rm in Rd. injection Rd as <- <-. rewrite low_values in Cv. injection Cv as <-. split.
  - destruct (W 781 397 ltac:(lia) ltac:(lia)) as [(i & c & s & Nc & Nb & _ & ->)|[No _]].
    + destruct i as [|[|i]]; [reflexivity| |destruct i; discriminate Nc]. injection Nc as <-. apply reach_nearby in Nb. vm_compute in Nb. discriminate Nb.
    + exfalso. apply (No (lat_lon_new (f32_of_Z 46) (f32_of_Z 7)) (dist_squared (lat_lon_new (f32_of_Z 46) (f32_of_Z 7))
        (match cell_centre (grid_new 1851 847 swiss_extent) 781 397 with Some p => p | None => lat_lon_new fzero fzero end)) (or_introl eq_refl)).
      destruct (cell_centre (grid_new 1851 847 swiss_extent) 781 397) as [p|] eqn:Ec; [|vm_compute in Ec; discriminate Ec].
      exists p. split; [exact Ec|]. split; [reflexivity|]. vm_compute in Ec. injection Ec as <-. vm_compute. reflexivity.
  - destruct (W 0 0 ltac:(lia) ltac:(lia)) as [(i & c & s & Nc & Nb & _)|[_ N]]; [|exact N].
    exfalso. apply reach_nearby in Nb. destruct i as [|[|i]]; [| |destruct i; discriminate Nc]; injection Nc as <-; vm_compute in Nb; discriminate Nb.
Qed.

(** ** C62: errors *)

(** C62.  If the service does not answer, or has files that cannot be had or read, the rendering ends with such an error
    or without one; it does not panic. *)
Theorem C62_swiss : forall lost chk powi rfc3339 sv m steps vars files count,
  service_files chk powi lost rfc3339 sv files count -> (1 <= count)%nat ->
  (forall e t, extent_new (lat_lon_new (f32_lit 4203 100) (f32_lit (-81) 100)) (lat_lon_new (f32_lit 5050 100) (f32_lit 1770 100)) = Ok e ->
     tiles_addressable chk m (swiss_run_of t) e) ->
  (exists tr r, swiss_render_latest chk powi rfc3339 sv m false steps vars tr r) /\
  forall tr r, swiss_render_latest chk powi rfc3339 sv m false steps vars tr r -> r = Ok tt \/ exists er, r = Err er /\ lost er.
Proof. exact c62_swiss_proof. Qed.
Print Assumptions C62_swiss.

(** The same service, but it may fail each time. *)
Definition flaky_sample : service :=
  {| sv_search := fun rq o => sv_search swiss_sample rq o \/ o = Err EIo; sv_assets := fun o => sv_assets swiss_sample o \/ o = Err EIo;
     sv_fetch := fun url o => sv_fetch swiss_sample url o \/ o = Err EIo |}.
Example C62_swiss_sample : service_files true powi_rt (fun e => e = EIo) zulu flaky_sample 3 2 /\
  forall tr r, swiss_render_latest true powi_rt zulu flaky_sample flat false [] [] tr r -> r = Ok tt \/ r = Err EIo.
Proof.
  assert (F : service_files true powi_rt (fun e => e = EIo) zulu flaky_sample 3 2).
  { apply sample_files; [intro url| |intro rq]; (split; [exists (Err EIo); now right|]); intros o [->| ->]; [left|right|left|right|left|right]; eexists; (split; [reflexivity|]); reflexivity. }
  split; [exact F|]. destruct (C62_swiss _ true powi_rt zulu flaky_sample flat [] [] 3 2 F ltac:(lia)) as [_ A].
  { intros e t E. vm_compute in E. injection E as <-. apply addressable_check. vm_compute. reflexivity. }
  intros tr r R. destruct (A tr r R) as [E|(er & E & ->)]; auto.
Qed.

(** C62.  (Finding.)  The condition on the numbers of files is needed: a step that is missing among the files of one of the
    layer's variables ends the wind layer with an error, but every other layer with a panic, before any file is asked for. *)
Theorem C62_swiss_missing : forall chk powi fetch u hhl s t2m us vs gs clct prec ceiling clc,
  let lacks steps n := ~ In n (map st_nr steps) in
  (lacks t2m (st_nr s) -> forall o, swiss_read_temp chk powi fetch t2m u s o <-> o = Panic) /\
  (lacks us (st_nr s) \/ lacks vs (st_nr s) \/ lacks gs (st_nr s) ->
     forall o, swiss_read_wind chk powi fetch us vs gs u s o <-> o = Err EInvalid) /\
  (0 < st_nr s -> lacks clct (st_nr s) \/ lacks prec (st_nr s - 1) \/ lacks prec (st_nr s) ->
     forall o, swiss_read_cloud_precip chk powi fetch clct prec u s o <-> o = Panic) /\
  (lacks clct (st_nr s) \/ lacks ceiling (st_nr s) ->
     forall o, swiss_read_weather chk powi fetch clct ceiling u s o <-> o = Panic) /\
  (lacks clc (st_nr s) -> forall o, swiss_read_vertical_cloud chk powi fetch clc u hhl s o <-> o = Panic) /\
  (lacks us (st_nr s) \/ lacks vs (st_nr s) ->
     forall o, swiss_read_vertical_wind chk powi fetch us vs u hhl s o <-> o = Panic).
Proof. exact c62_swiss_missing_proof. Qed.
Print Assumptions C62_swiss_missing.
Example C62_swiss_missing_sample : ~ In 4 (map st_nr [{| st_nr := 2; st_url := "a" |}; {| st_nr := 3; st_url := "b" |}]).
Proof. cbn. intuition discriminate. Qed.
