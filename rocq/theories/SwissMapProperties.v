(** The property C72, from the messages of the Swiss weather service to the published map and data files. *)
From Coq Require Import Ascii String ZArith Reals List Bool Lia Lra.
From Flocq Require Import Core.Core.
From Verif Require Import Base F32 F32Facts Grib2Model Grib2Spec Grib2Samples Grib2DocProofs Grib2FloatProofs GeoModel GeoSpec GeoProofs ImagingModel ImagingSpec Par TileModel TileSpec TileProofs MercatorProofs LibmProofs
  ChartModel ChartSpec ChartProofs MetobinModel MetobinSpec MetobinProofs ForecastModel ForecastSpec ForecastProofs FetchModel FetchSpec FetchProofs DwdProofs DwdProperties SwissModel SwissSpec SwissProofs SwissCells SwissProperties
  MapSpec MapProperties FieldSpec PublishSpec PublishProperties SwissMapSpec SwissPlaceProofs SwissMapProofs.
Import ListNotations.
Open Scope Z_scope.

(** C72.  If the rendering of the latest forecast succeeds, under every schedule, then the service gave the places of the points
    of the model, the reference time and the list of the temperature files; and the file of each step asked for started with a
    GRIB2 message.  If all points have places, then the map has, in each pixel of the tiles with places of the area, the legend's
    colour for what that message says about the point closest to the cell of the place that the Web-Mercator map has there; and
    the data file has the code of what it says about the point closest to each of the 1851 x 847 cells. *)
Theorem C72_temperature : forall chk powi rfc3339 sv m steps vars tr, swiss_succeeded chk powi rfc3339 sv m steps vars tr ->
  libm_ok m -> libm_accurate m -> named vars Temp2m ->
  exists clat clon heights t l, informed chk rfc3339 sv clat clon heights t /\ files_of sv ST2m t l /\
  forall n f, nth_error l n = Some f -> wanted_step steps n -> exists b, starts_with chk (sv_fetch sv) (ss_href f) b /\ (located powi clat clon ->
    let run := swiss_run_of t in
    (forall zoom x y, swiss_tile run zoom x y -> exists img, holds run (Z.of_nat n) (TileFile Temp2m zoom x y) tr (Png img) /\
       painted zoom x y img (fun p c => exists o, swiss_near (reported powi clat clon as_is b) p o /\ temperature_colour o c)) /\
    exists data, holds run (Z.of_nat n) (BinFile BinTemp) tr (Data data) /\
      laid_out 1 1851 847 data (fun x y rec => exists o c, reported powi clat clon as_is b x y o /\ rec = [c] /\ temperature_code o c)).
Proof. exact c72_temperature_proof. Qed.
Print Assumptions C72_temperature.
(** C72.  The same for the wind, from the messages of its components and of the gusts; *)
Theorem C72_wind : forall chk powi rfc3339 sv m steps vars tr, swiss_succeeded chk powi rfc3339 sv m steps vars tr ->
  libm_ok m -> libm_accurate m -> named vars Wind10m ->
  exists clat clon heights t lu lv lg, informed chk rfc3339 sv clat clon heights t /\ files_of sv SU10m t lu /\ files_of sv SV10m t lv /\ files_of sv SVmax10m t lg /\
  forall n fu, nth_error lu n = Some fu -> wanted_step steps n -> exists fv fg bu bv bg, nth_error lv n = Some fv /\ nth_error lg n = Some fg /\
    starts_with chk (sv_fetch sv) (ss_href fu) bu /\ starts_with chk (sv_fetch sv) (ss_href fv) bv /\ starts_with chk (sv_fetch sv) (ss_href fg) bg /\ (located powi clat clon ->
    let run := swiss_run_of t in
    (forall zoom x y, swiss_tile run zoom x y -> exists img, holds run (Z.of_nat n) (TileFile Wind10m zoom x y) tr (Png img) /\
       painted zoom x y img (fun p c => exists e v, swiss_near (reported powi clat clon as_is bu) p e /\ swiss_near (reported powi clat clon as_is bv) p v /\ wind_colour e v c)) /\
    exists data, holds run (Z.of_nat n) (BinFile BinWind) tr (Data data) /\
      laid_out 3 1851 847 data (fun x y rec => exists e v gust, reported powi clat clon as_is bu x y e /\ reported powi clat clon as_is bv x y v /\
        reported powi clat clon as_is bg x y gust /\ wind_code e v gust rec)).
Proof. exact c72_wind_proof. Qed.
Print Assumptions C72_wind.
(** for clouds, precipitation and weather, from the cloud cover, the totals of this step and of the one before, and the ceiling;
    the map is interpolated between the cells, and there is no step 0; *)
Theorem C72_rain : forall chk powi rfc3339 sv m steps vars tr, swiss_succeeded chk powi rfc3339 sv m steps vars tr ->
  libm_ok m -> libm_accurate m -> named vars CloudPrecip ->
  exists clat clon heights t lc lp le, informed chk rfc3339 sv clat clon heights t /\ files_of sv SClct t lc /\ files_of sv STotPrec t lp /\ files_of sv SCeiling t le /\
  forall n fc, nth_error lc (Datatypes.S n) = Some fc -> wanted_step steps (Datatypes.S n) -> exists f0 f1 fe bc b0 b1 be,
    nth_error lp n = Some f0 /\ nth_error lp (Datatypes.S n) = Some f1 /\ nth_error le (Datatypes.S n) = Some fe /\
    starts_with chk (sv_fetch sv) (ss_href fc) bc /\ starts_with chk (sv_fetch sv) (ss_href f0) b0 /\ starts_with chk (sv_fetch sv) (ss_href f1) b1 /\
    starts_with chk (sv_fetch sv) (ss_href fe) be /\ (located powi clat clon ->
    let run := swiss_run_of t in
    let nr := Z.of_nat (Datatypes.S n) in
    (forall zoom x y, swiss_tile run zoom x y -> exists img, holds run nr (TileFile CloudPrecip zoom x y) tr (Png img) /\
       painted zoom x y img (fun p c => exists o o0 o1, swiss_between (reported powi clat clon hundredth bc) p o /\
         swiss_between (reported powi clat clon as_is b0) p o0 /\ swiss_between (reported powi clat clon as_is b1) p o1 /\ rain_colour o o0 o1 c)) /\
    (exists data, holds run nr (BinFile BinPrecip) tr (Data data) /\
      laid_out 1 1851 847 data (fun x y rec => exists o0 o1 c, reported powi clat clon as_is b0 x y o0 /\ reported powi clat clon as_is b1 x y o1 /\ rec = [c] /\ rain_code o0 o1 c)) /\
    exists data, holds run nr (BinFile BinWeather) tr (Data data) /\
      laid_out 2 1851 847 data (fun x y rec => exists o oc, reported powi clat clon hundredth bc x y o /\ reported powi clat clon as_is be x y oc /\ weather_code None o oc rec)).
Proof. exact c72_rain_proof. Qed.
Print Assumptions C72_rain.
(** and for the profiles of clouds and wind, from the messages of all levels: those from number 31 on, at most 49, and as many in
    the file of the heights as in the others. *)
Theorem C72_vertical_cloud : forall chk powi rfc3339 sv m steps vars tr, swiss_succeeded chk powi rfc3339 sv m steps vars tr ->
  named vars VerticalCloud ->
  exists clat clon heights t l, informed chk rfc3339 sv clat clon heights t /\ files_of sv SClc t l /\
  forall n f, nth_error l n = Some f -> wanted_step steps n -> exists levels (hs bs : nat -> bulletin),
    has_levels chk (sv_fetch sv) heights levels /\ has_levels chk (sv_fetch sv) (ss_href f) levels /\
    (forall k, (k < levels)%nat -> number_of chk (sv_fetch sv) heights (31 + k) (hs k) /\ number_of chk (sv_fetch sv) (ss_href f) (31 + k) (bs k)) /\ (located powi clat clon ->
    let run := swiss_run_of t in
    exists data, holds run (Z.of_nat n) (BinFile BinVerticalClouds) tr (Data data) /\
      laid_out (2 * Z.of_nat levels) 1851 847 data (fun x y rec => forall k, (k < levels)%nat -> exists o1 o2 a b,
        measured powi clat clon (hs k) x y o1 /\ measured powi clat clon (bs k) x y o2 /\ height_code o1 a /\ cover_code o2 b /\ slice rec (2 * Z.of_nat k) 2 = [a; b])).
Proof. exact c72_vertical_cloud_proof. Qed.
Print Assumptions C72_vertical_cloud.
Theorem C72_vertical_wind : forall chk powi rfc3339 sv m steps vars tr, swiss_succeeded chk powi rfc3339 sv m steps vars tr ->
  named vars VerticalWind ->
  exists clat clon heights t lu lv, informed chk rfc3339 sv clat clon heights t /\ files_of sv SU t lu /\ files_of sv SV t lv /\
  forall n fu, nth_error lu n = Some fu -> wanted_step steps n -> exists fv levels (hs us vs : nat -> bulletin), nth_error lv n = Some fv /\
    has_levels chk (sv_fetch sv) heights levels /\ has_levels chk (sv_fetch sv) (ss_href fu) levels /\ has_levels chk (sv_fetch sv) (ss_href fv) levels /\
    (forall k, (k < levels)%nat -> number_of chk (sv_fetch sv) heights (31 + k) (hs k) /\ number_of chk (sv_fetch sv) (ss_href fu) (31 + k) (us k) /\
       number_of chk (sv_fetch sv) (ss_href fv) (31 + k) (vs k)) /\ (located powi clat clon ->
    let run := swiss_run_of t in
    exists data, holds run (Z.of_nat n) (BinFile BinVerticalWind) tr (Data data) /\
      laid_out (3 * Z.of_nat levels) 1851 847 data (fun x y rec => forall k, (k < levels)%nat -> exists o1 o2 o3 a w,
        measured powi clat clon (hs k) x y o1 /\ measured powi clat clon (us k) x y o2 /\ measured powi clat clon (vs k) x y o3 /\
        height_code o1 a /\ level_wind_code o2 o3 w /\ slice rec (3 * Z.of_nat k) 3 = a :: w)).
Proof. exact c72_vertical_wind_proof. Qed.
Print Assumptions C72_vertical_wind.

(** A service with three files of each variable, all with two points of the model: one at 46 degrees north and 7 degrees east with
    the value 280, one at 47 degrees north and 8 degrees east with the value 290. *)
Definition two_points (values : list Z) : wire :=
  {| w_0 := w_0 sample; w_1 := w_1 sample; w_2 := w_2 sample; w_3 := w_3 sample2; w_4 := w_4 sample2;
     w_5 := {| w5_length := 21; w5_points := 2; w5_tpl := W5_0 0 0 0 16 0 |}; w_6 := w_6 sample2; w_7 := {| w7_length := 9; w7_data := values |} |}.
Definition plain (values : list Z) : bulletin := {| bl_wire := two_points values; bl_reference := 0; bl_binary := 0; bl_decimal := 0 |}.
Definition all_messages : list wire := map two_points (repeat [280; 290] 3 ++ [[7; 8]; [46; 47]] ++ repeat [280; 290] 28).
Definition alpine_file : bytes := concat (map message_bytes all_messages).
Definition alpine_docs : list document := map message_meaning all_messages.
Definition alpine_service : service :=
  {| sv_search := fun _ o => o = Ok (map hourly [2; 0; 1]); sv_assets := fun o => o = Ok sample_assets; sv_fetch := fun _ o => o = Ok alpine_file |}.
Lemma plain_packed : packed true (plain [280; 290]) /\ packed true (plain [7; 8]) /\ packed true (plain [46; 47]).
Proof. repeat match goal with |- _ /\ _ => split | |- packed _ _ => split; [|do 2 eexists; reflexivity] end; unfold plain; cbn [bl_wire]; wf_tac 4. Qed.
Lemma alpine_multi : read_multi_doc true alpine_file = Some (Ok alpine_docs).
Proof. vm_compute. reflexivity. Qed.
Lemma alpine_first : exists rest, read_single_doc true alpine_file = Ok (message_meaning (two_points [280; 290]), rest).
Proof. eexists. vm_compute. reflexivity. Qed.
Lemma alpine_bytes : Forall is_byte alpine_file.
Proof. assert (H : forallb (fun b => (0 <=? b) && (b <? 256)) alpine_file = true) by (vm_compute; reflexivity). rewrite forallb_forall in H. apply Forall_forall. intros b J. apply H in J. unfold is_byte. apply andb_prop in J. destruct J as [J1 J2]. apply Z.leb_le in J1. apply Z.ltb_lt in J2. lia. Qed.
Lemma alpine_served url bs : sv_fetch alpine_service url (Ok bs) -> bs = alpine_file.
Proof. intro H. change (Ok bs = Ok alpine_file) in H. apply (f_equal (fun o => match o with Ok b => b | _ => [] end)) in H. exact H. Qed.
Opaque alpine_file.
Lemma alpine_has_values : let d := message_meaning (two_points [280; 290]) in
  has_values powi_rt (f32_of_Z (-1)) (fun x => x) d /\ has_values powi_rt (f32_of_Z (-1)) (fun x => fdiv x (f32_of_Z 100)) d /\
  has_values powi_rt CLC_MISSING clc_transform d /\ has_values powi_rt U_V_MISSING u_v_transform d /\ has_values powi_rt HHL_MISSING hhl_transform d.
Proof. repeat split; eexists; vm_compute; reflexivity. Qed.
Lemma alpine_coordinates : exists cs, coordinates_from_docs powi_rt (message_meaning (two_points [46; 47])) (message_meaning (two_points [7; 8])) = Ok cs.
Proof. eexists. vm_compute. reflexivity. Qed.
Lemma alpine_answers {A} (a : A) P (p : result A) : (forall o, p o <-> o = Ok a) -> (P a : Prop) -> answers (fun _ => False) p P.
Proof. intros H Pa. split; [exists (Ok a); apply H; reflexivity|]. intros o Ho. apply H in Ho. subst o. left. eauto. Qed.
Lemma alpine_single {T} (missing : T) transform url : has_values powi_rt missing transform (message_meaning (two_points [280; 290])) ->
  good_single true powi_rt (sv_fetch alpine_service) (fun _ => False) missing transform url.
Proof. intro H. destruct alpine_first as (rest & R). apply (alpine_answers alpine_file); [reflexivity|]. left. eexists. split; [exact R|exact H]. Qed.
Lemma alpine_all P url : (P alpine_docs : Prop) -> answers (fun _ => False) (sv_fetch alpine_service url) (all_docs true (fun _ => False) P).
Proof. intro H. apply (alpine_answers alpine_file); [reflexivity|]. exists (Ok alpine_docs). split; [exact alpine_multi|]. left. eauto. Qed.
Lemma alpine_levels (missing : Z) transform url : has_values powi_rt missing transform (message_meaning (two_points [280; 290])) ->
  good_levels true powi_rt (sv_fetch alpine_service) (fun _ => False) 2 missing transform url.
Proof. intro H. apply alpine_all. split; [reflexivity|]. change (level_docs alpine_docs) with (map message_meaning [two_points [280; 290]; two_points [280; 290]]). cbn [map]. auto. Qed.
Lemma alpine_good : good_service true powi_rt zulu alpine_service 3 2.
Proof.
  destruct alpine_has_values as (H1 & H2 & H3 & H4 & H5). destruct alpine_coordinates as (cs & C). split.
  - apply (alpine_answers sample_assets); [reflexivity|]. exists swiss_hor, swiss_vert.
    split; [exists [{| as_id := "readme"; as_href := "file://readme" |}; swiss_vert], []; repeat split; repeat (constructor; [discriminate|]); constructor|].
    split; [apply alpine_all; do 2 eexists; exists cs; split; [reflexivity|split; [reflexivity|exact C]]|].
    split; [exists [{| as_id := "readme"; as_href := "file://readme" |}], [swiss_hor]; repeat split; repeat (constructor; [discriminate|]); constructor|].
    apply alpine_levels. exact H5.
  - apply (alpine_answers (map hourly [2; 0; 1])); [reflexivity|].
    exists (map hourly [2; 0]), (hourly 1), at_six. split; [reflexivity|]. split; [vm_compute; reflexivity|]. split; [exact at_six_valid|]. split; [reflexivity|].
    intro v. apply (alpine_answers (map hourly [2; 0; 1])); [reflexivity|]. exists (map file_of [2; 0; 1]). split; [reflexivity|].
    split; [repeat (constructor; [apply hourly_described; lia|]); constructor|]. split; [repeat (constructor; [vm_compute; discriminate|]); constructor|].
    apply Forall_forall. intros s _. destruct v; cbn [good_var_file]; first [apply alpine_single; assumption|apply alpine_levels; assumption].
Qed.
Lemma alpine_dated : dated zulu alpine_service.
Proof. exact swiss_sample_dated. Qed.

(** These are the stations, and the only messages that the theorems can speak of. *)
Lemma same_messages chk ws : forall ws' rest rest', length ws' = length ws -> Forall (wf_message chk) ws -> Forall (wf_message chk) ws' ->
  concat (map message_bytes ws) ++ rest = concat (map message_bytes ws') ++ rest' -> map message_meaning ws = map message_meaning ws'.
Proof.
  induction ws as [|w ws IH]; intros [|w' ws'] rest rest' L F F' E; try discriminate L; [reflexivity|]. inversion F as [|? ? W Fw]; inversion F' as [|? ? W' Fw']; subst. cbn [map concat] in E. rewrite <- !app_assoc in E.
  pose proof (read_single_doc_bwd chk w (concat (map message_bytes ws) ++ rest) W) as R1. pose proof (read_single_doc_bwd chk w' (concat (map message_bytes ws') ++ rest') W') as R2. rewrite E, R2 in R1.
  pose proof (f_equal (fun o => match o with Ok x => fst x | _ => message_meaning w end) R1) as R3. apply (f_equal (fun o => match o with Ok x => snd x | _ => [] end)) in R1. cbv beta iota in R1, R3. cbn [fst snd] in R1, R3.
  cbn [map]. f_equal; [symmetry; exact R3|]. apply (IH ws' rest rest'); [injection L as L; exact L|exact Fw|exact Fw'|symmetry; exact R1].
Qed.
Lemma alpine_wf : Forall (wf_message true) all_messages.
Proof.
  destruct plain_packed as ([A _] & [B _] & [C _]). apply Forall_forall. intros w J. unfold all_messages in J. apply in_map_iff in J. destruct J as (l & <- & J).
  assert (D : l = [280; 290] \/ l = [7; 8] \/ l = [46; 47]) by (repeat (destruct J as [<-|J]; [auto|]); destruct J). destruct D as [->|[->| ->]]; assumption.
Qed.
Lemma alpine_number url k b w : number_of true (sv_fetch alpine_service) url k b -> nth_error all_messages k = Some w -> message_meaning (bl_wire b) = message_meaning w.
Proof.
  intros ((Wb & _) & earlier & rest & Le & Fe & H) N. apply alpine_served in H.
  assert (E : concat (map message_bytes (firstn (Datatypes.S k) all_messages)) ++ concat (map message_bytes (skipn (Datatypes.S k) all_messages)) = concat (map message_bytes (earlier ++ [bl_wire b])) ++ rest).
  { rewrite <- concat_app, <- map_app, firstn_skipn. rewrite map_app, concat_app. cbn [map concat]. rewrite app_nil_r, <- app_assoc. symmetry. exact H. }
  assert (Lk : (k < length all_messages)%nat) by (apply nth_error_Some; congruence).
  apply (same_messages true) in E.
  - apply (f_equal (fun l => nth_error l k)) in E. rewrite !nth_error_map in E. rewrite nth_error_app2 in E by lia. rewrite Le, Nat.sub_diag in E. cbn [nth_error option_map] in E.
    assert (N' : nth_error (firstn (Datatypes.S k) all_messages) k = Some w). { rewrite <- (firstn_skipn (Datatypes.S k) all_messages) in N. rewrite nth_error_app1 in N; [exact N|]. rewrite firstn_length. lia. }
    rewrite N' in E. cbn [option_map] in E. apply (f_equal (fun o => match o with Some x => x | None => message_meaning w end)) in E. symmetry. exact E.
  - rewrite app_length, firstn_length. cbn [length]. lia.
  - apply Forall_forall. intros v J. apply (proj1 (Forall_forall _ _) alpine_wf). rewrite <- (firstn_skipn (Datatypes.S k) all_messages). apply in_or_app. now left.
  - apply Forall_app. split; [exact Fe|constructor; [exact Wb|constructor]].
Qed.
(** A message that means the same as one of these has the same numbers. *)
Lemma alpine_points b v v' : packed true b -> message_meaning (bl_wire b) = message_meaning (two_points [v; v']) ->
  calculate_data_points powi_rt (message_meaning (two_points [v; v'])) (f32_of_Z 255) (fun x => x) = Ok [f32_of_Z v; f32_of_Z v'] ->
  points b = 2 /\ (feq (f32_of_Z v) (f32_of_Z 255) = false -> feq (f32_of_Z v') (f32_of_Z 255) = false -> feq (f32_of_Z 255) (f32_of_Z 255) = true ->
     forall i o, at_point powi_rt b i o <-> o = nth i [Some (f32_of_Z v); Some (f32_of_Z v')] None).
Proof.
  intros Pb M C. rewrite <- M in C. destruct (read_points true powi_rt b _ _ _ Pb C) as [L R]. split; [symmetry; exact L|]. intros N N' Eq i.
  assert (X : at_point powi_rt b i (nth i [Some (f32_of_Z v); Some (f32_of_Z v')] None)).
  { destruct (R i) as (o & A & E). destruct i as [|[|i]]; [| |left; split; [rewrite <- L; cbn [length]; lia|destruct i; reflexivity]]; cbn [nth] in *;
      (destruct o as [x|]; [rewrite E; exact A|exfalso; rewrite E in *; congruence]). }
  intro o. split; [intro A; eapply at_point_fun; eassumption|intros ->; exact X].
Qed.
Lemma plain_values : forall v v', In (v, v') [(46, 47); (7, 8); (280, 290)] ->
  calculate_data_points powi_rt (message_meaning (two_points [v; v'])) (f32_of_Z 255) (fun x => x) = Ok [f32_of_Z v; f32_of_Z v'] /\
  feq (f32_of_Z v) (f32_of_Z 255) = false /\ feq (f32_of_Z v') (f32_of_Z 255) = false.
Proof. intros v v' J. repeat (destruct J as [J|J]; [injection J as <- <-; vm_compute; auto|]); destruct J. Qed.
Lemma plain_at b v v' : packed true b -> message_meaning (bl_wire b) = message_meaning (two_points [v; v']) -> In (v, v') [(46, 47); (7, 8); (280, 290)] ->
  points b = 2 /\ forall i o, at_point powi_rt b i o <-> o = nth i [Some (f32_of_Z v); Some (f32_of_Z v')] None.
Proof.
  intros Pb M J. destruct (plain_values v v' J) as (C & N & N'). destruct (alpine_points b v v' Pb M C) as [P A]. split; [exact P|]. apply A; [exact N|exact N'|vm_compute; reflexivity].
Qed.
Section Stations.
  Context (clat clon : bulletin) (heights : string) (t : datetime) (I : informed true zulu alpine_service clat clon heights t).
  Lemma alpine_stations : points clat = 2 /\ forall i la lo, station powi_rt clat clon i la lo <-> (i = 0%nat /\ la = f32_of_Z 46 /\ lo = f32_of_Z 7) \/ (i = 1%nat /\ la = f32_of_Z 47 /\ lo = f32_of_Z 8).
  Proof.
    destruct I as (l & hor & vert & _ & _ & Na & No & _). pose proof (alpine_number _ _ _ _ Na eq_refl) as Ma. pose proof (alpine_number _ _ _ _ No eq_refl) as Mo.
    destruct (plain_at clat 46 47 (proj1 Na) Ma ltac:(cbn; auto)) as [P Aa]. destruct (plain_at clon 7 8 (proj1 No) Mo ltac:(cbn; auto)) as [_ Ao]. split; [exact P|].
    intros i la lo. unfold station. rewrite Aa, Ao. destruct i as [|[|i]]; cbn [nth]; [| |destruct i; cbn [nth]]; (split; [intros [E1 E2]; try discriminate E1; injection E1 as ->; injection E2 as ->; auto|intros [(E & -> & ->)|(E & -> & ->)]; try discriminate E; auto]).
  Qed.
  Lemma alpine_located : located powi_rt clat clon.
  Proof.
    destruct alpine_stations as [P A]. destruct (fin_Z 46 ltac:(lia)) as [F1 E1]. destruct (fin_Z 47 ltac:(lia)) as [F2 E2]. destruct (fin_Z 7 ltac:(lia)) as [F3 E3]. destruct (fin_Z 8 ltac:(lia)) as [F4 E4].
    intros i J. rewrite P in J. destruct i as [|[|i]]; [| |lia].
    - exists (f32_of_Z 46), (f32_of_Z 7). split; [apply A; auto|]. rewrite E1, E3, !Rabs_pos_eq by lra. split; [exact F1|]. split; [exact F3|]. lra.
    - exists (f32_of_Z 47), (f32_of_Z 8). split; [apply A; auto|]. rewrite E2, E4, !Rabs_pos_eq by lra. split; [exact F2|]. split; [exact F4|]. lra.
  Qed.
  (** The cell of the first station, and the value there. *)
  Lemma alpine_cell b o : packed true b -> message_meaning (bl_wire b) = message_meaning (two_points [280; 290]) ->
    reported powi_rt clat clon as_is b 781 397 o -> o = Some (f32_of_Z 280).
  Proof.
    intros Pb M (o' & Mo & ->). destruct alpine_stations as [_ A]. destruct (plain_at b 280 290 Pb M ltac:(cbn; auto)) as [_ Ab].
    destruct (fin_Z 46 ltac:(lia)) as [_ E1]. destruct (fin_Z 47 ltac:(lia)) as [_ E2]. destruct (fin_Z 7 ltac:(lia)) as [_ E3]. destruct (fin_Z 8 ltac:(lia)) as [_ E4].
    assert (D1 : (apart (f32_of_Z 46) (f32_of_Z 7) 781 397 < / 125)%R).
    { unfold apart, dist_euc, cell_lat, cell_lon. rewrite E1, E3. apply Rsqr_incrst_0; [|apply sqrt_pos|lra]. rewrite Rsqr_sqrt; [unfold Rsqr; lra|apply Rplus_le_le_0_compat; apply Rle_0_sqr]. }
    assert (D2 : (/ 2 < apart (f32_of_Z 47) (f32_of_Z 8) 781 397)%R).
    { unfold apart, dist_euc, cell_lat, cell_lon. rewrite E2, E4. apply Rsqr_incrst_0; [|lra|apply sqrt_pos]. rewrite Rsqr_sqrt; [unfold Rsqr; lra|apply Rplus_le_le_0_compat; apply Rle_0_sqr]. }
    destruct Mo as [[L _]|(_ & _ & [(i & (la & lo & S & Cl & _) & Ao)|[No _]])]; [lia| |].
    - apply A in S. destruct S as [(-> & -> & ->)|(-> & -> & ->)]; [|lra]. apply Ab in Ao. subst o'. cbn [nth].
      assert (Q : feq (as_is (f32_of_Z 280)) (f32_of_Z (-1)) = false) by (vm_compute; reflexivity). rewrite Q. reflexivity.
    - specialize (No 0%nat (f32_of_Z 46) (f32_of_Z 7) ltac:(apply A; auto)). lra.
  Qed.
End Stations.
Lemma alpine_tile t : swiss_tile (swiss_run_of t) 1 1 0.
Proof.
  split; [unfold tile_number; cbn; lia|]. destruct alps_values as (_ & _ & Fb & _ & Wb). exists bern. split; [exact Fb|]. split; [|exact Wb].
  destruct (fin_Z 45 ltac:(lia)) as [_ E1]. destruct (fin_Z 8 ltac:(lia)) as [_ E2]. unfold in_extent, bern, swiss_area. cbn [lat lon min_coord max_coord]. rewrite E1, E2.
  assert (B1 : (xr (f32_lit 4203 100) <= 45)%R). { assert (N : exists z, f32_lit 4203 100 = z) by eauto. destruct N as (z & N). rewrite N. vm_compute in N. subst z. unfold xr, BinarySingleNaN.SF2R, F2R. cbn. lra. }
  assert (B2 : (45 < xr (f32_lit 5050 100))%R). { assert (N : exists z, f32_lit 5050 100 = z) by eauto. destruct N as (z & N). rewrite N. vm_compute in N. subst z. unfold xr, BinarySingleNaN.SF2R, F2R. cbn. lra. }
  assert (B3 : (xr (f32_lit (-81) 100) <= 8)%R). { assert (N : exists z, f32_lit (-81) 100 = z) by eauto. destruct N as (z & N). rewrite N. vm_compute in N. subst z. unfold xr, BinarySingleNaN.SF2R, F2R. cbn. lra. }
  assert (B4 : (8 < xr (f32_lit 1770 100))%R). { assert (N : exists z, f32_lit 1770 100 = z) by eauto. destruct N as (z & N). rewrite N. vm_compute in N. subst z. unfold xr, BinarySingleNaN.SF2R, F2R. cbn. lra. }
  lra.
Qed.
Example C72_sample : exists tr, swiss_succeeded true powi_rt zulu alpine_service ideal [1; 2] [] tr /\
  (forall clat clon heights t, informed true zulu alpine_service clat clon heights t -> located powi_rt clat clon) /\
  (exists clat clon heights t, informed true zulu alpine_service clat clon heights t) /\ swiss_tile (swiss_run_of at_six) 1 1 0 /\
  exists data, holds (swiss_run_of at_six) 1 (BinFile BinTemp) tr (Data data) /\ slice data (397 * 1851 + 781) 1 = [142].
Proof.
  destruct (C60_succeeds true powi_rt zulu alpine_service ideal [1; 2] [] 3 2 alpine_good ltac:(lia)) as [(tr & r & R) A].
  { intros e t E. apply area_extent in E. subst e. apply C64_addressable; [exact ideal_accurate|exact area_on_map]. }
  pose proof (A tr r R) as ->. exists tr.
  assert (S : swiss_succeeded true powi_rt zulu alpine_service ideal [1; 2] [] tr).
  { split; [exact alpine_dated|]. split; [intros url bs bs' H H'; rewrite (alpine_served url bs H), (alpine_served url bs' H'); reflexivity|].
    split; [intros url bs H; rewrite (alpine_served url bs H); exact alpine_bytes|]. split; [exact powi_rt_valid|exact R]. }
  split; [exact S|]. split; [exact alpine_located|].
  destruct (C72_temperature true powi_rt zulu alpine_service ideal [1; 2] [] tr S ideal_ok ideal_accurate (or_introl eq_refl)) as (clat & clon & heights & t & l & I & Fl & H).
  split; [eauto 6|]. split; [apply alpine_tile|].
  assert (Et : t = at_six).
  { destruct I as (a & hor & vert & _ & _ & _ & _ & _ & _ & (fs & f & Ef & Rf)). cbn in Ef. injection Ef as Ef.
    change [hourly 2; hourly 0; hourly 1] with ([hourly 2; hourly 0] ++ [hourly 1]) in Ef. apply app_inj_tail in Ef. destruct Ef as [_ ->]. vm_compute in Rf. injection Rf as <-. reflexivity. }
  subst t. assert (Ln : exists f, nth_error l 1 = Some f).
  { destruct Fl as (features & parsed & E & F & Pm & _). cbn in E. injection E as ->. assert (F' : length (map hourly [2; 0; 1]) = length parsed) by (exact (forall2_len _ _ _ F)). apply Permutation.Permutation_length in Pm. cbn in F'.
    destruct (nth_error l 1) as [f|] eqn:N; [eauto|]. apply nth_error_None in N. exfalso. lia. }
  destruct Ln as (f & Nf). destruct (H 1%nat f Nf (or_intror (or_introl eq_refl))) as (b & [Pb Sb] & Q). destruct (Q (alpine_located clat clon heights at_six I)) as (_ & data & Hd & L).
  exists data. split; [exact Hd|]. destruct L as [_ L]. destruct (L 781 397 ltac:(lia) ltac:(lia)) as (o & c & Ro & Er & Tc).
  assert (M : message_meaning (bl_wire b) = message_meaning (two_points [280; 290])).
  { destruct Sb as (rest & Sb). apply (alpine_number (ss_href f) 0 b (two_points [280; 290])); [split; [exact Pb|]|reflexivity]. exists [], rest. split; [reflexivity|]. split; [constructor|exact Sb]. }
  apply (alpine_cell clat clon heights at_six I b o Pb M) in Ro. subst o. change (1 * (397 * 1851 + 781)) with (397 * 1851 + 781) in Er. rewrite Er. f_equal.
  destruct (fin_Z 280 ltac:(lia)) as [F E]. unfold temperature_code in Tc. 
  assert (D : decimal 27315 100 = (8950579 / 32768)%R) by (rewrite <- (proj2 (lit_spec 27315 100 ltac:(lia) ltac:(lia))); apply zero_celsius).
  assert (C : celsius (f32_of_Z 280) = (280 - 8950579 / 32768)%R) by (unfold celsius; rewrite E, D; reflexivity).
  destruct Tc as (_ & _ & Tc). { split; [apply f32_of_Z_valid|vm_compute; reflexivity]. } rewrite C in Tc. destruct (Tc ltac:(lra)) as [Bc Rc]. apply Rabs_le_inv in Rc.
  assert (141 < c < 143); [|lia]. split; apply lt_IZR; lra.
Qed.
