(** The property C80, about the texts of points in time. *)
From Coq Require Import Ascii String ZArith List Bool Lia.
From Verif Require Import Base F32 Grib2FloatProofs TextSpec TileModel TileProperties ForecastModel ForecastSpec ForecastProofs FetchModel SwissModel SwissSpec SwissProofs SwissProperties RfcModel RfcSpec RfcProofs.
Import ListNotations.
Open Scope Z_scope.

(** ** C80: texts of points in time *)

(** C80.  A text is read as a local time and an offset exactly if RFC 3339 says that it stands for them: no other text is accepted, and
    a text has one meaning. *)
Theorem C80_reads : forall s t offset, parse_rfc3339 s = Some (t, offset) <-> time_written s t offset.
Proof. exact c80_reads_proof. Qed.
Print Assumptions C80_reads.
(** C80.  A reference time is accepted exactly if the text stands for a time with minute and second zero and an hour divisible by three, in
    its own time zone; the result is that instant in UTC (for the years 1 to 9998). *)
Theorem C80_reference : forall s, (forall t offset, time_written s t offset -> 1 <= year (dt_date t) <= 9998) ->
  (exists t offset u, time_written s t offset /\ dt_minute t = 0 /\ dt_second t = 0 /\ dt_hour t mod 3 = 0 /\
     ref_from_str parse_rfc3339 s = Ok u /\ valid_time u /\ instant u = instant t - offset * 10 ^ 9) \/
  ((forall t offset, time_written s t offset -> ~ (dt_minute t = 0 /\ dt_second t = 0 /\ dt_hour t mod 3 = 0)) /\ ref_from_str parse_rfc3339 s = Err EInvalid).
Proof. exact c80_reference_proof. Qed.
Print Assumptions C80_reference.
(** C80.  A leap second is never accepted. *)
Theorem C80_leap : forall s t offset, time_written s t offset -> 10 ^ 9 <= dt_nano t -> ref_from_str parse_rfc3339 s = Err EInvalid.
Proof. exact c80_leap_proof. Qed.
Print Assumptions C80_leap.
(** C80.  The text that is sent to the service is read back as the same time, without the fraction of a second. *)
Theorem C80_own : forall t, valid_time t -> parse_rfc3339 (ref_name t) =
  Some ({| dt_date := dt_date t; dt_hour := dt_hour t; dt_minute := dt_minute t; dt_second := dt_second t; dt_nano := 0 |}, 0).
Proof. exact c80_own_proof. Qed.
Print Assumptions C80_own.
Theorem C80_round : forall t, valid_time t -> ref_from_str parse_rfc3339 (ref_name (ref_latest t)) = Ok (ref_latest t).
Proof. exact c80_round_proof. Qed.
Print Assumptions C80_round.
(** C80.  With this reader, a service whose answers have no times in a leap second or outside the years 1 to 9998 meets the hypothesis of C54, C60,
    C72, C75, C76, C78 and C79 about the times. *)
Theorem C80_dated : forall sv, ordinary_times sv -> dated parse_rfc3339 sv.
Proof. exact c80_dated_proof. Qed.
Print Assumptions C80_dated.

Example C80_sample : parse_rfc3339 "2024-02-29t23:59:60.1234567899-03:30"%string =
    Some ({| dt_date := {| year := 2024; month := 2; day := 29 |}; dt_hour := 23; dt_minute := 59; dt_second := 59; dt_nano := 1123456789 |}, -12600) /\
  parse_rfc3339 "2023-02-29T23:59:59Z"%string = None /\ parse_rfc3339 "2025-11-20T06:00Z"%string = None /\ parse_rfc3339 "2025-11-20T06:00:00+24:00"%string = None /\
  parse_rfc3339 "2025-11-20T06:00:00"%string = None /\ parse_rfc3339 "2025-11-20T06:00:00.Z"%string = None /\ parse_rfc3339 "2025-11-20T06:00:00Z "%string = None /\
  ref_from_str parse_rfc3339 "2025-11-20T06:00:00Z"%string = Ok at_six /\ valid_time at_six.
Proof. repeat split; vm_compute; solve [reflexivity|discriminate]. Qed.
(** Finding: a time with a fraction of a second is accepted as a reference time, though it is not one; the fraction is dropped in the request. *)
Example C80_fraction : exists t, ref_from_str parse_rfc3339 "2025-11-20T06:00:00.999Z"%string = Ok t /\ t <> at_six /\ ref_name t = ref_name at_six.
Proof. eexists. split; [vm_compute; reflexivity|]. split; [discriminate|reflexivity]. Qed.
(** A service with such times, and a call that succeeds. *)
Lemma zulu_parsed s t : ref_from_str zulu s = Ok t -> ref_from_str parse_rfc3339 s = Ok t.
Proof.
  unfold ref_from_str at 1, zulu. destruct (String.eqb s "2025-11-20T06:00:00Z") eqn:E; [apply String.eqb_eq in E; subst s; intros <-; vm_compute; reflexivity|].
  destruct (String.eqb s "2025-11-20T06:00:00+01:00") eqn:E'; [apply String.eqb_eq in E'; subst s; intros <-; vm_compute; reflexivity|discriminate].
Qed.
Lemma sample_parsed : good_service true powi_rt parse_rfc3339 swiss_sample 3 2.
Proof.
  destruct swiss_sample_good as [A [T H]]. split; [exact A|]. split; [exact T|]. intros o Ho. destruct (H o Ho) as [(all & -> & fs & f & t & E & R & rest)|(x & _ & [])].
  left. exists all. split; [reflexivity|]. exists fs, f, t. split; [exact E|]. split; [exact (zulu_parsed _ _ R)|exact rest].
Qed.
Example C80_dated_sample : ordinary_times swiss_sample /\
  exists tr, swiss_render_latest true powi_rt parse_rfc3339 swiss_sample flat false [1; 2] ["wind_10m"]%string tr (Ok tt).
Proof.
  split.
  - intros rq features f t offset S I W. change (Ok features = Ok (map hourly [2; 0; 1])) in S. injection S as ->. apply c80_reads_proof in W.
    assert (X : ft_ref f = "2025-11-20T06:00:00Z"%string) by (destruct I as [<-|[<-|[<-|[]]]]; reflexivity). rewrite X in W. vm_compute in W. injection W as <- <-. cbn; lia.
  - destruct (C60_succeeds true powi_rt parse_rfc3339 swiss_sample flat [1; 2] ["wind_10m"]%string 3 2 sample_parsed ltac:(lia)) as [(tr & r & R) A].
    { intros e t E. vm_compute in E. injection E as <-. apply addressable_check. vm_compute. reflexivity. }
    pose proof (A tr r R) as ->. now exists tr.
Qed.
