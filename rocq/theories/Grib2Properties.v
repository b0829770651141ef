(** Properties of the GRIB2 readers (C01-C07, C09, C11).  Statements refer to the wire format
    of Grib2Spec.v; [chk] is the build profile, so every theorem holds with and without
    overflow checks. *)
From Coq Require Import ZArith List Bool Lia.
From Verif Require Import Base F32 Grib2Model Grib2Spec Grib2Proofs Grib2DocProofs Grib2Samples.
Import ListNotations.
Open Scope Z_scope.

(** C01.  Reading back a serialised message returns its contents and stops right behind it. *)
Theorem C01_round_trip : forall chk w rest, wf_message chk w ->
  read_single_doc chk (message_bytes w ++ rest) = Ok (message_meaning w, rest).
Proof. exact read_single_doc_bwd. Qed.
Print Assumptions C01_round_trip.
Example C01_applies : forall chk, wf_message chk sample /\ wf_message chk sample2.
Proof. intro chk. split; [apply sample_wf|apply sample2_wf]. Qed.
Example C01_sample : omap fst (read_single_doc true (message_bytes sample ++ [1; 2; 3]))
  = Ok (message_meaning sample).
Proof. vm_compute. reflexivity. Qed.

(** C01, finding: section 2 is optional in GRIB2, but a message without it is rejected. *)
Theorem C01_section2_mandatory : forall chk w rest, wf_message chk w ->
  read_single_doc chk (message_without_section2 w ++ rest) = Err EInvalid.
Proof. exact without_section2_rejected. Qed.
Print Assumptions C01_section2_mandatory.

(** C02.  The result of the multi-document reader is Ok exactly when the input is a non-empty
    concatenation of messages followed by a tail from which no further message can be read. *)
Theorem C02_concatenation : forall chk ws tail e, ws <> [] -> Forall (wf_message chk) ws ->
  Forall is_byte tail -> read_single_doc chk tail = Err e ->
  read_multi_doc chk (concat (map message_bytes ws) ++ tail) = Some (Ok (map message_meaning ws)).
Proof. exact c02_concatenation_proof. Qed.
Print Assumptions C02_concatenation.
Theorem C02_only_concatenations : forall chk bs ds, Forall is_byte bs ->
  read_multi_doc chk bs = Some (Ok ds) ->
  exists ws tail e, ws <> [] /\ Forall (wf_message chk) ws /\
    bs = concat (map message_bytes ws) ++ tail /\
    ds = map message_meaning ws /\ read_single_doc chk tail = Err e.
Proof. exact c02_only_concatenations_proof. Qed.
Print Assumptions C02_only_concatenations.
(** The reader always terminates (the model never runs out of fuel), never returns an empty
    list, and returns an error when the first message cannot be read. *)
Theorem C02_terminates : forall chk bs, Forall is_byte bs ->
  read_multi_doc chk bs <> None /\ read_multi_doc chk bs <> Some (Ok []) /\
  (forall e, read_single_doc chk bs = Err e -> read_multi_doc chk bs = Some (Err EInvalid)).
Proof. exact c02_terminates_proof. Qed.
Print Assumptions C02_terminates.
Example C02_sample : read_multi_doc true (message_bytes sample ++ message_bytes sample2 ++ [71; 82])
  = Some (Ok [message_meaning sample; message_meaning sample2]).
Proof. vm_compute. reflexivity. Qed.

(** C03.  A message cut anywhere is not accepted: reading ends with an I/O error. *)
Theorem C03_truncation : forall chk w part cut,
  wf_message chk w -> message_bytes w = part ++ cut -> cut <> [] ->
  read_single_doc chk part = Err EIo.
Proof. exact truncated_message. Qed.
Print Assumptions C03_truncation.
Example C03_sample : read_single_doc true (removelast (message_bytes sample)) = Err EIo.
Proof. vm_compute. reflexivity. Qed.

(** C04.  Accepted bytes are a message: they carry the GRIB framing, the section numbers and
    variable-length parts of exactly the announced lengths. *)
Theorem C04_accepted_is_message : forall chk bs d rest, Forall is_byte bs ->
  read_single_doc chk bs = Ok (d, rest) ->
  exists w, wf_message chk w /\ bs = message_bytes w ++ rest /\ d = message_meaning w.
Proof. exact c04_accepted_is_message_proof. Qed.
Print Assumptions C04_accepted_is_message.
Theorem C04_framing : forall chk bs d rest, Forall is_byte bs ->
  read_single_doc chk bs = Ok (d, rest) ->
  exists body, bs = [71; 82; 73; 66] ++ body ++ [55; 55; 55; 55] ++ rest.
Proof. exact c04_framing_proof. Qed.
Print Assumptions C04_framing.
(** Two messages and something else: the first is accepted, and what follows it is left. *)
Example C04_sample : forall chk, let bs := message_bytes sample ++ message_bytes sample2 ++ [1; 2; 3] in
  Forall is_byte bs /\ read_single_doc chk bs = Ok (message_meaning sample, message_bytes sample2 ++ [1; 2; 3]).
Proof.
  intro chk. cbv zeta. split; [|exact (C01_round_trip chk sample _ (sample_wf chk))].
  vm_compute. repeat constructor; discriminate.
Qed.

(** C05.  Octets consumed by each section reader that succeeds. *)
Theorem C05_consumption : forall chk bs rest, Forall is_byte bs ->
  let used := Z.of_nat (length bs) - Z.of_nat (length rest) in
  (forall s, read_section0 bs = Ok (s, rest) -> used = 16) /\
  (forall s, read_section1 chk bs = Ok (s, rest) -> used = s1_length s) /\
  (forall s, read_section2 chk bs = Ok (s, rest) -> used = s2_length s) /\
  (forall s, read_section3 bs = Ok (s, rest) ->
     used = match s3_template s with LatitudeLongitude _ => 72 | UnstructuredGridTpl _ => 35 end) /\
  (forall s, read_section4 chk bs = Ok (s, rest) ->
     let coords := 4 * Z.of_nat (length (s4_coordinates s)) in
     match s4_template s with
     | Template4_0 _ => used = 34 + coords
     | Template4_1 _ => used = 37 + coords
     | Template4_8 _ => exists ranges, 0 <= ranges < 256 /\ used = 46 + 12 * ranges + coords
     | Template4_Unknown _ => payload chk (s4_length s) 9 (used - coords - 9)
     end) /\
  (forall s, read_section5 chk bs = Ok (s, rest) ->
     match s5_template s with
     | SimplePacking _ => used = 21
     | Template5_Unknown _ => payload chk (s5_length s) 11 (used - 11)
     end) /\
  (forall s, read_section6 chk bs = Ok (s, rest) -> payload chk (s6_length s) 6 (used - 6)) /\
  (forall s, read_section7 chk bs = Ok (s, rest) ->
     exists n, payload chk (s7_length s) 5 n /\ used = 5 + 2 * (n / 2)) /\
  (forall s, read_section8 bs = Ok (s, rest) -> used = 4).
Proof. exact section_consumption. Qed.
Print Assumptions C05_consumption.
(** A section 1 of 21 octets and a section 7 whose five octets of data are read in pairs, each followed by something else. *)
Example C05_sample : exists s t,
  read_section1 true ([0; 0; 0; 21; 1; 0; 78; 0; 255; 19; 1; 1; 7; 232; 12; 1; 0; 0; 0; 0; 1] ++ [8; 8; 8]) = Ok (s, [8; 8; 8]) /\ s1_length s = 21 /\
  read_section7 true ([0; 0; 0; 10; 7] ++ [1; 2; 3; 4; 5] ++ [8; 8; 8]) = Ok (t, [5; 8; 8; 8]) /\ s7_length t = 10.
Proof. eexists. eexists. split; [vm_compute; reflexivity|]. split; [reflexivity|]. split; [vm_compute; reflexivity|reflexivity]. Qed.
(** Finding: an unsupported product template with coordinates makes the reader consume four
    octets per coordinate more than the section announces. *)
Example C05_section4_overread : exists bs s rest,
  read_section4 true bs = Ok (s, rest) /\ s4_length s = 13 /\
  Z.of_nat (length bs) - Z.of_nat (length rest) = 17.
Proof.
  exists ([0; 0; 0; 13; 4; 0; 1; 0; 9] ++ [63; 128; 0; 0] ++ [1; 2; 3; 4] ++ [9; 9]).
  eexists. eexists. split; [vm_compute; reflexivity|]. split; reflexivity.
Qed.

(** C06.  Exact characterisation of the inputs on which reading a document panics. *)
Theorem C06_panics : forall chk bs, Forall is_byte bs ->
  read_single_doc chk bs = Panic <-> panic_input chk bs.
Proof. exact single_doc_panic. Qed.
Print Assumptions C06_panics.
(** Finding: untrusted input can panic the reader: month 13, or a section length of 0. *)
Example C06_bad_date_panics : exists bs, Forall is_byte bs /\ read_single_doc false bs = Panic.
Proof.
  exists ([71; 82; 73; 66; 0; 0; 0; 2; 0; 0; 0; 0; 0; 0; 0; 0] ++
          [0; 0; 0; 21; 1; 0; 78; 0; 255; 19; 1; 1; 7; 232; 13; 1; 0; 0; 0; 0; 1]).
  split; [repeat constructor; unfold is_byte; lia || discriminate|]. vm_compute. reflexivity.
Qed.
Example C06_short_length_panics : exists bs, Forall is_byte bs /\ read_single_doc false bs = Panic.
Proof.
  exists ([71; 82; 73; 66; 0; 0; 0; 2; 0; 0; 0; 0; 0; 0; 0; 0] ++
          [0; 0; 0; 0; 1; 0; 78; 0; 255; 19; 1; 1; 7; 232; 12; 1; 0; 0; 0; 0; 1]).
  split; [repeat constructor; unfold is_byte; lia || discriminate|]. vm_compute. reflexivity.
Qed.

(** C07.  Data points: one value per grid point of section 3, points whose bitmap bit is clear
    are missing, the others take the packed values in order. *)
Theorem C07_data_points : forall T powi d (missing : T) transform t,
  s5_template (d_s5 d) = SimplePacking t -> Forall is_byte (s6_bitmap (d_s6 d)) ->
  let bitmap := s6_bitmap (d_s6 d) in
  let raw := s7_data (d_s7 d) in
  let n := Z.to_nat (s3_points (d_s3 d)) in
  let value i := transform (unpack (t50_reference t) (powi (f32_of_Z 2) (t50_e t))
                              (powi (f32_of_Z 10) (t50_d t)) (nth (rank bitmap i) raw 0)) in
  raw <> [] ->
  ((bitmap = [] \/ (n <= 8 * length bitmap)%nat) /\ (rank bitmap n <= length raw)%nat ->
   calculate_data_points powi d missing transform =
   Ok (map (fun i => if has_value bitmap i then value i else missing) (seq 0 n))) /\
  (~ ((bitmap = [] \/ (n <= 8 * length bitmap)%nat) /\ (rank bitmap n <= length raw)%nat) ->
   calculate_data_points powi d missing transform = Panic).
Proof. exact c07_data_points_proof. Qed.
Print Assumptions C07_data_points.
(** Finding: with an empty data section (constant fields are transmitted that way) every point
    is missing instead of having the reference value. *)
Theorem C07_empty_data_section : forall T powi d (missing : T) transform t,
  s5_template (d_s5 d) = SimplePacking t -> s7_data (d_s7 d) = [] ->
  calculate_data_points powi d missing transform =
  Ok (repeat missing (Z.to_nat (s3_points (d_s3 d)))).
Proof. exact c07_empty_data_section_proof. Qed.
Print Assumptions C07_empty_data_section.
(** Any other representation template is an error. *)
Theorem C07_unsupported : forall T powi d (missing : T) transform n,
  s5_template (d_s5 d) = Template5_Unknown n ->
  calculate_data_points powi d missing transform = Err EInvalid.
Proof. exact c07_unsupported_proof. Qed.
Print Assumptions C07_unsupported.
Example C07_sample :
  let d := message_meaning sample in
  let powi (b : f32) (n : Z) := if n =? 0 then f32_of_Z 1 else f32_lit 1 32 in
  calculate_data_points powi d None Some =
  Ok [Some (f32_of_Z 300); None; Some (f32_lit 9601 32); Some (f32_lit 75135 32); None; None].
Proof. vm_compute. reflexivity. Qed.

(** C09.  Sign-magnitude integers: reading the encoding of v returns v; every pattern decodes
    into the range; only the two zeros coincide. *)
Theorem C09_round_trip : forall v rest, -32767 <= v <= 32767 ->
  read_signed (be_bytes 2 (encode_sign_magnitude16 v) ++ rest) = Ok (v, rest).
Proof. exact c09_round_trip_proof. Qed.
Print Assumptions C09_round_trip.
Theorem C09_every_pattern : forall a b, 0 <= a < 65536 -> 0 <= b < 65536 ->
  -32767 <= signed_from_u16 a <= 32767 /\
  (signed_from_u16 a = signed_from_u16 b -> a = b \/ (a = 0 /\ b = 32768) \/ (a = 32768 /\ b = 0)).
Proof. exact c09_every_pattern_proof. Qed.
Print Assumptions C09_every_pattern.
Example C09_sample : read_signed [128; 5] = Ok (-5, []) /\ read_signed [0; 5] = Ok (5, []).
Proof. split; reflexivity. Qed.

(** C11.  The data section is read as 16-bit values, whatever width section 5 announces: the
    values are the big-endian 16-bit groups of the payload, a last odd octet is left unread. *)
Theorem C11_data_section : forall chk bs s rest, Forall is_byte bs ->
  read_section7 chk bs = Ok (s, rest) ->
  exists n tail, payload chk (s7_length s) 5 n /\ Z.of_nat (length (s7_data s)) = n / 2 /\
    bs = be_bytes 4 (s7_length s) ++ [7] ++ concat (map (be_bytes 2) (s7_data s)) ++ tail /\
    Forall (fun v => 0 <= v < 65536) (s7_data s) /\ rest = tail.
Proof. exact section7_values. Qed.
Print Assumptions C11_data_section.
(** Finding: two values packed with 8 bits, 1 and 2, are returned as the single value 258,
    although section 5 announces 8 bits. *)
Example C11_width_ignored :
  omap (fun p => s7_data (fst p)) (read_section7 true [0; 0; 0; 7; 7; 1; 2]) = Ok [258].
Proof. reflexivity. Qed.
