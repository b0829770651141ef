(** The property C82, about the memory that the readers of files take. *)
From Coq Require Import ZArith List Bool Lia.
From Verif Require Import Base F32 Grib2Model Grib2Spec Grib2Samples NetCdfModel NetCdfSpec NetCdfProperties AllocModel AllocSpec AllocProofs.
Import ListNotations.
Open Scope Z_scope.

(** ** C82: memory taken by the readers *)

(** C82.  The readers with a record of their buffers have the results of the readers of Grib2Model.v and NetCdfModel.v. *)
Theorem C82_same : forall chk bs, snd (a_multi_doc chk bs) = read_multi_doc chk bs.
Proof. exact c82_same_proof. Qed.
Print Assumptions C82_same.
Theorem C82_same_netcdf : forall names file, snd (a_document names file) = read_document names file.
Proof. exact c82_same_netcdf_proof. Qed.
Print Assumptions C82_same_netcdf.
(** C82.  The buffers of a message that is read take no more memory than the message has bytes. *)
Theorem C82_message : forall chk bs l d rest, Forall is_byte bs -> a_single_doc chk bs = (l, Ok (d, rest)) -> total l <= size bs - size rest.
Proof. exact c82_message_proof. Qed.
Print Assumptions C82_message.
(** C82.  Whatever the file: the buffers take one byte for each byte of the file, but for the last one, which may be one of up to
    4 GiB that the file announces and does not contain. *)
Theorem C82_grib : forall chk bs, Forall is_byte bs -> within 1 (2 ^ 32) (size bs) (fst (a_multi_doc chk bs)).
Proof. exact c82_grib_proof. Qed.
Print Assumptions C82_grib.
Theorem C82_grib_total : forall chk bs, Forall is_byte bs -> total (fst (a_multi_doc chk bs)) <= size bs + 2 ^ 32.
Proof. exact c82_grib_total_proof. Qed.
Print Assumptions C82_grib_total.
(** C82.  A message with packed values has at most eight values for each of its bytes. *)
Theorem C82_values : forall chk bs d rest T powi (missing : T) transform vs, Forall is_byte bs -> read_single_doc chk bs = Ok (d, rest) -> s7_data (d_s7 d) <> [] ->
  calculate_data_points powi d missing transform = Ok vs -> Z.of_nat (length vs) <= 8 * (size bs - size rest).
Proof. exact c82_values_proof. Qed.
Print Assumptions C82_values.
(** C82.  The buffers of a NetCDF header that is read take at most four bytes for each byte of the header. *)
Theorem C82_header : forall bs l h rest, Forall is_byte bs -> a_header bs = (l, Ok (h, rest)) -> total l <= 4 * (size bs - size rest).
Proof. exact c82_header_proof. Qed.
Print Assumptions C82_header.
(** C82.  Whatever the file: the header and each of the variables take at most four bytes for each byte of the file, but for the last
    buffer, which may be one of up to 32 GiB. *)
Theorem C82_netcdf : forall names file, Forall is_byte file ->
  within (4 * (1 + Z.of_nat (length names))) (2 ^ 35) (size file) (fst (a_document names file)).
Proof. exact c82_netcdf_proof. Qed.
Print Assumptions C82_netcdf.
Theorem C82_netcdf_total : forall names file, Forall is_byte file ->
  total (fst (a_document names file)) <= 4 * (1 + Z.of_nat (length names)) * size file + 2 ^ 35.
Proof. exact c82_netcdf_total_proof. Qed.
Print Assumptions C82_netcdf_total.

(** The message of Grib2Samples.v: the name GRIB, the reserved bytes, sections 1 and 2, the template 4.0, a coordinate, the bitmap,
    the values and the end. *)
Example C82_sample : fst (a_single_doc true (message_bytes sample)) = [4; 2; 0; 3; 23; 4; 1; 6; 4] /\ size (message_bytes sample) = 198 /\
  fst (a_header hdr_bytes) = [3; 3; 1; 2; 4; 4].
Proof. repeat split; vm_compute; reflexivity. Qed.
(** Finding: 37 bytes are enough to request 4 GiB, and 36 bytes of a NetCDF file to request 32 GiB. *)
Definition greedy : bytes := [71; 82; 73; 66; 0; 0; 0; 2; 0; 0; 0; 0; 0; 0; 0; 0] ++ [255; 255; 255; 255; 1; 0; 78; 0; 255; 19; 1; 1; 7; 232; 12; 1; 0; 0; 0; 0; 1].
Definition greedy_netcdf : bytes := [67; 68; 70; 2; 0; 0; 0; 0; 0; 0; 0; 0; 0; 0; 0; 0] ++ [0; 0; 0; 12; 0; 0; 0; 1; 0; 0; 0; 0; 0; 0; 0; 6; 255; 255; 255; 255].
Example C82_greedy : Forall is_byte greedy /\ size greedy = 37 /\ a_multi_doc true greedy = ([4; 2; 4294967274], Some (Err EInvalid)) /\
  Forall is_byte greedy_netcdf /\ size greedy_netcdf = 36 /\ a_document [] greedy_netcdf = ([3; 0; 34359738360], Err EIo).
Proof. repeat split; try (vm_compute; reflexivity); repeat constructor; unfold is_byte; lia || discriminate. Qed.
(** Finding: a message without packed values stands for as many missing values as it announces, here 2^32 - 1 in 150 bytes. *)
Definition blank : wire :=
  {| w_0 := w_0 sample; w_1 := w_1 sample; w_2 := w_2 sample;
     w_3 := {| w3_length := 35; w3_source := 0; w3_points := 4294967295; w3_opt_length := 0; w3_opt_interp := 0;
               w3_tpl := W3_101 {| w3101_shape := 6; w3101_grid := 27; w3101_ref := 1; w3101_uuid := 0 |} |};
     w_4 := {| w4_length := 34; w4_tpl := W4_0 0 0 (repeat 7 23); w4_coords := [] |};
     w_5 := w_5 sample; w_6 := {| w6_length := 6; w6_indicator := 255; w6_bitmap := [] |};
     w_7 := {| w7_length := 5; w7_data := [] |} |}.
Example C82_blank : size (message_bytes blank) = 150 /\ read_single_doc true (message_bytes blank) = Ok (message_meaning blank, []) /\
  forall T powi (missing : T) transform, exists vs, calculate_data_points powi (message_meaning blank) missing transform = Ok vs /\ Z.of_nat (length vs) = 4294967295.
Proof.
  split; [vm_compute; reflexivity|]. split; [vm_compute; reflexivity|]. intros T powi missing transform. exists (repeat missing (Z.to_nat 4294967295)). split; [reflexivity|]. rewrite repeat_length. lia.
Qed.
(** The hypotheses of C82_values are met: six values, of which three are packed. *)
Example C82_values_sample : Forall is_byte (message_bytes sample) /\ read_single_doc true (message_bytes sample) = Ok (message_meaning sample, []) /\
  s7_data (d_s7 (message_meaning sample)) <> [] /\
  exists vs, calculate_data_points (fun _ _ => f32_of_Z 1) (message_meaning sample) None Some = Ok vs /\ length vs = 6%nat.
Proof.
  split; [vm_compute; repeat constructor; unfold is_byte; lia || discriminate|]. split; [vm_compute; reflexivity|]. split; [vm_compute; discriminate|]. eexists. split; [vm_compute; reflexivity|]. reflexivity.
Qed.
