(** The properties C23-C27, about NetCDF files. *)
From Coq Require Import ZArith Reals List Bool Lia Lra.
From Coq Require Import Floats.SpecFloat.
From Flocq Require Import Core.Core.
From Verif Require Import Base F32 Grib2Model Grib2Spec BaseFacts F32Facts GeoModel GeoSpec Utf8Spec Utf8Proofs NetCdfModel NetCdfSpec NetCdfProofs NetCdfAngleSpec NetCdfAngleProofs NcPanicSpec NcPanicProofs.
Import ListNotations.
Open Scope Z_scope.

(** ** C23: header round trip *)

(** C23.  Every encoding of a header, whatever its padding contains and whatever follows it, is read back
    as that header, and exactly its bytes are consumed. *)
Theorem C23_round_trip : forall h bs rest, header_ok h -> header_enc h bs ->
  read_header (bs ++ rest) = Ok (header_meaning h, rest).
Proof. exact c23_round_trip_proof. Qed.
Print Assumptions C23_round_trip.
(** C23.  Every header can be encoded. *)
Theorem C23_encodable : forall h, header_ok h -> exists bs, header_enc h bs /\ Forall is_byte bs.
Proof. exact c23_encodable_proof. Qed.
Print Assumptions C23_encodable.
(** C23.  Conversely, whatever bytes are accepted are an encoding of a well-formed header followed by the rest. *)
Theorem C23_accepted : forall file h rest, Forall is_byte file -> read_header file = Ok (h, rest) ->
  exists w bs, header_ok w /\ header_enc w bs /\ file = bs ++ rest /\ header_meaning w = h.
Proof. exact header_accepts. Qed.
Print Assumptions C23_accepted.

(** A header with a dimension "lon" of length 2, an attribute "a" holding the short -2, and a byte
    variable "clat" of one entry, stored with the padded size 4 at offset 104. *)
Definition hdr : wire_header :=
  {| wh_recs := 0; wh_dims := [{| dim_name := [108; 111; 110]; dim_length := 2 |}];
     wh_attrs := [{| wa_name := [97]; wa_values := {| wv_type := NcShort; wv_bits := [65534] |} |}];
     wh_vars := [{| wr_name := CLAT; wr_dims := [0]; wr_attrs := []; wr_type := NcByte; wr_size := 4; wr_begin := 104 |}] |}.
Definition hdr_bytes : bytes :=
  [67; 68; 70; 2; 0;0;0;0; 0;0;0;10; 0;0;0;1; 0;0;0;3; 108;111;110;77; 0;0;0;2;
   0;0;0;12; 0;0;0;1; 0;0;0;1; 97;0;0;9; 0;0;0;3; 0;0;0;1; 255;254;0;0;
   0;0;0;11; 0;0;0;1; 0;0;0;4; 99;108;97;116; 0;0;0;1; 0;0;0;0; 0;0;0;0; 0;0;0;0; 0;0;0;1; 0;0;0;4; 0;0;0;0;0;0;0;104].
Example C23_sample : header_ok hdr /\ length hdr_bytes = 104%nat /\ header_enc hdr hdr_bytes /\
  read_header (hdr_bytes ++ [7; 0; 0; 0]) = Ok (header_meaning hdr, [7; 0; 0; 0]).
Proof.
  assert (K : header_ok hdr).
  { unfold header_ok, list_ok, attr_ok, dim_ok, var_ok, values_ok, bits_ok, name_ok, fits32; cbn.
    repeat first [split | apply Forall_cons | apply Forall_nil]; try (apply utf8_valid_text; reflexivity); cbn; unfold is_byte; try reflexivity; lia. }
  assert (R : read_header (hdr_bytes ++ [7; 0; 0; 0]) = Ok (header_meaning hdr, [7; 0; 0; 0])) by (vm_compute; reflexivity).
  split; [exact K|]. split; [reflexivity|]. split; [|exact R].
  unfold header_enc. exists [67; 68; 70; 2], (skipn 4 hdr_bytes). split; [reflexivity|]. split; [reflexivity|].
  exists [0; 0; 0; 0], (skipn 8 hdr_bytes). split; [reflexivity|]. split; [reflexivity|].
  exists (firstn 20 (skipn 8 hdr_bytes)), (skipn 28 hdr_bytes). split; [reflexivity|]. split.
  { exists [0; 0; 0; 10], (firstn 16 (skipn 12 hdr_bytes)). split; [reflexivity|]. split; [reflexivity|].
    exists [0; 0; 0; 1], (firstn 12 (skipn 16 hdr_bytes)). split; [reflexivity|]. split; [reflexivity|].
    exists (firstn 12 (skipn 16 hdr_bytes)), []. split; [reflexivity|]. split; [|reflexivity].
    exists (firstn 8 (skipn 16 hdr_bytes)), [0; 0; 0; 2]. split; [reflexivity|]. split; [|reflexivity].
    exists [0; 0; 0; 3], [108; 111; 110; 77]. split; [reflexivity|]. split; [reflexivity|].
    exists [108; 111; 110], [77]. split; [reflexivity|]. split; [reflexivity|]. split; [reflexivity|]. repeat constructor; unfold is_byte; lia. }
  exists (firstn 28 (skipn 28 hdr_bytes)), (skipn 56 hdr_bytes). split; [reflexivity|]. split.
  { exists [0; 0; 0; 12], (firstn 24 (skipn 32 hdr_bytes)). split; [reflexivity|]. split; [reflexivity|].
    exists [0; 0; 0; 1], (firstn 20 (skipn 36 hdr_bytes)). split; [reflexivity|]. split; [reflexivity|].
    exists (firstn 20 (skipn 36 hdr_bytes)), []. split; [reflexivity|]. split; [|reflexivity].
    exists (firstn 8 (skipn 36 hdr_bytes)), (firstn 12 (skipn 44 hdr_bytes)). split; [reflexivity|]. split.
    { exists [0; 0; 0; 1], [97; 0; 0; 9]. split; [reflexivity|]. split; [reflexivity|].
      exists [97], [0; 0; 9]. split; [reflexivity|]. split; [reflexivity|]. split; [reflexivity|]. repeat constructor; unfold is_byte; lia. }
    exists [0; 0; 0; 3], [0; 0; 0; 1; 255; 254; 0; 0]. split; [reflexivity|]. split; [reflexivity|].
    exists [0; 0; 0; 1], [255; 254; 0; 0]. split; [reflexivity|]. split; [reflexivity|].
    exists [255; 254], [0; 0]. split; [reflexivity|]. split; [reflexivity|]. split; [reflexivity|]. repeat constructor; unfold is_byte; lia. }
  exists [0; 0; 0; 11], (skipn 60 hdr_bytes). split; [reflexivity|]. split; [reflexivity|].
  exists [0; 0; 0; 1], (skipn 64 hdr_bytes). split; [reflexivity|]. split; [reflexivity|].
  exists (skipn 64 hdr_bytes), []. split; [reflexivity|]. split; [|reflexivity].
  exists (firstn 8 (skipn 64 hdr_bytes)), (skipn 72 hdr_bytes). split; [reflexivity|]. split.
  { exists [0; 0; 0; 4], CLAT. split; [reflexivity|]. split; [reflexivity|]. exists CLAT, []. repeat split. constructor. }
  exists [0; 0; 0; 1], (skipn 76 hdr_bytes). split; [reflexivity|]. split; [reflexivity|].
  exists [0; 0; 0; 0], (skipn 80 hdr_bytes). split; [reflexivity|]. split.
  { exists [0; 0; 0; 0], []. repeat split. }
  exists [0; 0; 0; 0; 0; 0; 0; 0], (skipn 88 hdr_bytes). split; [reflexivity|]. split.
  { exists [0; 0; 0; 0], [0; 0; 0; 0]. repeat split. }
  exists [0; 0; 0; 1], (skipn 92 hdr_bytes). split; [reflexivity|]. split; [reflexivity|].
  exists [0; 0; 0; 4], (skipn 96 hdr_bytes). repeat split.
Qed.

(** ** C24: padding *)

(** C24.  [pad4 n] is the smallest number of bytes that makes [n] a multiple of four. *)
Theorem C24_least : forall n, ((n + pad4 n) mod 4 = 0 /\ forall k, (n + k) mod 4 = 0 -> pad4 n <= k)%nat.
Proof. exact c24_least_proof. Qed.
Print Assumptions C24_least.
(** C24.  Whatever the bytes, a name that is read is the announced number of bytes behind its length, which are
    UTF-8 text, and reading goes on behind the padding (or at the end of the file, should it end within the padding). *)
Theorem C24_name : forall bs s rest, Forall is_byte bs -> read_name bs = Ok (s, rest) ->
  (exists r, bs = be_bytes 4 (Z.of_nat (length s)) ++ s ++ r) /\ is_text s /\
  rest = skipn (4 + length s + pad4 (length s)) bs.
Proof. exact c24_name_proof. Qed.
Print Assumptions C24_name.
(** C24.  A name that is not text (the UTF-8 encoding of Unicode scalar values) is refused. *)
Theorem C24_refused : forall s r, Z.of_nat (length s) < 2 ^ 32 -> ~ is_text s ->
  read_name (be_bytes 4 (Z.of_nat (length s)) ++ s ++ r) = Err EUtf8.
Proof. exact c24_refused_proof. Qed.
Print Assumptions C24_refused.
(** The letter u with diaeresis is text in two bytes, but not in one; the overlong form of the letter a is not text. *)
Example C24_text : is_text [195; 188] /\ ~ is_text [252] /\ ~ is_text [193; 161] /\
  read_name [0;0;0;2; 195;188;0;0; 5] = Ok ([195; 188], [5]) /\ read_name [0;0;0;1; 252;0;0;0] = Err EUtf8.
Proof.
  split; [exists [252]; split; [constructor; [left; lia|constructor]|reflexivity]|].
  split; [intro H; apply utf8_valid_text in H; discriminate|]. split; [intro H; apply utf8_valid_text in H; discriminate|].
  split; reflexivity.
Qed.
(** C24.  Whatever the bytes, reading [cnt] values of a type decodes the next [cnt * width] bytes and goes on
    behind the padding; it fails exactly when there are too few bytes. *)
Theorem C24_values : forall t cnt bs, 0 <= cnt < 2 ^ 32 -> Forall is_byte bs ->
  let size := Z.to_nat (cnt * Z.of_nat (type_width t)) in
  (cnt * Z.of_nat (type_width t) <= Z.of_nat (length bs) ->
     exists w, wv_type w = t /\ Z.of_nat (length (wv_bits w)) = cnt /\ bits_ok w /\ values_bytes w = firstn size bs /\
       read_values cnt t bs = Ok (values_meaning w, skipn (size + pad4 size) bs)) /\
  (Z.of_nat (length bs) < cnt * Z.of_nat (type_width t) -> read_values cnt t bs = Err EIo).
Proof. exact c24_values_proof. Qed.
Print Assumptions C24_values.
Example C24_sample : read_name [0;0;0;3; 97;98;99;77; 5] = Ok ([97; 98; 99], [5]) /\
  read_values 3 NcShort [0;1; 255;255; 0;3; 9;9; 5] = Ok (ShortValues [1; -1; 3], [5]) /\
  read_values 2 NcShort [0;1; 255;255; 5] = Ok (ShortValues [1; -1], [5]) /\
  read_values 3 NcChar [97;98;99] = Ok (CharValues [97; 98; 99], []) /\
  read_values 3 NcInt [0;0;0;1; 0;0;0;1; 0;0;0] = Err EIo.
Proof. repeat split. Qed.

(** ** C25: variable data *)

(** C25.  A document that is read has the header of the file; for every requested name it holds the values
    announced for the first variable of that name, decoded from the bytes at the announced offset;
    it holds nothing else. *)
Theorem C25_values : forall names file d, Forall is_byte file -> read_document names file = Ok d ->
  (exists rest, read_header file = Ok (doc_header d, rest)) /\
  (forall name, In name names -> exists v w, first_var (doc_header d) name v /\ data_present file v /\
     wv_type w = var_type v /\ Z.of_nat (length (wv_bits w)) = announced v /\ bits_ok w /\
     values_bytes w = firstn (length (values_bytes w)) (skipn (Z.to_nat (var_begin v)) file) /\
     map_get name (doc_data d) = Some (values_meaning w)) /\
  (forall name, ~ In name names -> map_get name (doc_data d) = None).
Proof. exact c25_values_proof. Qed.
Print Assumptions C25_values.
(** C25.  If the header is readable and every requested variable exists with all its bytes in the file, the
    document is read; if one is missing or its bytes are, the result is an error, not a panic. *)
Theorem C25_complete : forall names file h rest, Forall is_byte file -> read_header file = Ok (h, rest) ->
  ((forall name, In name names -> exists v, first_var h name v /\ data_present file v) ->
     exists d, read_document names file = Ok d) /\
  (forall name, In name names -> (forall v, first_var h name v -> ~ data_present file v) ->
     exists e, read_document names file = Err e).
Proof. exact c25_complete_proof. Qed.
Print Assumptions C25_complete.
(** Finding: the size in the header includes padding (as the format prescribes), and the reader derives the number
    of values from it: the byte variable of length 1 yields four values. *)
Example C25_surplus_values : read_document [CLAT] (hdr_bytes ++ [7; 0; 0; 0]) =
  Ok {| doc_header := header_meaning hdr; doc_data := [(CLAT, ByteValues [7; 0; 0; 0])] |}.
Proof. vm_compute. reflexivity. Qed.
Example C25_sample : Forall is_byte (hdr_bytes ++ [7; 0; 0; 0]) /\
  read_document [CLON] (hdr_bytes ++ [7; 0; 0; 0]) = Err EInvalid /\ read_document [CLAT] (hdr_bytes ++ [7]) = Err EIo.
Proof. split; [repeat constructor; unfold is_byte; lia|]. split; vm_compute; reflexivity. Qed.

(** ** C26: foreign and truncated files *)

(** C26.  Only files beginning with the bytes CDF and version 2 are accepted. *)
Theorem C26_magic : forall names file d, Forall is_byte file -> read_document names file = Ok d ->
  exists rest, file = [67; 68; 70; 2] ++ rest.
Proof. exact c26_magic_proof. Qed.
Print Assumptions C26_magic.
(** C26.  A header that is cut short anywhere is refused with an I/O error. *)
Theorem C26_truncated : forall h c d names, header_ok h -> header_enc h (c ++ d) -> d <> [] ->
  read_header c = Err EIo /\ read_document names c = Err EIo.
Proof. exact c26_truncated_proof. Qed.
Print Assumptions C26_truncated.
Example C26_sample : read_header (firstn 103 hdr_bytes) = Err EIo /\ read_header (firstn 55 hdr_bytes) = Err EIo /\
  read_header ([67; 68; 70; 1] ++ skipn 4 hdr_bytes) = Err EInvalid.
Proof. repeat split; vm_compute; reflexivity. Qed.
(** Finding: a type number outside 1..6 makes the reader panic. *)
Example C26_unknown_type : read_header (firstn 47 hdr_bytes ++ [7] ++ skipn 48 hdr_bytes) = Panic.
Proof. vm_compute. reflexivity. Qed.

(** C26.  That is the only panic: the reader panics exactly on the files that are a header up to the place of a type number and have
    another number than 1 to 6 there; reading variables never adds one. *)
Theorem C26_panic : forall names file, Forall is_byte file ->
  (read_header file = Panic <-> exists b r, file = b ++ r /\ bad_header b) /\
  (read_document names file = Panic <-> exists b r, file = b ++ r /\ bad_header b).
Proof. exact c26_panic_proof. Qed.
Print Assumptions C26_panic.
Example C26_panic_sample : exists b r, firstn 47 hdr_bytes ++ [7] ++ skipn 48 hdr_bytes = b ++ r /\ bad_header b.
Proof.
  refine (proj1 (proj1 (C26_panic [] (firstn 47 hdr_bytes ++ [7] ++ skipn 48 hdr_bytes) _)) C26_unknown_type).
  apply Forall_forall. intros b I. assert (T : forallb (fun b => (0 <=? b) && (b <? 256)) (firstn 47 hdr_bytes ++ [7] ++ skipn 48 hdr_bytes) = true)
    by (vm_compute; reflexivity).
  rewrite forallb_forall in T. specialize (T b I). unfold is_byte. lia.
Qed.

(** ** C27: coordinates *)

(** C27.  The outcome of the conversion for every document: coordinates pair the values of "clat" and
    "clon" by position, and there are as many as values; an absent variable or different lengths are
    errors.  A variable that is not of type double makes the conversion panic (finding). *)
Theorem C27_pairs : forall d lats lons,
  map_get [99; 108; 97; 116] (doc_data d) = Some (DoubleValues lats) -> map_get [99; 108; 111; 110] (doc_data d) = Some (DoubleValues lons) ->
  (length lats <> length lons -> lat_lon_values d = Err EInvalid) /\
  (length lats = length lons -> exists cs, lat_lon_values d = Ok cs /\ length cs = length lats /\
     forall i la lo, nth_error lats i = Some la -> nth_error lons i = Some lo ->
       nth_error cs i = Some (lat_lon_new (f32_of_f64 (to_degrees64 la)) (f32_of_f64 (to_degrees64 lo)))).
Proof. exact c27_pairs_proof. Qed.
Print Assumptions C27_pairs.
(** C27.  The coordinates are those radians in degrees: up to full turns, with a relative error of 2^-23 (and
    an absolute one of 2^-140).  Angles that stay clear of half a turn are not turned. *)
Theorem C27_accuracy : forall d lats lons cs i la lo c,
  map_get [99; 108; 97; 116] (doc_data d) = Some (DoubleValues lats) ->
  map_get [99; 108; 111; 110] (doc_data d) = Some (DoubleValues lons) ->
  lat_lon_values d = Ok cs -> nth_error lats i = Some la -> nth_error lons i = Some lo -> nth_error cs i = Some c ->
  fin64 la -> fin64 lo -> (Rabs (r64 la) <= 2 ^ 64)%R -> (Rabs (r64 lo) <= 2 ^ 64)%R ->
  (fin_coord c /\ -180 <= xr (lat c) < 180 /\ -180 <= xr (lon c) < 180 /\
   same_direction (xr (lat c)) (degrees (r64 la)) /\ same_direction (xr (lon c)) (degrees (r64 lo)) /\
   (Rabs (degrees (r64 la)) <= 17999 / 100 -> Rabs (degrees (r64 lo)) <= 17999 / 100 ->
    Rabs (xr (lat c) - degrees (r64 la)) <= Rabs (degrees (r64 la)) / 2 ^ 23 + / 2 ^ 140 /\
    Rabs (xr (lon c) - degrees (r64 lo)) <= Rabs (degrees (r64 lo)) / 2 ^ 23 + / 2 ^ 140))%R.
Proof. exact c27_accuracy_proof. Qed.
Print Assumptions C27_accuracy.
(** C27.  Absent variables, and variables of another type. *)
Theorem C27_errors : forall d,
  (map_get [99; 108; 97; 116] (doc_data d) = None \/ map_get [99; 108; 111; 110] (doc_data d) = None -> lat_lon_values d = Err EInvalid) /\
  (lat_lon_values d = Panic <-> exists a b, map_get [99; 108; 97; 116] (doc_data d) = Some a /\ map_get [99; 108; 111; 110] (doc_data d) = Some b /\
     ~ ((exists l, a = DoubleValues l) /\ (exists l, b = DoubleValues l))).
Proof. exact c27_errors_proof. Qed.
Print Assumptions C27_errors.
(** One radian and half a radian. *)
Definition one64 : f64 := S754_finite false 4503599627370496 (-52).
Definition half64 : f64 := S754_finite false 4503599627370496 (-53).
Definition doc_of (a b : nc_values) : nc_document :=
  {| doc_header := header_meaning hdr; doc_data := [(CLON, b); (CLAT, a)] |}.
Example C27_sample : (exists c, lat_lon_values (doc_of (DoubleValues [half64]) (DoubleValues [one64])) = Ok [c]) /\
  lat_lon_values (doc_of (DoubleValues [half64; one64]) (DoubleValues [one64])) = Err EInvalid /\
  lat_lon_values (doc_of (FloatValues []) (DoubleValues [])) = Panic.
Proof. split; [eexists; vm_compute; reflexivity|]. split; vm_compute; reflexivity. Qed.
Example C27_accuracy_sample : fin64 one64 /\ fin64 half64 /\ (Rabs (r64 one64) <= 2 ^ 64)%R /\ (Rabs (r64 half64) <= 2 ^ 64)%R.
Proof.
  assert (E1 : r64 one64 = 1%R) by (unfold r64, one64; cbn; unfold F2R; cbn; lra).
  assert (E2 : r64 half64 = (/ 2)%R) by (unfold r64, half64; cbn; unfold F2R; cbn; lra).
  assert (P : (1 <= 2 ^ 64)%R) by (apply pow_R1_Rle; lra).
  split; [split; reflexivity|]. split; [split; reflexivity|]. rewrite E1, E2, !Rabs_pos_eq by lra. lra.
Qed.
