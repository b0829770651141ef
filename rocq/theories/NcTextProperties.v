(** The property about NetCDF files shown as text, and the values of one type (C77). *)
From Coq Require Import ZArith List Bool Ascii String Lia.
From Coq Require Import Floats.SpecFloat.
From Verif Require Import Base F32 Text TextFacts Grib2Spec Utf8Spec NetCdfModel NetCdfSpec NetCdfProperties NcTextModel NcTextSpec NcTextProofs.
Import ListNotations.
Open Scope Z_scope.

(** C77.  The text of a header tells everything in it: files whose headers have the same text have the same header, if their names and
    character values have no line breaks. *)
Theorem C77_tells : forall fl db file file' h h' rest rest', telling fl -> telling db -> Forall is_byte file -> Forall is_byte file' ->
  read_header file = Ok (h, rest) -> read_header file' = Ok (h', rest') -> plain_header h -> plain_header h' ->
  header_text fl db h = header_text fl db h' -> h = h'.
Proof. exact c77_tells_proof. Qed.
Print Assumptions C77_tells.
(** C77 (finding).  The numbers of an attribute are shown in the reverse order, each followed by a space. *)
Theorem C77_order : forall fl db l, values_text fl db (IntValues l) = spaced dec_signed (rev l) /\ values_text fl db (ShortValues l) = spaced dec_signed (rev l) /\
  values_text fl db (ByteValues l) = spaced dec (rev l) /\
  (forall k, values_text fl db (FloatValues k) = spaced fl (rev k)) /\ (forall k, values_text fl db (DoubleValues k) = spaced db (rev k)).
Proof. exact c77_order_proof. Qed.
Print Assumptions C77_order.
(** C77.  For each variable that was asked for, the function of its type gives exactly the values in the file, and the functions of
    the other types abort. *)
Theorem C77_getters : forall names file d name, Forall is_byte file -> read_document names file = Ok d -> In name names ->
  exists v w vals, first_var (doc_header d) name v /\ map_get name (doc_data d) = Some vals /\
    wv_type w = var_type v /\ Z.of_nat (List.length (wv_bits w)) = announced v /\ bits_ok w /\
    values_bytes w = firstn (List.length (values_bytes w)) (skipn (Z.to_nat (var_begin v)) file) /\
    get_bytes vals = match var_type v with NcByte => Ok (wv_bits w) | _ => Panic end /\
    get_chars vals = match var_type v with NcChar => Ok (chars_text (wv_bits w)) | _ => Panic end /\
    get_shorts vals = match var_type v with NcShort => Ok (map (fun b => if b <? 2 ^ 15 then b else b - 2 ^ 16) (wv_bits w)) | _ => Panic end /\
    get_ints vals = match var_type v with NcInt => Ok (map (fun b => if b <? 2 ^ 31 then b else b - 2 ^ 32) (wv_bits w)) | _ => Panic end /\
    get_floats vals = match var_type v with NcFloat => Ok (map f32_of_bits (wv_bits w)) | _ => Panic end /\
    get_doubles vals = match var_type v with NcDouble => Ok (map f64_of_bits (wv_bits w)) | _ => Panic end.
Proof. exact c77_getters_proof. Qed.
Print Assumptions C77_getters.

(** C77.  The text has the lines of [header_lines], in this order: each part of the header under its name, after the lists their lengths. *)
Theorem C77_lines : forall fl db h, header_text fl db h = ended (header_lines str_of type_text (values_text fl db) h).
Proof. exact c77_lines_proof. Qed.
Print Assumptions C77_lines.
Theorem C77_types : forall t, In (t, type_text t) type_names.
Proof. exact c77_types_proof. Qed.
Print Assumptions C77_types.

(** A way to show floats that tells them apart: sign, mantissa and exponent. *)
Definition show_float (x : spec_float) : string :=
  match x with
  | S754_zero s => if s then "-0" else "0"
  | S754_infinity s => if s then "-inf" else "inf"
  | S754_nan => "NaN"
  | S754_finite s m e => ((if s then "-" else "") ++ dec (Z.pos m) ++ "x" ++ dec_signed e)%string
  end.
Lemma show_float_no c x : c = " "%char \/ c = "010"%char -> contains c (show_float x) = false.
Proof.
  intro C. destruct x as [s|s| |s m e]; cbn [show_float]; try (destruct C as [-> | ->]; try destruct s; reflexivity).
  assert (D : is_digit c = false) by (destruct C as [-> | ->]; reflexivity). assert (M : c <> "-"%char) by (destruct C as [-> | ->]; discriminate).
  rewrite !contains_app, dec_no_char, dec_signed_no by (lia || assumption). destruct C as [-> | ->]; destruct s; reflexivity.
Qed.
Lemma show_finite (s : bool) m e : exists c r, show_float (S754_finite s m e) = (if s then String "-" (String c r) else String c r) /\ is_digit c = true /\
  (String c r = dec (Z.pos m) ++ "x" ++ dec_signed e)%string.
Proof.
  destruct (dec_first (Z.pos m) ltac:(lia)) as (c & r & Q & D). exists c, (r ++ "x" ++ dec_signed e)%string. cbn [show_float]. rewrite Q. destruct s; repeat split; exact D.
Qed.
Lemma finite_x s m e : contains "x" (show_float (S754_finite s m e)) = true.
Proof. cbn [show_float]. rewrite !contains_app. cbn. rewrite !orb_true_r. reflexivity. Qed.
Lemma show_float_inj x y : show_float x = show_float y -> x = y.
Proof.
  intro E. destruct x as [s|s| |s m e], y as [s'|s'| |s' m' e'];
    try (exfalso; pose proof (f_equal (contains "x") E) as F; rewrite finite_x in F; cbn in F; try destruct s; try destruct s'; discriminate F);
    try (destruct s; destruct s'; first [reflexivity|discriminate E]); try (destruct s; discriminate E); try (destruct s'; discriminate E); try reflexivity.
  destruct (show_finite s m e) as (c & r & Q & D & K). destruct (show_finite s' m' e') as (c' & r' & Q' & D' & K'). rewrite Q, Q' in E.
  assert (G : s = s' /\ String c r = String c' r').
  { destruct s, s'; [injection E as -> ->; auto| | |auto]; injection E as E _; subst; discriminate. }
  destruct G as [<- G]. rewrite K, K' in G. apply dec_inv in G; [|lia|lia|reflexivity|reflexivity]. destruct G as [M G]. injection G as G. apply dec_signed_inj in G. congruence.
Qed.
Lemma show_float_telling : telling show_float.
Proof. split; [exact show_float_inj|]. intro x. split; apply show_float_no; auto. Qed.

(** The header of NetCdfProperties.v: a dimension, an attribute and a variable. *)
Example C77_sample : exists h, read_header hdr_bytes = Ok (h, []) /\ plain_header h /\ telling show_float /\ Forall is_byte hdr_bytes /\
  header_text show_float show_float h =
  ("HEADER:" ++ LF ++ "  magic: CDF" ++ LF ++ "  version: 2" ++ LF ++ "  num_recs: 0" ++ LF ++
   "  dim_list: 1" ++ LF ++ "DIM:" ++ LF ++ "  name: lon" ++ LF ++ "  length: 2" ++ LF ++ LF ++
   "  att_list: 1" ++ LF ++ "ATTR:" ++ LF ++ "  name: a" ++ LF ++ "  type: Short" ++ LF ++ "  values: -2 " ++ LF ++ LF ++
   "  var_list: 1" ++ LF ++ "VAR:" ++ LF ++ "  name: clat" ++ LF ++ "  nc_type: Byte" ++ LF ++ "  size: 4" ++ LF ++ "  begin: 104" ++ LF ++
   "  dim_ids: 0 " ++ LF ++ "  attributes: 0" ++ LF ++ LF ++ LF)%string.
Proof.
  exists (header_meaning hdr). split; [vm_compute; reflexivity|]. split.
  { split; [|split]; repeat constructor; unfold plain_dim, one_line; cbn; intuition discriminate. }
  split; [exact show_float_telling|]. split; [|vm_compute; reflexivity]. apply Forall_forall. intros b I. assert (A : forallb (fun b => (0 <=? b) && (b <? 256)) hdr_bytes = true) by (vm_compute; reflexivity).
  rewrite forallb_forall in A. specialize (A b I). unfold is_byte. lia.
Qed.
(** Finding: with line breaks in names or values, different attributes may have the same text. *)
Definition long_name : nc_attr := {| attr_name := [110; 10; 32; 32; 116; 121; 112; 101; 58; 32; 67; 104; 97; 114; 10; 32; 32; 118; 97; 108; 117; 101; 115; 58; 32; 113];
  attr_type := NcChar; attr_values := CharValues [122] |}.
Definition long_value : nc_attr := {| attr_name := [110]; attr_type := NcChar;
  attr_values := CharValues [113; 10; 32; 32; 116; 121; 112; 101; 58; 32; 67; 104; 97; 114; 10; 32; 32; 118; 97; 108; 117; 101; 115; 58; 32; 122] |}.
Example C77_line_breaks : long_name <> long_value /\ attr_text show_float show_float long_name = attr_text show_float show_float long_value.
Proof. split; [discriminate|vm_compute; reflexivity]. Qed.
Example C77_order_sample : values_text show_float show_float (IntValues [1; -2; 30]) = "30 -2 1 "%string.
Proof. vm_compute. reflexivity. Qed.
Example C77_getters_sample : Forall is_byte (hdr_bytes ++ [7; 0; 0; 0]) /\ exists d vals, read_document [CLAT] (hdr_bytes ++ [7; 0; 0; 0]) = Ok d /\
  map_get CLAT (doc_data d) = Some vals /\ get_bytes vals = Ok [7; 0; 0; 0] /\ get_ints vals = Panic.
Proof.
  split; [exact (proj1 C25_sample)|]. eexists _, _. split; [exact C25_surplus_values|]. split; [vm_compute; reflexivity|]. split; reflexivity.
Qed.
