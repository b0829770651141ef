(** The NetCDF classic format with 64-bit offsets (CDF-2), written down independently of the
    readers: which byte strings encode a header, and what a reader has to return for it. *)
From Coq Require Import ZArith List Bool.
From Verif Require Import Base F32 Grib2Spec Utf8Spec NetCdfModel.
Import ListNotations.
Open Scope Z_scope.

(** An encoding is a set of byte strings, since the contents of padding are arbitrary. *)
Definition encoding := bytes -> Prop.
Definition exactly (b : bytes) : encoding := fun s => s = b.
Definition filler (n : nat) : encoding := fun s => length s = n /\ Forall is_byte s.
Definition followed_by (a b : encoding) : encoding := fun s => exists s1 s2, s = s1 ++ s2 /\ a s1 /\ b s2.
Infix "+++" := followed_by (at level 60, right associativity).
Fixpoint each {A} (f : A -> encoding) (l : list A) : encoding :=
  match l with [] => exactly [] | a :: r => f a +++ each f r end.

(** Number of padding bytes up to the next multiple of four. *)
Definition pad4 (n : nat) : nat := (4 - n mod 4) mod 4.

Definition u32 (v : Z) : bytes := be_bytes 4 v.
Definition fits32 (v : Z) : Prop := 0 <= v < 2 ^ 32.

(** A name: any UTF-8 text, with its length in front and padding behind. *)
Definition name_enc (s : bytes) : encoding :=
  exactly (u32 (Z.of_nat (length s))) +++ exactly s +++ filler (pad4 (length s)).
Definition name_ok (s : bytes) : Prop := Forall is_byte s /\ is_text s /\ fits32 (Z.of_nat (length s)).

Definition type_code (t : nc_type) : Z :=
  match t with NcByte => 1 | NcChar => 2 | NcShort => 3 | NcInt => 4 | NcFloat => 5 | NcDouble => 6 end.
Definition type_width (t : nc_type) : nat :=
  match t with NcByte | NcChar => 1 | NcShort => 2 | NcInt | NcFloat => 4 | NcDouble => 8 end.

(** Values are given by their bit patterns, as unsigned numbers of the type's width. *)
Record wire_values := { wv_type : nc_type; wv_bits : list Z }.
Definition values_bytes (v : wire_values) : bytes := concat (map (be_bytes (type_width (wv_type v))) (wv_bits v)).
Definition values_enc (v : wire_values) : encoding :=
  exactly (values_bytes v) +++ filler (pad4 (length (values_bytes v))).
Definition bits_ok (v : wire_values) : Prop :=
  Forall (fun b => 0 <= b < 256 ^ Z.of_nat (type_width (wv_type v))) (wv_bits v).
Definition values_ok (v : wire_values) : Prop := bits_ok v /\ fits32 (Z.of_nat (length (wv_bits v))).
(** Two's complement, and IEEE-754 interchange formats. *)
Definition values_meaning (v : wire_values) : nc_values :=
  match wv_type v with
  | NcByte => ByteValues (wv_bits v)
  | NcChar => CharValues (wv_bits v)
  | NcShort => ShortValues (map (fun b => if b <? 2 ^ 15 then b else b - 2 ^ 16) (wv_bits v))
  | NcInt => IntValues (map (fun b => if b <? 2 ^ 31 then b else b - 2 ^ 32) (wv_bits v))
  | NcFloat => FloatValues (map f32_of_bits (wv_bits v))
  | NcDouble => DoubleValues (map f64_of_bits (wv_bits v))
  end.

Record wire_attr := { wa_name : bytes; wa_values : wire_values }.
Definition attr_enc (a : wire_attr) : encoding :=
  name_enc (wa_name a) +++ exactly (u32 (type_code (wv_type (wa_values a)))) +++
  exactly (u32 (Z.of_nat (length (wv_bits (wa_values a))))) +++ values_enc (wa_values a).
Definition attr_ok (a : wire_attr) : Prop := name_ok (wa_name a) /\ values_ok (wa_values a).
Definition attr_meaning (a : wire_attr) : nc_attr :=
  {| attr_name := wa_name a; attr_type := wv_type (wa_values a); attr_values := values_meaning (wa_values a) |}.

(** A list: ABSENT (two zero words) or tag, number of elements, elements. *)
Definition list_enc {A} (tag : Z) (f : A -> encoding) (l : list A) : encoding :=
  match l with
  | [] => exactly (u32 0) +++ exactly (u32 0)
  | _ => exactly (u32 tag) +++ exactly (u32 (Z.of_nat (length l))) +++ each f l
  end.
Definition list_ok {A} (ok : A -> Prop) (l : list A) : Prop := Forall ok l /\ fits32 (Z.of_nat (length l)).

Definition dim_enc (d : nc_dim) : encoding := name_enc (dim_name d) +++ exactly (u32 (dim_length d)).
Definition dim_ok (d : nc_dim) : Prop := name_ok (dim_name d) /\ fits32 (dim_length d).

Record wire_var := { wr_name : bytes; wr_dims : list Z; wr_attrs : list wire_attr; wr_type : nc_type;
  wr_size : Z; wr_begin : Z }.
Definition var_enc (v : wire_var) : encoding :=
  name_enc (wr_name v) +++ exactly (u32 (Z.of_nat (length (wr_dims v)))) +++ each (fun d => exactly (u32 d)) (wr_dims v) +++
  list_enc 12 attr_enc (wr_attrs v) +++ exactly (u32 (type_code (wr_type v))) +++ exactly (u32 (wr_size v)) +++
  exactly (be_bytes 8 (wr_begin v)).
Definition var_ok (v : wire_var) : Prop :=
  name_ok (wr_name v) /\ list_ok fits32 (wr_dims v) /\ list_ok attr_ok (wr_attrs v) /\ fits32 (wr_size v) /\
  0 <= wr_begin v < 2 ^ 64.
Definition var_meaning (v : wire_var) : nc_var :=
  {| var_name := wr_name v; var_dims := wr_dims v; var_attrs := map attr_meaning (wr_attrs v); var_type := wr_type v;
     var_size := wr_size v; var_begin := wr_begin v |}.

Record wire_header := { wh_recs : Z; wh_dims : list nc_dim; wh_attrs : list wire_attr; wh_vars : list wire_var }.
Definition header_enc (h : wire_header) : encoding :=
  exactly [67; 68; 70; 2] (* CDF, version 2 *) +++ exactly (u32 (wh_recs h)) +++ list_enc 10 dim_enc (wh_dims h) +++
  list_enc 12 attr_enc (wh_attrs h) +++ list_enc 11 var_enc (wh_vars h).
Definition header_ok (h : wire_header) : Prop :=
  fits32 (wh_recs h) /\ list_ok dim_ok (wh_dims h) /\ list_ok attr_ok (wh_attrs h) /\ list_ok var_ok (wh_vars h).
Definition header_meaning (h : wire_header) : nc_header :=
  {| h_magic := [67; 68; 70]; h_version := 2; h_num_recs := wh_recs h; h_dims := wh_dims h;
     h_attrs := map attr_meaning (wh_attrs h); h_vars := map var_meaning (wh_vars h) |}.

(** The first variable of a given name. *)
Definition first_var (h : nc_header) (name : bytes) (v : nc_var) : Prop :=
  exists before after, h_vars h = before ++ v :: after /\ var_name v = name /\
    Forall (fun u => var_name u <> name) before.
(** Number of values announced for a variable, and whether they lie within the file. *)
Definition announced (v : nc_var) : Z := var_size v / Z.of_nat (type_width (var_type v)).
Definition data_present (file : bytes) (v : nc_var) : Prop :=
  0 <= var_begin v < 2 ^ 63 /\
  (announced v * Z.of_nat (type_width (var_type v)) <= Z.max 0 (Z.of_nat (length file) - var_begin v)).
