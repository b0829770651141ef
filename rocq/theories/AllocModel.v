(** Model of the buffers that the readers of GRIB2 and NetCDF files allocate: the readers of Grib2Model.v and NetCdfModel.v with a
    record of the sizes, in bytes, of the buffers in the order in which they are requested.
    Simplification: only the memory for what is read from a file is recorded ([vec![0; n]], and the characters that are pushed one
    by one), not the records of fixed size around it; a vector that grows may have up to twice the recorded size. *)
From Coq Require Import ZArith List Bool.
From Verif Require Import Base F32 Grib2Model NetCdfModel.
Import ListNotations.
Open Scope Z_scope.

(** A reader with the sizes of the buffers it requests. *)
Definition areader (A : Type) := bytes -> list Z * outcome (A * bytes).
Definition a_ret {A} (a : A) : areader A := fun bs => ([], Ok (a, bs)).
Definition a_fail {A} (e : err) : areader A := fun _ => ([], Err e).
Definition a_bind {A B} (m : areader A) (k : A -> areader B) : areader B := fun bs =>
  let '(l, r) := m bs in
  match r with
  | Ok (a, rest) => let '(l', r') := k a rest in (l ++ l', r')
  | Err e => (l, Err e)
  | Panic => (l, Panic)
  end.
(** What reads numbers of fixed size or calculates needs no buffer. *)
Definition plain {A} (m : reader A) : areader A := fun bs => ([], m bs).
(** [vec![0; n]], filled by [read_exact]; beyond isize::MAX the vector is not even requested. *)
Definition buffer (n : Z) : areader bytes := fun bs => ((if n >? isize_max then [] else [n]), take_bytes n bs).

Local Notation "x <-- m ;; k" := (a_bind m (fun x => k)) (at level 61, m at next level, right associativity).
Local Notation "m ;;;; k" := (a_bind m (fun _ => k)) (at level 61, right associativity).

(** [vec![0; count]] of numbers of [k] bytes: section4_reader.rs:22-23, section7_reader.rs:27-31, netcdf_values_reader.rs:53-92 *)
Definition a_be_into (k count : Z) : areader (list Z) :=
  b <-- buffer (k * count) ;; a_ret (map be_value (chunks (length b) (Z.to_nat k) b)).

(** ** GRIB2 *)

(** grib2/common/byte_reader.rs:9-14 *)
Definition a_n_bytes (size : Z) : areader bytes := buffer size.
(** grib2/common/string_reader.rs:10-17, netcdf/common/string_reader.rs:10-17 *)
Definition a_n_chars (size : Z) : areader bytes := b <-- buffer size ;; if utf8_valid b then a_ret b else a_fail EUtf8.
(** section0_reader.rs:17 *)
Definition a_ignore {A} (m : areader A) : areader unit := fun bs =>
  let '(l, r) := m bs in (l, match r with Ok (_, rest) => Ok (tt, rest) | Err _ => Ok (tt, []) | Panic => Panic end).
(** section0_reader.rs:15-30 *)
Definition a_section0 : areader section0 :=
  magic <-- a_n_chars 4 ;;
  a_ignore (a_n_bytes 2) ;;;;
  disc <-- plain read_discipline ;;
  edition <-- plain read_u8 ;;
  len <-- plain read_u64 ;;
  if bytes_eqb magic grib_magic
  then a_ret {| s0_magic := magic; s0_discipline := disc; s0_edition := edition; s0_length := len |}
  else a_fail EInvalid.
(** section1_reader.rs:17-44 *)
Definition a_section1 (chk : bool) : areader section1 :=
  len <-- plain read_u32 ;; num <-- plain read_u8 ;; center <-- plain read_u16 ;; sub <-- plain read_u16 ;;
  master <-- plain read_u8 ;; local <-- plain read_u8 ;;
  sig <-- plain read_ref_time_significance ;; rt <-- plain read_ref_time ;;
  st <-- plain read_production_status ;; ty <-- plain read_processed_data_type ;;
  if num =? 1 then
    n <-- plain (lift (usub chk 64 len 21)) ;;
    a_n_bytes n ;;;;
    a_ret {| s1_length := len; s1_number := num; s1_center := center; s1_subcenter := sub;
           s1_master := master; s1_local := local; s1_significance := sig; s1_ref_time := rt;
           s1_status := st; s1_data_type := ty |}
  else a_fail EInvalid.
(** section2_reader.rs:13-24 *)
Definition a_section2 (chk : bool) : areader section2 :=
  len <-- plain read_u32 ;; num <-- plain read_u8 ;;
  if num =? 2 then
    n <-- plain (lift (usub chk 64 len 5)) ;;
    a_n_bytes n ;;;;
    a_ret {| s2_length := len; s2_number := num |}
  else a_fail EInvalid.
(** section4_template_4_0_reader.rs:14-26 *)
Definition a_template4_0 : areader template4_0 :=
  c <-- plain read_parameter_category ;; n <-- plain read_u8 ;; a_n_bytes 23 ;;;;
  a_ret {| t40_category := c; t40_number := n |}.
(** section4_template_4_8_reader.rs:14-31 *)
Definition a_template4_8 : areader template4_0 :=
  c <-- plain read_parameter_category ;; n <-- plain read_u8 ;; a_n_bytes 30 ;;;;
  k <-- plain read_u8 ;; a_n_bytes (4 + 12 * k) ;;;;
  a_ret {| t40_category := c; t40_number := n |}.
(** section4_reader.rs:35-60 *)
Definition a_product_definition_template (n tpl_length : Z) : areader product_definition_template :=
  if n =? 0 then t <-- a_template4_0 ;; a_ret (Template4_0 t)
  else if n =? 1 then t <-- plain read_template4_1 ;; a_ret (Template4_1 t)
  else if n =? 8 then t <-- a_template4_8 ;; a_ret (Template4_8 t)
  else a_n_bytes tpl_length ;;;; a_ret (Template4_Unknown n).
(** section4_reader.rs:15-33 *)
Definition a_section4 (chk : bool) : areader section4 :=
  len <-- plain read_u32 ;; num <-- plain read_u8 ;; cnt <-- plain read_u16 ;; tn <-- plain read_u16 ;;
  tl <-- plain (lift (usub chk 32 len 9)) ;;
  tpl <-- a_product_definition_template tn tl ;;
  cs <-- a_be_into 4 cnt ;;
  if num =? 4 then
    a_ret {| s4_length := len; s4_number := num; s4_coordinates := map f32_of_bits cs;
           s4_template := tpl |}
  else a_fail EInvalid.
(** section5_reader.rs:30-47 *)
Definition a_data_representation_template (n tpl_length : Z) : areader data_representation_template :=
  if n =? 0 then t <-- plain read_template5_0 ;; a_ret (SimplePacking t)
  else a_n_bytes tpl_length ;;;; a_ret (Template5_Unknown n).
(** section5_reader.rs:13-28 *)
Definition a_section5 (chk : bool) : areader section5 :=
  len <-- plain read_u32 ;; num <-- plain read_u8 ;; pts <-- plain read_u32 ;; tn <-- plain read_u16 ;;
  tl <-- plain (lift (usub chk 32 len 11)) ;;
  tpl <-- a_data_representation_template tn tl ;;
  if num =? 5 then
    a_ret {| s5_length := len; s5_number := num; s5_points := pts; s5_template := tpl |}
  else a_fail EInvalid.
(** section6_reader.rs:13-27 *)
Definition a_section6 (chk : bool) : areader section6 :=
  len <-- plain read_u32 ;; num <-- plain read_u8 ;; ind <-- plain read_u8 ;;
  n <-- plain (lift (usub chk 32 len 6)) ;;
  bm <-- a_n_bytes n ;;
  if num =? 6 then
    a_ret {| s6_length := len; s6_number := num; s6_indicator := ind; s6_bitmap := bm |}
  else a_fail EInvalid.
(** section7_reader.rs:12-33 *)
Definition a_section7 (chk : bool) : areader section7 :=
  len <-- plain read_u32 ;; num <-- plain read_u8 ;;
  n <-- plain (lift (usub chk 32 len 5)) ;;
  ds <-- a_be_into 2 (n / 2) ;;
  if num =? 7 then a_ret {| s7_length := len; s7_number := num; s7_data := ds |}
  else a_fail EInvalid.
(** section8_reader.rs:11-16 *)
Definition a_section8 : areader section8 :=
  m <-- a_n_chars 4 ;;
  if bytes_eqb m end_magic then a_ret {| s8_magic := m |} else a_fail EInvalid.
(** document/grib2_document_reader.rs:39-62 *)
Definition a_single_doc (chk : bool) : areader document :=
  s0 <-- a_section0 ;; s1 <-- a_section1 chk ;; s2 <-- a_section2 chk ;;
  s3 <-- plain read_section3 ;; s4 <-- a_section4 chk ;; s5 <-- a_section5 chk ;;
  s6 <-- a_section6 chk ;; s7 <-- a_section7 chk ;; s8 <-- a_section8 ;;
  a_ret {| d_s0 := s0; d_s1 := s1; d_s2 := s2; d_s3 := s3; d_s4 := s4; d_s5 := s5;
         d_s6 := s6; d_s7 := s7; d_s8 := s8 |}.
(** document/grib2_document_reader.rs:18-36: all documents stay in memory.  The fuel is as in [read_docs]. *)
Fixpoint a_docs (chk : bool) (fuel : nat) (bs : bytes) : list Z * option (outcome (list document)) :=
  match fuel with
  | O => ([], None)
  | S f =>
    let '(l, r) := a_single_doc chk bs in
    match r with
    | Ok (d, rest) =>
        let '(l', r') := a_docs chk f rest in
        (l ++ l', match r' with Some (Ok ds) => Some (Ok (d :: ds)) | other => other end)
    | Err _ => (l, Some (Ok []))
    | Panic => (l, Some Panic)
    end
  end.
Definition a_multi_doc (chk : bool) (bs : bytes) : list Z * option (outcome (list document)) :=
  let '(l, r) := a_docs chk (S (length bs)) bs in (l, match r with Some (Ok []) => Some (Err EInvalid) | other => other end).

(** ** NetCDF *)

(** netcdf_values_reader.rs:39-43: each character that is pushed takes the four bytes of a [char]. *)
Definition a_push (size : Z) : areader Z := fun bs => let r := read_u8 bs in ((match r with Ok _ => [size] | _ => [] end), r).
Fixpoint a_times {A} (n : nat) (m : areader A) : areader (list A) :=
  match n with
  | O => a_ret []
  | S k => x <-- m ;; l <-- a_times k m ;; a_ret (x :: l)
  end.
(** netcdf_values_reader.rs:12-92 *)
Definition a_values (count : Z) (t : nc_type) : areader nc_values :=
  match t with
  | NcByte => l <-- buffer count ;; plain (read_padding count 1) ;;;; a_ret (ByteValues l)
  | NcChar => l <-- a_times (Z.to_nat count) (a_push 4) ;; plain (read_padding count 1) ;;;; a_ret (CharValues l)
  | NcShort => l <-- a_be_into 2 count ;; plain (read_padding count 2) ;;;; a_ret (ShortValues (map (to_signed 16) l))
  | NcInt => l <-- a_be_into 4 count ;; a_ret (IntValues (map (to_signed 32) l))
  | NcFloat => l <-- a_be_into 4 count ;; a_ret (FloatValues (map f32_of_bits l))
  | NcDouble => l <-- a_be_into 8 count ;; a_ret (DoubleValues (map f64_of_bits l))
  end.
(** netcdf_name_reader.rs:12-22 *)
Definition a_name : areader bytes :=
  n <-- plain read_u32 ;; s <-- a_n_chars n ;;
  plain (if 0 <? n mod 4 then skip (4 - n mod 4) else ret tt) ;;;; a_ret s.
(** netcdf_dim_reader.rs:12-22 *)
Definition a_dim : areader nc_dim := name <-- a_name ;; n <-- plain read_u32 ;; a_ret {| dim_name := name; dim_length := n |}.
(** netcdf_attr_reader.rs:14-27 *)
Definition a_attr : areader nc_attr :=
  name <-- a_name ;; t <-- plain read_nc_type ;; n <-- plain read_u32 ;; v <-- a_values n t ;;
  a_ret {| attr_name := name; attr_type := t; attr_values := v |}.
(** netcdf_dim_list_reader.rs:14-34, netcdf_attr_list_reader.rs:16-37, netcdf_var_list_reader.rs:14-35 *)
Definition a_list {A} (tag : Z) (m : areader A) : areader (list A) :=
  t <-- plain read_u32 ;; n <-- plain read_u32 ;;
  if (t =? 0) && (n =? 0) then a_ret []
  else if (t =? tag) && (0 <? n) then a_times (Z.to_nat n) m
  else a_fail EInvalid.
(** netcdf_var_reader.rs:14-37; the numbers of the dimensions are pushed one by one, four bytes each. *)
Definition a_push_u32 : areader Z := fun bs => let r := read_u32 bs in ((match r with Ok _ => [4] | _ => [] end), r).
Definition a_var : areader nc_var :=
  name <-- a_name ;; n <-- plain read_u32 ;; dims <-- a_times (Z.to_nat n) a_push_u32 ;;
  attrs <-- a_list 12 a_attr ;; t <-- plain read_nc_type ;; size <-- plain read_u32 ;; begin <-- plain read_u64 ;;
  a_ret {| var_name := name; var_dims := dims; var_attrs := attrs; var_type := t; var_size := size; var_begin := begin |}.
(** netcdf_magic_reader.rs:13-23 *)
Definition a_magic : areader (bytes * Z) :=
  magic <-- a_n_chars 3 ;; version <-- plain read_u8 ;;
  if negb (bytes_eqb magic [67; 68; 70]) then a_fail EInvalid
  else if negb (version =? 2) then a_fail EInvalid
  else a_ret (magic, version).
(** netcdf_header_reader.rs:16-32 *)
Definition a_header : areader nc_header :=
  m <-- a_magic ;; recs <-- plain read_u32 ;; dims <-- a_list 10 a_dim ;; attrs <-- a_list 12 a_attr ;; vars <-- a_list 11 a_var ;;
  a_ret {| h_magic := fst m; h_version := snd m; h_num_recs := recs; h_dims := dims; h_attrs := attrs; h_vars := vars |}.
(** netcdf_data_reader.rs:25-36 *)
Definition a_data_by_var (file : bytes) (h : nc_header) (name : bytes) : list Z * outcome nc_values :=
  match find_var h name with
  | None => ([], Err EInvalid)
  | Some v =>
      if isize_max <? var_begin v then ([], Err EIo)
      else let '(l, r) := a_values (entry_count v) (var_type v) (skipn (Z.to_nat (var_begin v)) file) in (l, omap fst r)
  end.
(** netcdf_data_reader.rs:14-22 *)
Fixpoint a_data_map (file : bytes) (h : nc_header) (names : list bytes) (m : data_map) : list Z * outcome data_map :=
  match names with
  | [] => ([], Ok m)
  | n :: rest =>
      let '(l, r) := a_data_by_var file h n in
      match r with
      | Ok v => let '(l', r') := a_data_map file h rest (map_insert n v m) in (l ++ l', r')
      | Err e => (l, Err e)
      | Panic => (l, Panic)
      end
  end.
(** netcdf_document_reader.rs:22-32 *)
Definition a_document (names : list bytes) (file : bytes) : list Z * outcome nc_document :=
  let '(l, r) := a_header file in
  match r with
  | Ok (h, _) => let '(l', r') := a_data_map file h names [] in (l ++ l', omap (fun m => {| doc_header := h; doc_data := m |}) r')
  | Err e => (l, Err e)
  | Panic => (l, Panic)
  end.
