(** Model of /repo/src/netcdf: the NetCDF classic (64-bit offset) reader and the conversion to
    coordinates.  Strings are their UTF-8 bytes.  The stream is a file: seeking beyond its end
    succeeds and later reads find no bytes. *)
From Coq Require Import ZArith List Bool.
From Coq Require Import Floats.SpecFloat.
From Verif Require Import Base F32 Grib2Model GeoModel.
Import ListNotations.
Open Scope Z_scope.

(** common/netcdf_value_type.rs:4-11 *)
Inductive nc_type := NcByte | NcChar | NcShort | NcInt | NcFloat | NcDouble.
(** common/netcdf_value_type.rs:15-24 *)
Definition byte_size (t : nc_type) : Z :=
  match t with NcByte => 1 | NcChar => 1 | NcShort => 2 | NcInt => 4 | NcFloat => 4 | NcDouble => 8 end.
(** common/netcdf_value_type_reader.rs:11-26: an unknown number panics. *)
Definition read_nc_type : reader nc_type :=
  n <- read_u32 ;;
  if n =? 1 then ret NcByte else if n =? 2 then ret NcChar else if n =? 3 then ret NcShort
  else if n =? 4 then ret NcInt else if n =? 5 then ret NcFloat else if n =? 6 then ret NcDouble
  else rpanic.

(** common/netcdf_values.rs:4-11; [char]s are given by their code points (0..255, since they come
    from [u8 as char]). *)
Inductive nc_values :=
| ByteValues (l : list Z) | CharValues (l : list Z) | ShortValues (l : list Z) | IntValues (l : list Z)
| FloatValues (l : list f32) | DoubleValues (l : list f64).
(** common/netcdf_values.rs:55-60 *)
Definition get_doubles (v : nc_values) : outcome (list f64) :=
  match v with DoubleValues l => Ok l | _ => Panic end.

(** [BufReader::seek_relative] forwards by [n] bytes. *)
Definition skip (n : Z) : reader unit := fun bs => Ok (tt, skipn (Z.to_nat n) bs).
(** common/netcdf_values_reader.rs:95-102 *)
Definition read_padding (len size : Z) : reader unit :=
  let padding := (len * size) mod 4 in
  if 0 <? padding then skip (4 - padding) else ret tt.
(** [for _ in 0..n { v.push(m) }] *)
Fixpoint read_times {A} (n : nat) (m : reader A) : reader (list A) :=
  match n with
  | O => ret []
  | S k => x <- m ;; l <- read_times k m ;; ret (x :: l)
  end.
(** common/netcdf_values_reader.rs:12-92 *)
Definition read_values (count : Z) (t : nc_type) : reader nc_values :=
  match t with
  | NcByte => l <- take_bytes count ;; read_padding count 1 ;;; ret (ByteValues l)
  | NcChar => l <- read_times (Z.to_nat count) read_u8 ;; read_padding count 1 ;;; ret (CharValues l)
  | NcShort => l <- read_be_into 2 count ;; read_padding count 2 ;;; ret (ShortValues (map (to_signed 16) l))
  | NcInt => l <- read_be_into 4 count ;; ret (IntValues (map (to_signed 32) l))
  | NcFloat => l <- read_be_into 4 count ;; ret (FloatValues (map f32_of_bits l))
  | NcDouble => l <- read_be_into 8 count ;; ret (DoubleValues (map f64_of_bits l))
  end.

(** common/string_reader.rs:10-17 *)
Definition read_n_chars (n : Z) : reader bytes :=
  b <- take_bytes n ;; if utf8_valid b then ret b else fail EUtf8.
(** header/netcdf_name_reader.rs:12-22 *)
Definition read_name : reader bytes :=
  n <- read_u32 ;; s <- read_n_chars n ;;
  (if 0 <? n mod 4 then skip (4 - n mod 4) else ret tt) ;;; ret s.

(** header/netcdf_dim.rs:6-9, netcdf_attr.rs:8-12, netcdf_var.rs:9-16, netcdf_magic.rs:6-9,
    netcdf_header.rs:11-17 *)
Record nc_dim := { dim_name : bytes; dim_length : Z }.
Record nc_attr := { attr_name : bytes; attr_type : nc_type; attr_values : nc_values }.
Record nc_var := { var_name : bytes; var_dims : list Z; var_attrs : list nc_attr; var_type : nc_type;
  var_size : Z; var_begin : Z }.
Record nc_header := { h_magic : bytes; h_version : Z; h_num_recs : Z; h_dims : list nc_dim;
  h_attrs : list nc_attr; h_vars : list nc_var }.

(** header/netcdf_dim_reader.rs:12-22 *)
Definition read_dim : reader nc_dim :=
  name <- read_name ;; n <- read_u32 ;; ret {| dim_name := name; dim_length := n |}.
(** header/netcdf_attr_reader.rs:14-27 *)
Definition read_attr : reader nc_attr :=
  name <- read_name ;; t <- read_nc_type ;; n <- read_u32 ;; v <- read_values n t ;;
  ret {| attr_name := name; attr_type := t; attr_values := v |}.
(** header/netcdf_dim_list_reader.rs:14-34, netcdf_attr_list_reader.rs:16-37,
    netcdf_var_list_reader.rs:14-35: the same code with different tags. *)
Definition read_list {A} (tag : Z) (m : reader A) : reader (list A) :=
  t <- read_u32 ;; n <- read_u32 ;;
  if (t =? 0) && (n =? 0) then ret []
  else if (t =? tag) && (0 <? n) then read_times (Z.to_nat n) m
  else fail EInvalid.
Definition read_dim_list : reader (list nc_dim) := read_list 10 read_dim.
Definition read_attr_list : reader (list nc_attr) := read_list 12 read_attr.
(** header/netcdf_var_reader.rs:14-37 *)
Definition read_var : reader nc_var :=
  name <- read_name ;; n <- read_u32 ;; dims <- read_times (Z.to_nat n) read_u32 ;;
  attrs <- read_attr_list ;; t <- read_nc_type ;; size <- read_u32 ;; begin <- read_u64 ;;
  ret {| var_name := name; var_dims := dims; var_attrs := attrs; var_type := t; var_size := size; var_begin := begin |}.
Definition read_var_list : reader (list nc_var) := read_list 11 read_var.
(** header/netcdf_magic_reader.rs:13-23, netcdf_magic.rs:16-36 *)
Definition read_magic : reader (bytes * Z) :=
  magic <- read_n_chars 3 ;; version <- read_u8 ;;
  if negb (bytes_eqb magic [67; 68; 70]) then fail EInvalid
  else if negb (version =? 2) then fail EInvalid
  else ret (magic, version).
(** header/netcdf_header_reader.rs:16-32 *)
Definition read_header : reader nc_header :=
  m <- read_magic ;; recs <- read_u32 ;; dims <- read_dim_list ;; attrs <- read_attr_list ;; vars <- read_var_list ;;
  ret {| h_magic := fst m; h_version := snd m; h_num_recs := recs; h_dims := dims; h_attrs := attrs; h_vars := vars |}.

(** data/netcdf_data_reader.rs:50-55 *)
Definition entry_count (v : nc_var) : Z := var_size v / byte_size (var_type v).
(** data/netcdf_data_reader.rs:39-47 *)
Definition find_var (h : nc_header) (name : bytes) : option nc_var :=
  find (fun v => bytes_eqb (var_name v) name) (h_vars h).
(** data/netcdf_data_reader.rs:25-36.  [reader.seek(SeekFrom::Start(begin))] on a file: an offset
    that is negative as i64 is refused by the operating system. *)
Definition read_data_by_var (file : bytes) (h : nc_header) (name : bytes) : outcome nc_values :=
  match find_var h name with
  | None => Err EInvalid
  | Some v =>
      if isize_max <? var_begin v then Err EIo
      else omap fst (read_values (entry_count v) (var_type v) (skipn (Z.to_nat (var_begin v)) file))
  end.
(** A HashMap from names to values: at most one entry per key. *)
Definition data_map := list (bytes * nc_values).
Definition map_insert (k : bytes) (v : nc_values) (m : data_map) : data_map :=
  (k, v) :: filter (fun p => negb (bytes_eqb (fst p) k)) m.
Definition map_get (k : bytes) (m : data_map) : option nc_values :=
  option_map snd (find (fun p => bytes_eqb (fst p) k) m).
(** data/netcdf_data_reader.rs:14-22 *)
Fixpoint read_data_map (file : bytes) (h : nc_header) (names : list bytes) (m : data_map) : outcome data_map :=
  match names with
  | [] => Ok m
  | n :: rest => obind (read_data_by_var file h n) (fun v => read_data_map file h rest (map_insert n v m))
  end.
(** document/netcdf_document.rs:9-12 *)
Record nc_document := { doc_header : nc_header; doc_data : data_map }.
(** document/netcdf_document_reader.rs:22-32; the reader is rewound to an absolute offset for
    each variable, so the position after the header does not matter. *)
Definition read_document (names : list bytes) (file : bytes) : outcome nc_document :=
  obind (read_header file) (fun '(h, _) =>
  omap (fun m => {| doc_header := h; doc_data := m |}) (read_data_map file h names [])).

(** ** converter/netcdf_to_grid_converter.rs *)

(** f64::consts::PI is 7074237752028440 / 2^51 (884279719003555 / 2^48). *)
Definition PI64 : f64 := S754_finite false 7074237752028440 (-51).
(** [f64::to_degrees]: [self * (180.0f64 / consts::PI)]. *)
Definition to_degrees64 (x : f64) : f64 := dmul x (ddiv (binary_normalize 53 1024 180 0 false) PI64).
(** converter/netcdf_to_grid_converter.rs:6-7: "clat", "clon" *)
Definition CLAT : bytes := [99; 108; 97; 116].
Definition CLON : bytes := [99; 108; 111; 110].
(** converter/netcdf_to_grid_converter.rs:13-38 *)
Definition lat_lon_values (d : nc_document) : outcome (list lat_lon) :=
  match map_get CLAT (doc_data d), map_get CLON (doc_data d) with
  | Some clat, Some clon =>
      obind (get_doubles clat) (fun lats =>
      obind (get_doubles clon) (fun lons =>
        if negb (Nat.eqb (length lats) (length lons)) then Err EInvalid
        else Ok (map (fun '(la, lo) => lat_lon_new (f32_of_f64 (to_degrees64 la)) (f32_of_f64 (to_degrees64 lo)))
                     (combine lats lons))))
  | _, _ => Err EInvalid
  end.
