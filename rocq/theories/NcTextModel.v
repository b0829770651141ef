(** Model of the parts of /repo/src/netcdf that show a file as text (the Display implementations), and of the functions that
    give the values of one type.  A text is the string of its UTF-8 bytes. *)
From Coq Require Import ZArith List Bool Ascii String.
From Verif Require Import Base F32 Text NetCdfModel.
Import ListNotations.
Open Scope Z_scope.

(** The string of the given UTF-8 bytes. *)
Definition str_of (b : bytes) : string := string_of_list_ascii (map (fun c => ascii_of_nat (Z.to_nat c)) b).
(** The UTF-8 bytes of the characters with these code points (below 256): [chars.iter().collect::<String>()] *)
Definition char_bytes (c : Z) : bytes := if c <? 128 then [c] else [192 + c / 64; 128 + c mod 64].
Definition chars_text (l : list Z) : string := str_of (flat_map char_bytes l).
(** [format!("{}", n)] for a signed n *)
Definition dec_signed (n : Z) : string := if n <? 0 then String "-" (dec (- n)) else dec n.
Definition LF : string := String "010" EmptyString.

(** ** common/netcdf_values.rs *)

(** 15-20 *)
Definition get_bytes (v : nc_values) : outcome (list Z) := match v with ByteValues l => Ok l | _ => Panic end.
(** 23-28 *)
Definition get_chars (v : nc_values) : outcome string := match v with CharValues l => Ok (chars_text l) | _ => Panic end.
(** 31-36 *)
Definition get_shorts (v : nc_values) : outcome (list Z) := match v with ShortValues l => Ok l | _ => Panic end.
(** 39-44 *)
Definition get_ints (v : nc_values) : outcome (list Z) := match v with IntValues l => Ok l | _ => Panic end.
(** 47-52; get_doubles (55-60) is in NetCdfModel.v. *)
Definition get_floats (v : nc_values) : outcome (list f32) := match v with FloatValues l => Ok l | _ => Panic end.

(** [values.iter().fold(String::new(), |val, acc| format!("{} {}", acc, val))]: the first argument of the closure is what has been
    collected so far, the second one the next value. *)
Definition fold_text {A} (show : A -> string) (l : list A) : string := fold_left (fun val x => show x ++ " " ++ val)%string l ""%string.

Section Texts.
  (** [format!("{}", x)] for an f32 and an f64 *)
  Variables (fl : f32 -> string) (db : f64 -> string).
  (** 64-75 *)
  Definition values_text (v : nc_values) : string :=
    match v with
    | ByteValues l => fold_text dec l
    | CharValues l => chars_text l
    | ShortValues l => fold_text dec_signed l
    | IntValues l => fold_text dec_signed l
    | FloatValues l => fold_text fl l
    | DoubleValues l => fold_text db l
    end.
  (** common/netcdf_value_type.rs:28-39 *)
  Definition type_text (t : nc_type) : string :=
    match t with NcByte => "Byte" | NcChar => "Char" | NcShort => "Short" | NcInt => "Int" | NcFloat => "Float" | NcDouble => "Double" end.
  (** header/netcdf_dim.rs:12-20 *)
  Definition dim_text (d : nc_dim) : string :=
    "DIM:" ++ LF ++ "  name: " ++ str_of (dim_name d) ++ LF ++ "  length: " ++ dec (dim_length d) ++ LF.
  (** header/netcdf_attr.rs:15-24 *)
  Definition attr_text (a : nc_attr) : string :=
    "ATTR:" ++ LF ++ "  name: " ++ str_of (attr_name a) ++ LF ++ "  type: " ++ type_text (attr_type a) ++ LF ++
    "  values: " ++ values_text (attr_values a) ++ LF.
  (** [l.iter().for_each(|x| write!(f, "{}", x).unwrap())]; writing to a string does not fail. *)
  Definition each_text {A} (show : A -> string) (l : list A) : string := fold_right (fun x r => show x ++ r)%string ""%string l.
  (** header/netcdf_var.rs:19-37 *)
  Definition var_text (v : nc_var) : string :=
    "VAR:" ++ LF ++ "  name: " ++ str_of (var_name v) ++ LF ++ "  nc_type: " ++ type_text (var_type v) ++ LF ++
    "  size: " ++ dec (var_size v) ++ LF ++ "  begin: " ++ dec (var_begin v) ++ LF ++
    "  dim_ids: " ++ each_text (fun d => dec d ++ " ")%string (var_dims v) ++ LF ++
    "  attributes: " ++ dec (Z.of_nat (List.length (var_attrs v))) ++ LF ++ each_text attr_text (var_attrs v) ++ LF.
  (** header/netcdf_magic.rs:40-47 *)
  Definition magic_text (magic : bytes) (version : Z) : string :=
    "  magic: " ++ str_of magic ++ LF ++ "  version: " ++ dec version ++ LF.
  (** header/netcdf_header.rs:20-41 *)
  Definition header_text (h : nc_header) : string :=
    "HEADER:" ++ LF ++ magic_text (h_magic h) (h_version h) ++ "  num_recs: " ++ dec (h_num_recs h) ++ LF ++
    "  dim_list: " ++ dec (Z.of_nat (List.length (h_dims h))) ++ LF ++ each_text dim_text (h_dims h) ++ LF ++
    "  att_list: " ++ dec (Z.of_nat (List.length (h_attrs h))) ++ LF ++ each_text attr_text (h_attrs h) ++ LF ++
    "  var_list: " ++ dec (Z.of_nat (List.length (h_vars h))) ++ LF ++ each_text var_text (h_vars h) ++ LF.
End Texts.
