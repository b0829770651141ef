(** Vocabulary of the property about NetCDF files shown as text (C77). *)
From Coq Require Import ZArith List Bool Ascii String.
From Verif Require Import Base F32 Text NetCdfModel.
Import ListNotations.
Open Scope Z_scope.

(** A line break is byte 10.  Texts of one line: names without a line break, and so the values of type char. *)
Definition one_line (b : list Z) : Prop := ~ In 10 b.
Definition plain_values (v : nc_values) : Prop := match v with CharValues l => one_line l | _ => True end.
Definition plain_attr (a : nc_attr) : Prop := one_line (attr_name a) /\ plain_values (attr_values a).
Definition plain_dim (d : nc_dim) : Prop := one_line (dim_name d).
Definition plain_var (v : nc_var) : Prop := one_line (var_name v) /\ Forall plain_attr (var_attrs v).
Definition plain_header (h : nc_header) : Prop := Forall plain_dim (h_dims h) /\ Forall plain_attr (h_attrs h) /\ Forall plain_var (h_vars h).

(** How floats are shown: different ones differently (Rust shows as many digits as are needed to read the same number back), without
    spaces and line breaks. *)
Definition telling {A} (show : A -> string) : Prop :=
  (forall a b, show a = show b -> a = b) /\ (forall a, contains " " (show a) = false /\ contains "010" (show a) = false).

(** The texts of the elements, each followed by a space. *)
Fixpoint spaced {A} (show : A -> string) (l : list A) : string :=
  match l with [] => ""%string | a :: r => (show a ++ " " ++ spaced show r)%string end.

(** ** The lines of the text *)

(** A line with a name and what is shown under it. *)
Definition field (name shown : string) : string := ("  " ++ name ++ ": " ++ shown)%string.
(** The lines, each ended by a line break. *)
Definition ended (lines : list string) : string := String.concat "" (map (fun l => l ++ String "010" EmptyString)%string lines).
(** What each part of a header is shown as; [utf8], [typ] and [vals] show bytes, types and values. *)
Section Lines.
  Variables (utf8 : list Z -> string) (typ : nc_type -> string) (vals : nc_values -> string).
  Definition count {A} (l : list A) : string := dec (Z.of_nat (List.length l)).
  Definition dim_lines (d : nc_dim) : list string := ["DIM:"; field "name" (utf8 (dim_name d)); field "length" (dec (dim_length d))]%string.
  Definition attr_lines (a : nc_attr) : list string :=
    ["ATTR:"; field "name" (utf8 (attr_name a)); field "type" (typ (attr_type a)); field "values" (vals (attr_values a))]%string.
  Definition var_lines (v : nc_var) : list string :=
    ["VAR:"; field "name" (utf8 (var_name v)); field "nc_type" (typ (var_type v)); field "size" (dec (var_size v)); field "begin" (dec (var_begin v));
     field "dim_ids" (spaced dec (var_dims v)); field "attributes" (count (var_attrs v))]%string ++ flat_map attr_lines (var_attrs v) ++ [""%string].
  Definition header_lines (h : nc_header) : list string :=
    ["HEADER:"; field "magic" (utf8 (h_magic h)); field "version" (dec (h_version h)); field "num_recs" (dec (h_num_recs h))]%string ++
    field "dim_list" (count (h_dims h)) :: flat_map dim_lines (h_dims h) ++ [""%string] ++
    field "att_list" (count (h_attrs h)) :: flat_map attr_lines (h_attrs h) ++ [""%string] ++
    field "var_list" (count (h_vars h)) :: flat_map var_lines (h_vars h) ++ [""%string].
End Lines.
(** The names of the types. *)
Definition type_names : list (nc_type * string) :=
  [(NcByte, "Byte"); (NcChar, "Char"); (NcShort, "Short"); (NcInt, "Int"); (NcFloat, "Float"); (NcDouble, "Double")]%string.
