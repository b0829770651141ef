(** Headers of NetCDF files up to a type number that the format does not know (C26). *)
From Coq Require Import ZArith List Bool.
From Verif Require Import Base Grib2Spec Utf8Spec NetCdfModel NetCdfSpec.
Import ListNotations.
Open Scope Z_scope.

Definition either (a b : encoding) : encoding := fun s => a s \/ b s.
(** Some well-formed thing, in front of the rest. *)
Definition some {A} (ok : A -> Prop) (f : A -> encoding) : encoding := fun s => exists a, ok a /\ f a s.

(** A type number other than 1 to 6. *)
Definition bad_type : encoding := some (fun c => fits32 c /\ ~ 1 <= c <= 6) (fun c => exactly (u32 c)).
(** A list up to an element that is bad: the tag, a number of elements that is larger than that of the good ones, these, and the bad one
    up to its type number. *)
Definition bad_list {A} (tag : Z) (ok : A -> Prop) (f : A -> encoding) (bad : encoding) : encoding :=
  some (fun '(n, l) => Z.of_nat (length l) < n < 2 ^ 32 /\ Forall ok l)
    (fun '(n, l) => exactly (u32 tag) +++ exactly (u32 n) +++ each f l +++ bad).
(** An attribute with a bad type: its name and the number. *)
Definition bad_attr : encoding := some name_ok name_enc +++ bad_type.
Definition bad_attrs : encoding := bad_list 12 attr_ok attr_enc bad_attr.
(** A variable with a bad attribute or a bad type. *)
Definition dims_enc (ds : list Z) : encoding := exactly (u32 (Z.of_nat (length ds))) +++ each (fun d => exactly (u32 d)) ds.
Definition bad_var : encoding :=
  some name_ok name_enc +++ some (list_ok fits32) dims_enc +++
  either bad_attrs (some (list_ok attr_ok) (list_enc 12 attr_enc) +++ bad_type).
(** A header with a bad global attribute or a bad variable. *)
Definition bad_header : encoding :=
  exactly [67; 68; 70; 2] +++ some fits32 (fun n => exactly (u32 n)) +++ some (list_ok dim_ok) (list_enc 10 dim_enc) +++
  either bad_attrs (some (list_ok attr_ok) (list_enc 12 attr_enc) +++ bad_list 11 var_ok var_enc bad_var).
