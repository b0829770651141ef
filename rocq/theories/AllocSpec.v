(** The vocabulary of the property about the memory that readers take (C82). *)
From Coq Require Import ZArith List.
From Verif Require Import Base.
Import ListNotations.
Open Scope Z_scope.

(** The sum of the sizes of the buffers. *)
Definition total (sizes : list Z) : Z := fold_right Z.add 0 sizes.
Definition size (bs : bytes) : Z := Z.of_nat (length bs).
(** All buffers together take at most [k] bytes for each byte of the file, but for the last one, which may be one of at most [limit]
    bytes that the file announces and does not contain. *)
Definition within (k limit : Z) (file : Z) (sizes : list Z) : Prop :=
  Forall (fun n => 0 <= n) sizes /\
  exists filled last, sizes = (filled ++ last)%list /\ total filled <= k * file /\ (last = [] \/ exists n, last = [n] /\ n <= limit).
