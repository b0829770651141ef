(** The property that every call ends (C93). *)
From Coq Require Import String ZArith List Bool Lia.
From Verif Require Import Base F32 Par ForecastModel FetchModel DwdModel SwissModel CliModel CliProperties ArgsModel EndsSpec EndsProofs.
Import ListNotations.
Open Scope Z_scope.

(** C93.  With servers that answer each request by something (whatever the files contain, or an error) every call ends, with any
    arguments, mathematical functions, dates and failures of the disk. *)
Theorem C93_main : forall w a, answering w -> exists tr printed code, main w a tr printed code.
Proof. exact c93_main_proof. Qed.
Print Assumptions C93_main.
(** C93.  The same for every command line, also one that is not understood. *)
Theorem C93_program : forall w args, answering w -> exists tr printed code, program w args tr printed code.
Proof. exact c93_program_proof. Qed.
Print Assumptions C93_program.

(** Servers that answer each request by the same bytes, or by an error: nothing is read, but all calls end. *)
Definition nonsense : world :=
  {| wo_chk := false; wo_powi := wo_powi offline; wo_libm := wo_libm offline; wo_faulty := true; wo_fetch := fun _ o => o = Ok [71; 82; 73; 66; 0] \/ o = Err EIo;
     wo_heads := fun _ _ => Some 200; wo_today := wo_today offline; wo_today' := wo_today offline;
     wo_service := {| sv_search := fun _ o => o = Ok []; sv_assets := fun o => o = Ok []; sv_fetch := fun _ o => o = Ok [0] |};
     wo_rfc3339 := wo_rfc3339 offline; wo_text := wo_text offline |}.
Example C93_sample : answering nonsense /\ answering offline /\ parse_line ["-m"; "icon-d2"; "-s"; "5"]%string = Call (call "icon-d2" [] [5]).
Proof.
  split; [repeat split; try (intro); eexists; cbn; try (left; reflexivity); reflexivity|].
  split; [repeat split; try (intro); eexists; reflexivity|]. vm_compute. reflexivity.
Qed.
