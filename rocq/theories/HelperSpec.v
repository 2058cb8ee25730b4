(** Notions for the properties of the test helpers. *)
From Coq Require Import NArith ZArith List Bool.
From Verif Require Import Libc Machine Bpf SeccompRet Vm Promises Kernel World Spec Helpers.
Import ListNotations.
Local Open Scope N_scope.

(** The call is one the promises grant. *)
Definition permitted (ps : list Promise) (pid tid : N) (d : seccomp_data) : Prop :=
  sd_arch d = X86_64 /\ granted ps pid tid d.

(** All calls the code can make are well-formed records. *)
Fixpoint calls_wf (c : childfn) : Prop :=
  match c with
  | Ret | Fault _ => True
  | Sys d k => wf_data d /\ forall z, calls_wf (k z)
  end.
(** The code never raises [sig] by itself. *)
Fixpoint never_raises (sig : N) (c : childfn) : Prop :=
  match c with
  | Ret => True
  | Fault s => s <> sig
  | Sys d k => forall z, never_raises sig (k z)
  end.
(** The code never returns: it ends with a call that ends the process. *)
Fixpoint never_returns (c : childfn) : Prop :=
  match c with
  | Ret => False
  | Fault _ => True
  | Sys d k => sd_nr d = SYS_exit \/ sd_nr d = SYS_exit_group \/ forall z, never_returns (k z)
  end.
