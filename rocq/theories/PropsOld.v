(** Property theorems C112: pledges on older kernels.
    Generated statements; the proofs are in the files required below. *)
From Coq Require Import NArith ZArith String List Bool Lia.
From Verif Require Import Libc Machine Bpf SeccompRet Asm Vm Promises Filters Kernel World Testkit Spec OldKernel Demo.
From Verif Require OldFacts.
Import ListNotations.
Local Open Scope N_scope.

(** C112 *)
Theorem C112_older_kernels_are_as_strict :
  forall prof pledges fs d,
  stack_of prof pledges fs -> Forall (fun i => small_payload (i_v i)) pledges -> native d ->
  (forall e, syscall_entry fs d = e -> e <> Proceed ->
     old_syscall_entry fs d = match e with Kill DeathProcess => Kill DeathThread | _ => e end) /\
  (syscall_entry fs d = Proceed ->
     Forall (fun i => granted (i_ps i) (i_pid i) (i_tid i) d \/ i_v i = Allow) pledges /\
       old_syscall_entry fs d = Proceed \/
     Exists (fun i => ~ granted (i_ps i) (i_pid i) (i_tid i) d /\ i_v i = Log) pledges /\
       old_syscall_entry fs d = Kill DeathThread).
Proof. exact OldFacts.c112. Qed.
Print Assumptions C112_older_kernels_are_as_strict.
(** KillProcess kills the thread, an error number stays, and a violation meant to be logged kills. *)
Example C112_example :
  let fs := [built [StdIO] (Errno 1); built [StdIO; RPath] Log; built [StdIO; RPath; WPath] KillProcess] in
  let both nr := (syscall_entry fs (call nr 0 0 0 0 0), old_syscall_entry fs (call nr 0 0 0 0 0)) in
  stack_of Debug [mkInst 100 101 [StdIO] (Errno 1); mkInst 100 101 [StdIO; RPath] Log;
                  mkInst 100 101 [StdIO; RPath; WPath] KillProcess] fs /\
  both SYS_read = (Proceed, Proceed) /\ both SYS_chdir = (Fake (-1), Fake (-1)) /\
  both SYS_fork = (Kill DeathProcess, Kill DeathThread) /\
  let fs' := [built [StdIO] Log] in
  syscall_entry fs' (call SYS_fork 0 0 0 0 0) = Proceed /\
  old_syscall_entry fs' (call SYS_fork 0 0 0 0 0) = Kill DeathThread.
Proof.
  cbv zeta. split; [repeat constructor; vm_compute; reflexivity|]. repeat split; vm_compute; reflexivity.
Qed.

(** C112 *)
Theorem C112_foreign_calls_on_older_kernels :
  forall prof pid tid ps v prog fs d,
  filter_for prof pid tid ps v prog -> In prog fs -> wf_data d -> sd_arch d <> X86_64 ->
  old_syscall_entry fs d = Kill DeathThread.
Proof. exact OldFacts.c112_foreign. Qed.
Print Assumptions C112_foreign_calls_on_older_kernels.
Example C112_foreign_example :
  let d := mkSD 3 0x40000003 0x8048000 0 0 0 0 0 0 in
  wf_data d /\ old_syscall_entry [built [StdIO; Proc] Log; built [] Allow] d = Kill DeathThread.
Proof. cbv zeta. split; [repeat split|]; vm_compute; reflexivity. Qed.
