(** Property theorems C130: exactly when two pledges leave more than exit.
    Generated statements; the proofs are in the files required below. *)
From Coq Require Import NArith ZArith String List Bool Lia.
From Verif Require Import Libc Machine Bpf SeccompRet Asm Vm Promises Filters Kernel World Testkit Spec MeetSpec Demo.
From Verif Require MeetFacts.
Import ListNotations.
Local Open Scope N_scope.

(** C130 *)
Theorem C130_when_two_pledges_leave_more_than_exit :
  forall prof prof' pid tid pid' tid' ps qs v v' f f',
  filter_for prof pid tid ps v f -> filter_for prof' pid' tid' qs v' f' -> enforcing v -> enforcing v' ->
  ((exists d, native d /\ sd_nr d <> SYS_exit /\ syscall_entry [f'; f] d = Proceed) <->
   exists p q, In p ps /\ In q qs /\ meet p q).
Proof. exact MeetFacts.c130. Qed.
Print Assumptions C130_when_two_pledges_leave_more_than_exit.
(** RPath and CPath have opening for reading in common; StdIO and Tty both allow ioctl, but of different kinds. *)
Example C130_example :
  let f := built [StdIO; RPath] Trap in let f' := built [Tty; CPath] (Errno 1) in
  filter_for Debug 100 101 [StdIO; RPath] Trap f /\ filter_for Debug 100 101 [Tty; CPath] (Errno 1) f' /\
  syscall_entry [f'; f] (call SYS_openat 0xffffff9c 0x7000 0 0 0) = Proceed /\
  syscall_entry [f'; f] (call SYS_openat 0xffffff9c 0x7000 0x41 0x1ff 0) = Kill DeathSigsys /\
  syscall_entry [f'; f] (call SYS_ioctl 0 0x541b 0x7000 0 0) = Fake (-1) /\
  meet RPath CPath /\ ~ meet StdIO Tty.
Proof.
  cbv zeta. repeat (apply conj); try (vm_compute; reflexivity).
  - right. left. cbn. tauto.
  - intros [[H _]|[H|H]]; [discriminate H| |]; cbn in H; intuition discriminate.
Qed.

(** C130 *)
Theorem C130_after_pledging_stdio :
  forall prof prof' pid tid pid' tid' qs v v' f f',
  filter_for prof pid tid [StdIO] v f -> filter_for prof' pid' tid' qs v' f' -> enforcing v -> enforcing v' ->
  ((exists d, native d /\ sd_nr d <> SYS_exit /\ syscall_entry [f'; f] d = Proceed) <->
   exists q, In q qs /\ In q [StdIO; RPath; WPath; Inet; Unix; Dns; Proc; Id; ProtExec; VmInfo]).
Proof. exact MeetFacts.c130_stdio. Qed.
Print Assumptions C130_after_pledging_stdio.
Example C130_example_stdio :
  let f := built [StdIO] Trap in let f' := built [Tty; FLock; CPath; Exec] Trap in let g := built [Tty; Id] Trap in
  filter_for Debug 100 101 [StdIO] Trap f /\ filter_for Debug 100 101 [Tty; FLock; CPath; Exec] Trap f' /\
  syscall_entry [f'; f] (call SYS_fcntl 0 5 0x7000 0 0) <> Proceed /\ syscall_entry [f] (call SYS_fcntl 0 4 0x7000 0 0) = Proceed /\
  syscall_entry [f'; f] (call SYS_fcntl 0 4 0x7000 0 0) <> Proceed /\ syscall_entry [f'; f] (call SYS_exit 0 0 0 0 0) = Proceed /\
  syscall_entry [g; f] (call SYS_prlimit64 0 7 0 0x7000 0) = Proceed.
Proof. cbv zeta. repeat (apply conj); vm_compute; first [reflexivity|discriminate]. Qed.
