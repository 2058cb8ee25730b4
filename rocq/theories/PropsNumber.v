(** Property theorems C129: who allows the calls decided by their number.
    Generated statements; the proofs are in the files required below. *)
From Coq Require Import NArith ZArith String List Bool Lia.
From Verif Require Import Libc Machine Bpf SeccompRet Asm Vm Promises Filters Kernel World Testkit Spec NumberSpec Demo.
From Verif Require NumberFacts.
Import ListNotations.
Local Open Scope N_scope.

(** C129 *)
Theorem C129_who_allows_the_calls_decided_by_number :
  forall prof pid tid ps v prog d,
  filter_for prof pid tid ps v prog -> enforcing v -> native d ->
  (forall nrs who, In (nrs, who) by_number -> In (sd_nr d) nrs ->
     (proceeds prog d <-> exists p, In p who /\ In p ps)) /\
  (sd_nr d = SYS_exit -> proceeds prog d) /\
  (proceeds prog d -> sd_nr d = SYS_exit \/ In (sd_nr d) by_arguments \/
     exists nrs who, In (nrs, who) by_number /\ In (sd_nr d) nrs).
Proof. exact NumberFacts.c129. Qed.
Print Assumptions C129_who_allows_the_calls_decided_by_number.
(** readlink and readlinkat differ; statx, getdents64 and sendmsg are in no group, so nobody may use them. *)
Example C129_example :
  let f := built [WPath; TmpPath] Trap in
  filter_for Debug 100 101 [WPath; TmpPath] Trap f /\ native (call SYS_readlinkat 3 0x7000 0x8000 64 0) /\
  proceeds f (call SYS_readlinkat 3 0x7000 0x8000 64 0) /\ ~ proceeds f (call SYS_readlink 0x7000 0x8000 64 0 0) /\
  proceeds f (call SYS_unlink 0x7000 0 0 0 0) /\ ~ proceeds f (call SYS_rmdir 0x7000 0 0 0 0) /\
  proceeds f (call SYS_exit 0 0 0 0 0) /\ ~ proceeds f (call SYS_exit_group 0 0 0 0 0).
Proof. cbv zeta. unfold proceeds. concrete. Qed.
Example C129_example_nobody :
  forallb (fun n => negb (existsb (N.eqb n) (by_arguments ++ List.concat (map fst by_number))))
    [SYS_statx; SYS_getdents64; SYS_sendmsg; SYS_setsockopt; SYS_openat2; SYS_clone3; SYS_ptrace; SYS_clock_settime] = true /\
  length (by_arguments ++ List.concat (map fst by_number)) = 200%nat.
Proof. split; vm_compute; reflexivity. Qed.
