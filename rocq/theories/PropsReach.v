(** Property theorems C98-C101: what some pledge can reach.
    Generated statements; the proofs are in the files required below. *)
From Coq Require Import NArith ZArith String List Bool Lia.
From Verif Require Import Libc Machine Bpf SeccompRet Asm Vm Promises Filters Kernel World Testkit Spec Demo.
From Verif Require ReachFacts.
Import ListNotations.
Local Open Scope N_scope.

(** C98 *)
Theorem C98_new_namespaces_refuted :
  forall prof pid tid ps v prog flag,
  filter_for prof pid tid ps v prog -> In Proc ps ->
  In flag namespace_flags -> flag <> CLONE_NEWNS ->
  exists d, native d /\ sd_nr d = SYS_clone /\ has flag (sd_a0 d) /\ proceeds prog d.
Proof. exact ReachFacts.c98_refuted. Qed.
Print Assumptions C98_new_namespaces_refuted.
Example C98_example :
  filter_for Debug 100 101 [StdIO; Proc] Trap (built [StdIO; Proc] Trap) /\ native (call SYS_clone 0x10000011 0 0 0 0) /\
  proceeds (built [StdIO; Proc] Trap) (call SYS_clone 0x10000011 0 0 0 0).
Proof. unfold proceeds. concrete. Qed.

(** C98 *)
Theorem C98_other_ways_into_namespaces_partial :
  forall prof pid tid ps v prog d,
  filter_for prof pid tid ps v prog -> enforcing v -> native d -> proceeds prog d ->
  sd_nr d <> SYS_unshare /\ sd_nr d <> SYS_setns /\ sd_nr d <> SYS_clone3 /\
  (sd_nr d = SYS_clone -> clear CLONE_NEWNS (sd_a0 d) /\ (has CLONE_THREAD (sd_a0 d) \/ In Proc ps)).
Proof. exact ReachFacts.c98_partial. Qed.
Print Assumptions C98_other_ways_into_namespaces_partial.
Example C98_example_thread :
  filter_for Debug 100 101 [StdIO] Trap (built [StdIO] Trap) /\ native (call SYS_clone 0x3d0f00 0 0 0 0) /\
  proceeds (built [StdIO] Trap) (call SYS_clone 0x3d0f00 0 0 0 0).
Proof. unfold proceeds. concrete. Qed.
Example C98_example_refused :
  filter_for Debug 100 101 [StdIO] Trap (built [StdIO] Trap) /\ native (call SYS_clone 0x10000011 0 0 0 0) /\
  ~ proceeds (built [StdIO] Trap) (call SYS_clone 0x10000011 0 0 0 0).
Proof. unfold proceeds. concrete. Qed.

(** C99 *)
Theorem C99_migrate_pages_refuted :
  forall prof pid tid ps v prog other,
  filter_for prof pid tid ps v prog -> In StdIO ps -> other < 2 ^ 64 ->
  exists d, native d /\ sd_nr d = SYS_migrate_pages /\ sd_a0 d = other /\ proceeds prog d.
Proof. exact ReachFacts.c99_refuted. Qed.
Print Assumptions C99_migrate_pages_refuted.
Example C99_example :
  filter_for Debug 100 101 [StdIO] Trap (built [StdIO] Trap) /\ native (call SYS_migrate_pages 1 0 0 0 0) /\
  proceeds (built [StdIO] Trap) (call SYS_migrate_pages 1 0 0 0 0).
Proof. unfold proceeds. concrete. Qed.

(** C99 *)
Theorem C99_exactly_which_targets_partial :
  forall prof pid tid ps v prog d,
  filter_for prof pid tid ps v prog -> enforcing v -> native d -> ~ In Proc ps ->
  In (sd_nr d) target_calls ->
  (proceeds prog d <->
   In StdIO ps /\
     (sd_nr d = SYS_kill /\ sd_a0 d mod 2 ^ 32 = pid \/
      sd_nr d = SYS_tkill /\ sd_a0 d mod 2 ^ 32 = tid mod 2 ^ 32 \/
      sd_nr d = SYS_prlimit64 /\ sd_a2 d mod 2 ^ 32 = 0 \/
      In (sd_nr d) [SYS_migrate_pages; SYS_get_robust_list; SYS_getpgid; SYS_getsid;
                    SYS_sched_getaffinity]) \/
   In Id ps /\ In (sd_nr d) [SYS_prlimit64; SYS_getpriority; SYS_setpriority]).
Proof. exact ReachFacts.c99_partial. Qed.
Print Assumptions C99_exactly_which_targets_partial.
Example C99_example_own :
  filter_for Debug 100 101 [StdIO] Trap (built [StdIO] Trap) /\ native (call SYS_prlimit64 1 7 0 0x7000 0) /\
  proceeds (built [StdIO] Trap) (call SYS_prlimit64 1 7 0 0x7000 0).
Proof. unfold proceeds. concrete. Qed.
Example C99_example_refused :
  filter_for Debug 100 101 [StdIO] Trap (built [StdIO] Trap) /\ native (call SYS_setpriority 0 1 0 0 0) /\
  ~ proceeds (built [StdIO] Trap) (call SYS_setpriority 0 1 0 0 0).
Proof. unfold proceeds. concrete. Qed.

(** C100 *)
Theorem C100_promises_some_call_needs :
  forall p,
  (exists d, native d /\ forall prof pid tid ps v prog,
     filter_for prof pid tid ps v prog -> enforcing v -> (proceeds prog d <-> In p ps)) <->
  ~ In p [Default; Dns; RecvFd; SendFd; VmInfo; TmpPath].
Proof. exact ReachFacts.c100. Qed.
Print Assumptions C100_promises_some_call_needs.
Example C100_example :
  ~ In Proc [Default; Dns; RecvFd; SendFd; VmInfo; TmpPath] /\
  proceeds (built [Proc] Trap) (call SYS_fork 0 0 0 0 0) /\
  ~ proceeds (built [Default; StdIO; RPath; WPath; CPath; DPath; FLock; FAttr; Inet; Unix; Dns; Tty;
                     RecvFd; SendFd; Id; Chown; SetTime; ProtExec; Exec; VmInfo; TmpPath; Unveil] Trap)
             (call SYS_fork 0 0 0 0 0).
Proof. unfold proceeds. concrete. Qed.

(** C100 *)
Theorem C100_replaceable_promises :
  forall prof pid tid p qs ps v prog prog' d,
  In (p, qs) replacements ->
  filter_for prof pid tid (p :: ps) v prog -> filter_for prof pid tid (qs ++ ps) v prog' ->
  enforcing v -> native d -> proceeds prog d -> proceeds prog' d.
Proof. exact ReachFacts.c100_replace. Qed.
Print Assumptions C100_replaceable_promises.
Example C100_replace_example :
  let d := call SYS_openat 0xffffff9c 0x7000 0x80000 0 0 in
  In (Dns, [StdIO; RPath; Inet]) replacements /\
  filter_for Debug 100 101 [Dns; Tty] Trap (built [Dns; Tty] Trap) /\
  filter_for Debug 100 101 ([StdIO; RPath; Inet] ++ [Tty]) Trap (built ([StdIO; RPath; Inet] ++ [Tty]) Trap) /\
  native d /\ proceeds (built [Dns; Tty] Trap) d /\ proceeds (built ([StdIO; RPath; Inet] ++ [Tty]) Trap) d /\
  ~ proceeds (built [Tty] Trap) d.
Proof. cbv zeta. unfold proceeds. split; [cbn; tauto|]. concrete. Qed.

(** C101 *)
Theorem C101_exactly_which_calls_are_reachable :
  forall n,
  (exists prof pid tid ps v prog d, filter_for prof pid tid ps v prog /\ enforcing v /\ native d /\
     sd_nr d = n /\ proceeds prog d) <->
  exists a b, In (a, b) reachable_calls /\ a <= n <= b.
Proof. exact ReachFacts.c101. Qed.
Print Assumptions C101_exactly_which_calls_are_reachable.
Example C101_example :
  (exists a b, In (a, b) reachable_calls /\ a <= SYS_socket <= b) /\
  ~ (exists a b, In (a, b) reachable_calls /\ a <= SYS_statx <= b) /\
  (let f := built [Inet] Trap in let d := call SYS_socket 2 1 0 0 0 in
   filter_for Debug 100 101 [Inet] Trap f /\ native d /\ proceeds f d).
Proof.
  split; [exists 32, 45; split; [cbn; tauto|split; discriminate]|]. split.
  - intros (a & b & H & L). cbn [reachable_calls In] in H.
    repeat (destruct H as [H|H]; [injection H as <- <-; destruct L as [L M]; vm_compute in L, M; congruence|]).
    destruct H.
  - cbv zeta. unfold proceeds. concrete.
Qed.
