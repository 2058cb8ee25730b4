(** Property theorems C126, C127: exactly which network, task and limit calls are allowed.
    Generated statements; the proofs are in the files required below. *)
From Coq Require Import NArith ZArith String List Bool Lia.
From Verif Require Import Libc Machine Bpf SeccompRet Asm Vm Promises Filters Kernel World Testkit Spec Demo.
From Verif Require SockFacts.
Import ListNotations.
Local Open Scope N_scope.

(** C126 *)
Theorem C126_exactly_which_network_calls_are_allowed :
  forall prof pid tid ps v prog d,
  filter_for prof pid tid ps v prog -> enforcing v -> native d ->
  let arg a := a d mod 2 ^ 32 in
  let types := [1; 2; 0x801; 0x802; 0x80001; 0x80002; 0x80801; 0x80802] in
  (sd_nr d = SYS_socket ->
   (proceeds prog d <->
    (In Inet ps \/ In Dns ps) /\ In (arg sd_a0) [2; 10] /\ In (arg sd_a1) types /\ In (arg sd_a2) [0; 1; 6; 17] \/
    In Unix ps /\ arg sd_a0 = 1 /\ In (arg sd_a1) types /\ arg sd_a2 = 0)) /\
  (sd_nr d = SYS_getsockopt ->
   (proceeds prog d <-> (In Inet ps \/ In Unix ps) /\ In (arg sd_a1) [0; 1; 6] /\
      In (arg sd_a2) [1; 2; 3; 4; 5; 9; 11; 12; 15; 20; 21; 23; 30])) /\
  (sd_nr d = SYS_sendto ->
   (proceeds prog d <-> In StdIO ps /\ sd_a4 d = 0 \/ In Inet ps \/ In Unix ps \/ In Dns ps)) /\
  (In (sd_nr d) [SYS_connect; SYS_bind] -> (proceeds prog d <-> In Inet ps \/ In Unix ps \/ In Dns ps)) /\
  (In (sd_nr d) [SYS_accept; SYS_accept4; SYS_listen; SYS_getsockname; SYS_getpeername] ->
   (proceeds prog d <-> In Inet ps \/ In Unix ps)) /\
  (In (sd_nr d) [SYS_shutdown; SYS_socketpair] -> (proceeds prog d <-> In StdIO ps)) /\
  (sd_nr d = SYS_recvfrom -> (proceeds prog d <-> In StdIO ps \/ In Dns ps)) /\
  (In (sd_nr d) [SYS_recvmsg; SYS_recvmmsg] -> (proceeds prog d <-> In SendFd ps \/ In RecvFd ps)) /\
  ~ (In (sd_nr d) [SYS_setsockopt; SYS_sendmsg; SYS_sendmmsg] /\ proceeds prog d).
Proof. exact SockFacts.c126. Qed.
Print Assumptions C126_exactly_which_network_calls_are_allowed.
(** An Inet pledge can make a nonblocking TCP socket and read its error, but neither a raw one nor set an option. *)
Example C126_example :
  let f := built [Inet] Trap in
  filter_for Debug 100 101 [Inet] Trap f /\ native (call SYS_socket 2 0x801 6 0 0) /\
  proceeds f (call SYS_socket 2 0x801 6 0 0) /\ ~ proceeds f (call SYS_socket 2 3 1 0 0) /\
  ~ proceeds f (call SYS_socket 1 1 0 0 0) /\ ~ proceeds f (call SYS_socket 2 0x1801 6 0 0) /\
  proceeds f (call SYS_getsockopt 3 1 4 0x7000 0x7004) /\ ~ proceeds f (call SYS_getsockopt 3 1 7 0x7000 0x7004) /\
  ~ proceeds f (call SYS_setsockopt 3 1 2 0x7000 4).
Proof. cbv zeta. unfold proceeds. concrete. Qed.
Example C126_example_stdio :
  let f := built [StdIO] Trap in
  filter_for Debug 100 101 [StdIO] Trap f /\ proceeds f (call SYS_sendto 3 0x7000 10 0 0) /\
  ~ proceeds f (call SYS_sendto 3 0x7000 10 0 0x8000) /\ ~ proceeds f (call SYS_sendto 3 0x7000 10 0 (2 ^ 32)) /\
  proceeds f (call SYS_recvfrom 3 0x7000 10 0 0x8000) /\ ~ proceeds f (call SYS_recvmsg 3 0x7000 0 0 0).
Proof. cbv zeta. unfold proceeds. concrete. Qed.

(** C127 *)
Theorem C127_exactly_which_task_and_limit_calls_are_allowed :
  forall prof pid tid ps v prog d,
  filter_for prof pid tid ps v prog -> enforcing v -> native d ->
  (sd_nr d = SYS_clone ->
   (proceeds prog d <-> bits_off [13; 17; 23] (sd_a0 d) /\
      (In Proc ps \/ In StdIO ps /\ Forall (fun n => N.testbit (sd_a0 d) n = true) [8; 9; 10; 11; 16]))) /\
  (In (sd_nr d) [SYS_fork; SYS_vfork] -> (proceeds prog d <-> In Proc ps)) /\
  (In (sd_nr d) [SYS_execve; SYS_execveat] -> (proceeds prog d <-> In Exec ps)) /\
  (sd_nr d = SYS_prlimit64 ->
   (proceeds prog d <-> In StdIO ps /\ sd_a2 d mod 2 ^ 32 = 0 \/ In Proc ps \/ In Id ps)) /\
  (sd_nr d = SYS_setrlimit -> (proceeds prog d <-> In Proc ps \/ In Id ps)) /\
  (sd_nr d = SYS_getrlimit -> (proceeds prog d <-> In StdIO ps)) /\
  ~ (In (sd_nr d) [SYS_clone3; SYS_unshare; SYS_setns] /\ proceeds prog d).
Proof. exact SockFacts.c127. Qed.
Print Assumptions C127_exactly_which_task_and_limit_calls_are_allowed.
(** Under StdIO, the flags with which threads are created (0x3d0f00) and reading limits, but not fork; the check of
    prlimit sees only the lower half of the pointer. *)
Example C127_example :
  let f := built [StdIO] Trap in
  filter_for Debug 100 101 [StdIO] Trap f /\ native (call SYS_clone 0x3d0f00 0x7000 0 0 0) /\
  proceeds f (call SYS_clone 0x3d0f00 0x7000 0 0 0) /\ ~ proceeds f (call SYS_clone 0x1200011 0 0 0 0) /\
  ~ proceeds f (call SYS_clone 0x3d2f00 0x7000 0 0 0) /\ ~ proceeds f (call SYS_fork 0 0 0 0 0) /\
  proceeds f (call SYS_prlimit64 0 7 0 0x7000 0) /\ ~ proceeds f (call SYS_prlimit64 0 7 0x7000 0 0) /\
  proceeds f (call SYS_prlimit64 0 7 (2 ^ 32) 0 0) /\ ~ proceeds f (call SYS_setrlimit 7 0x7000 0 0 0).
Proof. cbv zeta. unfold proceeds. concrete. Qed.
Example C127_example_proc :
  let f := built [Proc; Exec] Trap in
  filter_for Debug 100 101 [Proc; Exec] Trap f /\ proceeds f (call SYS_clone 0x1200011 0 0 0 0) /\
  ~ proceeds f (call SYS_clone 0x20011 0 0 0 0) /\ proceeds f (call SYS_clone 0x10000011 0 0 0 0) /\
  proceeds f (call SYS_vfork 0 0 0 0 0) /\ proceeds f (call SYS_execve 0x7000 0 0 0 0) /\
  proceeds f (call SYS_prlimit64 0 7 0x7000 0 0) /\ ~ proceeds f (call SYS_clone3 0x7000 88 0 0 0).
Proof. cbv zeta. unfold proceeds. concrete. Qed.
