(** Property theorems C53-C64: which promise a capability needs.
    Generated statements; the proofs are in the files required below. *)
From Coq Require Import NArith ZArith String List Bool Lia.
From Verif Require Import Libc Machine Bpf SeccompRet Asm Vm Promises Filters Kernel World Testkit Spec Demo.
From Verif Require NeedFacts.
Import ListNotations.
Local Open Scope N_scope.

(** C53 *)
Theorem C53_capabilities_of_one_promise :
  forall prof pid tid ps v prog d p calls,
  filter_for prof pid tid ps v prog -> enforcing v -> native d ->
  In (p, calls) exclusive -> In (sd_nr d) calls ->
  proceeds prog d <-> In p ps.
Proof. exact NeedFacts.c53. Qed.
Print Assumptions C53_capabilities_of_one_promise.
Example C53_example :
  filter_for Debug 100 101 [Chown] KillProcess (built [Chown] KillProcess) /\ native (call SYS_fchownat 1 2 3 4 5) /\
  proceeds (built [Chown] KillProcess) (call SYS_fchownat 1 2 3 4 5).
Proof. unfold proceeds. concrete. Qed.
Example C53_example_refused :
  filter_for Debug 100 101 [StdIO; Proc; Id; FAttr; WPath] KillProcess (built [StdIO; Proc; Id; FAttr; WPath] KillProcess) /\ native (call SYS_fchownat 1 2 3 4 5) /\
  ~ proceeds (built [StdIO; Proc; Id; FAttr; WPath] KillProcess) (call SYS_fchownat 1 2 3 4 5).
Proof. unfold proceeds. concrete. Qed.

(** C54 *)
Theorem C54_order_of_promises :
  forall p q,
  grants_at_least p q <->
  p = q \/ q = Default \/ (p = SendFd /\ q = RecvFd) \/ (p = RecvFd /\ q = SendFd) \/
  (p = StdIO /\ q = VmInfo).
Proof. exact NeedFacts.c54. Qed.
Print Assumptions C54_order_of_promises.
Example C54_example :
  granted [VmInfo] 1 1 (call SYS_sched_yield 0 0 0 0 0) /\ granted [StdIO] 1 1 (call SYS_sched_yield 0 0 0 0 0).
Proof.
  split.
  - exists [(AnyArgs, [StdIO; VmInfo])], AnyArgs, [StdIO; VmInfo], VmInfo. cbn. tauto.
  - exists [(AnyArgs, [StdIO; VmInfo])], AnyArgs, [StdIO; VmInfo], StdIO. cbn. tauto.
Qed.

(** C55 *)
Theorem C55_paths_need_path_promises :
  forall prof pid tid ps v prog d,
  filter_for prof pid tid ps v prog -> enforcing v -> native d -> proceeds prog d ->
  In (sd_nr d) path_calls -> exists p, In p path_promises /\ In p ps.
Proof. exact NeedFacts.c55. Qed.
Print Assumptions C55_paths_need_path_promises.
Example C55_example :
  filter_for Debug 100 101 [StdIO; DPath] Trap (built [StdIO; DPath] Trap) /\ native (call SYS_mknod 1 2 3 4 5) /\
  proceeds (built [StdIO; DPath] Trap) (call SYS_mknod 1 2 3 4 5) /\ In SYS_mknod path_calls.
Proof. unfold proceeds. concrete. Qed.
Example C55_example_refused :
  filter_for Debug 100 101 [StdIO; Inet; Unix; Proc; Id; Tty; RecvFd; SendFd; ProtExec; VmInfo; FLock; SetTime; Unveil] KillProcess (built [StdIO; Inet; Unix; Proc; Id; Tty; RecvFd; SendFd; ProtExec; VmInfo; FLock; SetTime; Unveil] KillProcess) /\ native (call SYS_openat 0 0 0 0 0) /\
  ~ proceeds (built [StdIO; Inet; Unix; Proc; Id; Tty; RecvFd; SendFd; ProtExec; VmInfo; FLock; SetTime; Unveil] KillProcess) (call SYS_openat 0 0 0 0 0).
Proof. unfold proceeds. concrete. Qed.

(** C56 *)
Theorem C56_no_sockets_without_network_promises :
  forall prof pid tid ps v prog d,
  filter_for prof pid tid ps v prog -> enforcing v -> native d -> proceeds prog d ->
  ~ In Inet ps -> ~ In Unix ps -> ~ In Dns ps ->
  ~ In (sd_nr d) socket_calls /\ (sd_nr d = SYS_sendto -> sd_a4 d = 0).
Proof. exact NeedFacts.c56. Qed.
Print Assumptions C56_no_sockets_without_network_promises.
Example C56_example :
  filter_for Debug 100 101 [StdIO; RPath] (Errno 1) (built [StdIO; RPath] (Errno 1)) /\ native (call SYS_sendto 3 4 5 0 0) /\
  proceeds (built [StdIO; RPath] (Errno 1)) (call SYS_sendto 3 4 5 0 0).
Proof. unfold proceeds. concrete. Qed.
Example C56_example_refused :
  filter_for Debug 100 101 [StdIO; RPath] (Errno 1) (built [StdIO; RPath] (Errno 1)) /\ native (call SYS_sendto 3 4 5 0 (2 ^ 40)) /\
  ~ proceeds (built [StdIO; RPath] (Errno 1)) (call SYS_sendto 3 4 5 0 (2 ^ 40)).
Proof. unfold proceeds. concrete. Qed.

(** C57 *)
Theorem C57_exit_group_refuted :
  forall prof pid tid ps v prog d,
  filter_for prof pid tid ps v prog -> enforcing v -> native d -> sd_nr d = SYS_exit_group ->
  ~ In StdIO ps -> ~ proceeds prog d.
Proof. exact NeedFacts.c57_refuted. Qed.
Print Assumptions C57_exit_group_refuted.
Example C57_example :
  filter_for Debug 100 101 [RPath; WPath; Exec] KillProcess (built [RPath; WPath; Exec] KillProcess) /\ native (call SYS_exit_group 0 0 0 0 0) /\
  ~ proceeds (built [RPath; WPath; Exec] KillProcess) (call SYS_exit_group 0 0 0 0 0).
Proof. unfold proceeds. concrete. Qed.

(** C57 *)
Theorem C57_exit_group_needs_stdio_partial :
  forall prof pid tid ps v prog d,
  filter_for prof pid tid ps v prog -> enforcing v -> native d ->
  (sd_nr d = SYS_exit_group -> (proceeds prog d <-> In StdIO ps)) /\ (sd_nr d = SYS_exit -> proceeds prog d).
Proof. exact NeedFacts.c57_partial. Qed.
Print Assumptions C57_exit_group_needs_stdio_partial.
Example C57_partial_example :
  filter_for Debug 100 101 [StdIO; Exec] KillProcess (built [StdIO; Exec] KillProcess) /\ native (call SYS_exit_group 0 0 0 0 0) /\
  proceeds (built [StdIO; Exec] KillProcess) (call SYS_exit_group 0 0 0 0 0).
Proof. unfold proceeds. concrete. Qed.

(** C58 *)
Theorem C58_directory_listing_refuted :
  forall prof pid tid ps v prog d,
  filter_for prof pid tid ps v prog -> enforcing v -> native d -> sd_nr d = SYS_getdents64 ->
  ~ proceeds prog d.
Proof. exact NeedFacts.c58_refuted. Qed.
Print Assumptions C58_directory_listing_refuted.
Example C58_example :
  filter_for Debug 100 101 [StdIO; RPath; WPath; CPath] KillProcess (built [StdIO; RPath; WPath; CPath] KillProcess) /\ native (call SYS_getdents64 3 0x7000 1024 0 0) /\
  ~ proceeds (built [StdIO; RPath; WPath; CPath] KillProcess) (call SYS_getdents64 3 0x7000 1024 0 0).
Proof. unfold proceeds. concrete. Qed.

(** C58 *)
Theorem C58_old_getdents_needs_rpath_partial :
  forall prof pid tid ps v prog d,
  filter_for prof pid tid ps v prog -> enforcing v -> native d -> sd_nr d = SYS_getdents ->
  (proceeds prog d <-> In RPath ps).
Proof. exact NeedFacts.c58_partial. Qed.
Print Assumptions C58_old_getdents_needs_rpath_partial.
Example C58_partial_example :
  filter_for Debug 100 101 [StdIO; RPath] KillProcess (built [StdIO; RPath] KillProcess) /\ native (call SYS_getdents 3 0x7000 1024 0 0) /\
  proceeds (built [StdIO; RPath] KillProcess) (call SYS_getdents 3 0x7000 1024 0 0).
Proof. unfold proceeds. concrete. Qed.

(** C59 *)
Theorem C59_cpath_opens_for_writing_refuted :
  forall prof pid tid ps v prog d,
  filter_for prof pid tid ps v prog -> native d -> sd_nr d = SYS_openat ->
  clear O_CREAT (sd_a2 d) -> clear (2 ^ 22) (sd_a2 d) -> In CPath ps -> proceeds prog d.
Proof. exact NeedFacts.c59_refuted. Qed.
Print Assumptions C59_cpath_opens_for_writing_refuted.
Example C59_example :
  filter_for Debug 100 101 [CPath] KillProcess (built [CPath] KillProcess) /\ native (call SYS_openat 0xffffff9c 0x7000 (O_RDWR + O_TRUNC) 0 0) /\
  proceeds (built [CPath] KillProcess) (call SYS_openat 0xffffff9c 0x7000 (O_RDWR + O_TRUNC) 0 0).
Proof. unfold proceeds. concrete. Qed.

(** C59 *)
Theorem C59_writing_needs_wpath_or_cpath_partial :
  forall prof pid tid ps v prog d,
  filter_for prof pid tid ps v prog -> enforcing v -> native d -> sd_nr d = SYS_openat ->
  clear O_CREAT (sd_a2 d) -> clear (2 ^ 22) (sd_a2 d) ->
  (N.land (sd_a2 d) O_ACCMODE = 1 \/ N.land (sd_a2 d) O_ACCMODE = 2) ->
  (proceeds prog d <-> In WPath ps \/ In CPath ps).
Proof. exact NeedFacts.c59_partial. Qed.
Print Assumptions C59_writing_needs_wpath_or_cpath_partial.
Example C59_partial_example :
  filter_for Debug 100 101 [StdIO; RPath; Dns; TmpPath] KillProcess (built [StdIO; RPath; Dns; TmpPath] KillProcess) /\ native (call SYS_openat 0xffffff9c 0x7000 O_WRONLY 0 0) /\
  ~ proceeds (built [StdIO; RPath; Dns; TmpPath] KillProcess) (call SYS_openat 0xffffff9c 0x7000 O_WRONLY 0 0).
Proof. unfold proceeds. concrete. Qed.

(** C60 *)
Theorem C60_dns_reads_files_refuted :
  forall prof pid tid ps v prog d,
  filter_for prof pid tid ps v prog -> native d -> In Dns ps ->
  (sd_nr d = SYS_openat /\ read_only (sd_a2 d)) \/ sd_nr d = SYS_read -> proceeds prog d.
Proof. exact NeedFacts.c60_refuted. Qed.
Print Assumptions C60_dns_reads_files_refuted.
Example C60_example :
  filter_for Debug 100 101 [Dns] KillProcess (built [Dns] KillProcess) /\ native (call SYS_openat 0xffffff9c 0x7000 0 0 0) /\
  proceeds (built [Dns] KillProcess) (call SYS_openat 0xffffff9c 0x7000 0 0 0) /\ read_only 0.
Proof. unfold proceeds. concrete. Qed.

(** C60 *)
Theorem C60_reading_needs_rpath_dns_or_cpath_partial :
  forall prof pid tid ps v prog d,
  filter_for prof pid tid ps v prog -> enforcing v -> native d -> sd_nr d = SYS_openat ->
  read_only (sd_a2 d) ->
  (proceeds prog d <-> In RPath ps \/ In Dns ps \/ In CPath ps).
Proof. exact NeedFacts.c60_partial. Qed.
Print Assumptions C60_reading_needs_rpath_dns_or_cpath_partial.
Example C60_partial_example :
  filter_for Debug 100 101 [StdIO; WPath; TmpPath] KillProcess (built [StdIO; WPath; TmpPath] KillProcess) /\ native (call SYS_openat 0xffffff9c 0x7000 0 0 0) /\
  ~ proceeds (built [StdIO; WPath; TmpPath] KillProcess) (call SYS_openat 0xffffff9c 0x7000 0 0 0).
Proof. unfold proceeds. concrete. Qed.

(** C61 *)
Theorem C61_other_thread_signals_itself_refuted :
  forall prof pid tid ps v prog d self,
  filter_for prof pid tid ps v prog -> enforcing v -> native d -> ~ In Proc ps ->
  word self -> self <> lo32 tid -> sd_nr d = SYS_tkill -> sd_a0 d = self -> ~ proceeds prog d.
Proof. exact NeedFacts.c61_refuted. Qed.
Print Assumptions C61_other_thread_signals_itself_refuted.
Example C61_example :
  filter_for Debug 100 101 [StdIO; RPath] KillProcess (built [StdIO; RPath] KillProcess) /\ native (call SYS_tkill 102 6 0 0 0) /\
  ~ proceeds (built [StdIO; RPath] KillProcess) (call SYS_tkill 102 6 0 0 0).
Proof. unfold proceeds. concrete. Qed.

(** C61 *)
Theorem C61_pledging_thread_signals_itself_partial :
  forall prof pid tid ps v prog d,
  filter_for prof pid tid ps v prog -> native d -> In StdIO ps ->
  sd_nr d = SYS_tkill -> sd_a0 d = tid -> proceeds prog d.
Proof. exact NeedFacts.c61_partial. Qed.
Print Assumptions C61_pledging_thread_signals_itself_partial.
Example C61_partial_example :
  filter_for Debug 100 101 [StdIO; RPath] KillProcess (built [StdIO; RPath] KillProcess) /\ native (call SYS_tkill 101 6 0 0 0) /\
  proceeds (built [StdIO; RPath] KillProcess) (call SYS_tkill 101 6 0 0 0).
Proof. unfold proceeds. concrete. Qed.

(** C62 *)
Theorem C62_clock_settime_refuted :
  forall prof pid tid ps v prog d,
  filter_for prof pid tid ps v prog -> enforcing v -> native d -> sd_nr d = SYS_clock_settime ->
  ~ proceeds prog d.
Proof. exact NeedFacts.c62_refuted. Qed.
Print Assumptions C62_clock_settime_refuted.
Example C62_example :
  filter_for Debug 100 101 [StdIO; SetTime] KillProcess (built [StdIO; SetTime] KillProcess) /\ native (call SYS_clock_settime 0 0x7000 0 0 0) /\
  ~ proceeds (built [StdIO; SetTime] KillProcess) (call SYS_clock_settime 0 0x7000 0 0 0).
Proof. unfold proceeds. concrete. Qed.

(** C62 *)
Theorem C62_settimeofday_needs_settime_partial :
  forall prof pid tid ps v prog d,
  filter_for prof pid tid ps v prog -> enforcing v -> native d ->
  sd_nr d = SYS_settimeofday \/ sd_nr d = SYS_clock_adjtime ->
  (proceeds prog d <-> In SetTime ps).
Proof. exact NeedFacts.c62_partial. Qed.
Print Assumptions C62_settimeofday_needs_settime_partial.
Example C62_partial_example :
  filter_for Debug 100 101 [StdIO; SetTime] KillProcess (built [StdIO; SetTime] KillProcess) /\ native (call SYS_clock_adjtime 0 0x7000 0 0 0) /\
  proceeds (built [StdIO; SetTime] KillProcess) (call SYS_clock_adjtime 0 0x7000 0 0 0).
Proof. unfold proceeds. concrete. Qed.

(** C63 *)
Theorem C63_mknod_setuid_refuted :
  forall prof pid tid ps v prog d,
  filter_for prof pid tid ps v prog -> native d -> In DPath ps ->
  sd_nr d = SYS_mknod \/ sd_nr d = SYS_mknodat -> proceeds prog d.
Proof. exact NeedFacts.c63_refuted. Qed.
Print Assumptions C63_mknod_setuid_refuted.
Example C63_example :
  filter_for Debug 100 101 [DPath] KillProcess (built [DPath] KillProcess) /\ native (call SYS_mknod 0x7000 0x89ed 0 0 0) /\
  proceeds (built [DPath] KillProcess) (call SYS_mknod 0x7000 0x89ed 0 0 0) /\ has 0x800 0x89ed.
Proof. unfold proceeds. concrete. Qed.

(** C63 *)
Theorem C63_mknod_needs_dpath_partial :
  forall prof pid tid ps v prog d,
  filter_for prof pid tid ps v prog -> enforcing v -> native d -> ~ In DPath ps ->
  proceeds prog d -> sd_nr d <> SYS_mknod /\ sd_nr d <> SYS_mknodat.
Proof. exact NeedFacts.c63_partial. Qed.
Print Assumptions C63_mknod_needs_dpath_partial.
Example C63_partial_example :
  filter_for Debug 100 101 [CPath; StdIO] KillProcess (built [CPath; StdIO] KillProcess) /\ native (call SYS_mkdir 0x7000 0x1ff 0 0 0) /\
  proceeds (built [CPath; StdIO] KillProcess) (call SYS_mkdir 0x7000 0x1ff 0 0 0).
Proof. unfold proceeds. concrete. Qed.

(** C64 *)
Theorem C64_tmppath_makes_no_files_refuted :
  forall prof pid tid ps v prog d,
  filter_for prof pid tid ps v prog -> enforcing v -> native d ->
  (forall p, In p ps -> p = TmpPath \/ p = StdIO) ->
  In (sd_nr d) file_making ->
  ~ proceeds prog d.
Proof. exact NeedFacts.c64_refuted. Qed.
Print Assumptions C64_tmppath_makes_no_files_refuted.
Example C64_example :
  filter_for Debug 100 101 [StdIO; TmpPath] KillProcess (built [StdIO; TmpPath] KillProcess) /\ native (call SYS_openat 0xffffff9c 0x7000 0xc2 0x180 0) /\
  ~ proceeds (built [StdIO; TmpPath] KillProcess) (call SYS_openat 0xffffff9c 0x7000 0xc2 0x180 0).
Proof. unfold proceeds. concrete. Qed.

(** C64 *)
Theorem C64_what_tmppath_adds_partial :
  forall prof pid tid ps v prog prog' d,
  filter_for prof pid tid ps v prog -> filter_for prof pid tid (TmpPath :: ps) v prog' -> enforcing v -> native d ->
  (proceeds prog' d <-> proceeds prog d \/ In (sd_nr d) [6; 87; 263]).
Proof. exact NeedFacts.c64_partial. Qed.
Print Assumptions C64_what_tmppath_adds_partial.
Example C64_partial_example :
  filter_for Debug 100 101 [TmpPath; StdIO] KillProcess (built [TmpPath; StdIO] KillProcess) /\ native (call SYS_unlinkat 0xffffff9c 0x7000 0 0 0) /\
  proceeds (built [TmpPath; StdIO] KillProcess) (call SYS_unlinkat 0xffffff9c 0x7000 0 0 0).
Proof. unfold proceeds. concrete. Qed.
