(** Property theorems C14-C35: what a pledged process can do.
    Generated statements; the proofs are in the files required below. *)
From Coq Require Import NArith ZArith String List Bool Lia.
From Verif Require Import Libc Machine Bpf SeccompRet Asm Vm Promises Filters Kernel World Testkit Spec Demo.
From Verif Require PolicyFacts CodeProofs PledgeProofs.
Import ListNotations.
Local Open Scope N_scope.

(** C14 *)
Theorem C14_filter_always_builds :
  forall prof pid tid ps v,
  exists prog, promises_to_prog prof (mkEnv (Ok pid) (Ok tid)) ps v = Ok prog.
Proof. exact PolicyFacts.c14_build. Qed.
Print Assumptions C14_filter_always_builds.
Example C14_builds_example :
  exists prog, promises_to_prog Debug (mkEnv (Ok 5) (Ok 6)) [Default; Unveil; StdIO; StdIO] (Errno 0xffffffff) = Ok prog
    /\ length prog = 595%nat.
Proof. eexists. split; [vm_compute; reflexivity|]. vm_compute. reflexivity. Qed.

(** C14 *)
Theorem C14_pledge_fails_only_through_the_system :
  forall prof amb t ps v, 
  match fst (pledge_override prof amb t ps v) with
  | Ok _ | Died _ | Err (SysErr _) => True
  | Panic | Err (UndefinedPromise _) | Err (BPFErr _) => False
  end.
Proof. exact PledgeProofs.c14_pledge. Qed.
Print Assumptions C14_pledge_fails_only_through_the_system.
Example C14_example :
  fst (pledge_override Debug amb0 thread0 [StdIO; Exec] KillProcess) = Ok tt /\
  fst (pledge_override Debug amb0
         (set_filters thread0 [built [RPath] (Errno 13)]) [StdIO] KillProcess) = Err (SysErr 13) /\
  fst (pledge_override Debug amb0
         (set_filters thread0 [built [RPath] KillThread]) [StdIO] KillProcess) = Died DeathThread.
Proof. repeat split; vm_compute; reflexivity. Qed.

(** C15 *)
Theorem C15_allows_exactly_what_is_granted :
  forall prof pid tid ps v prog d,
  filter_for prof pid tid ps v prog -> native d ->
  (granted ps pid tid d -> kernel_eval prog d = SECCOMP_RET_ALLOW) /\
  (~ granted ps pid tid d -> kernel_eval prog d = ret_into v).
Proof. exact PolicyFacts.c15. Qed.
Print Assumptions C15_allows_exactly_what_is_granted.
Example C15_example :
  let ps := [StdIO; RPath] in
  filter_for Debug 100 101 ps (Errno 1) (built ps (Errno 1)) /\
  native (call SYS_openat 0 0 0 0 0) /\
  kernel_eval (built ps (Errno 1)) (call SYS_openat 0 0 0 0 0) = SECCOMP_RET_ALLOW /\
  kernel_eval (built ps (Errno 1)) (call SYS_openat 0 0 O_WRONLY 0 0) = ret_into (Errno 1).
Proof. concrete. Qed.

(** C15 *)
Theorem C15_same_verdict_in_the_vm :
  forall prof pid tid ps v prog vm d beyond mem,
  filter_for prof pid tid ps v prog -> vm_prog vm = prog ->
  forall prof', fst (vm_run prof' vm (any_to_data d beyond)) =
                Finished (Ok (kernel_eval_mem mem prog d)).
Proof. exact CodeProofs.c15_vm. Qed.
Print Assumptions C15_same_verdict_in_the_vm.
Example C15_vm_example : forall vm, vm_prog vm = built [Tty] Log ->
  fst (vm_run Debug vm (any_to_data (call SYS_ioctl 0 TCGETS 0 0 0) [])) = Finished (Ok SECCOMP_RET_ALLOW).
Proof. intros [p a i m pr] H. cbn [vm_prog] in H. subst. vm_compute. reflexivity. Qed.

(** C16 *)
Theorem C16_foreign_architecture_kills :
  forall prof pid tid ps v prog d, filter_for prof pid tid ps v prog ->
  wf_data d -> sd_arch d <> X86_64 ->
  kernel_eval prog d = 0x80000000 /\
  forall fs1 fs2, syscall_entry (fs1 ++ prog :: fs2) d = Kill DeathProcess.
Proof. exact PledgeProofs.c16. Qed.
Print Assumptions C16_foreign_architecture_kills.
Example C16_example :
  let d := mkSD 1 0x40000003 0 0 0 0 0 0 0 in
  filter_for Debug 100 101 [StdIO] Allow (built [StdIO] Allow) /\ wf_data d /\
  sd_arch d <> X86_64 /\ kernel_eval (built [StdIO] Allow) d = 0x80000000.
Proof. concrete. Qed.

(** C17 *)
Theorem C17_x32_never_granted :
  forall prof pid tid ps v prog d,
  filter_for prof pid tid ps v prog -> native d ->
  N.testbit (sd_nr d) 30 = true \/ 512 <= sd_nr d ->
  kernel_eval prog d = ret_into v.
Proof. exact PolicyFacts.c17. Qed.
Print Assumptions C17_x32_never_granted.
Example C17_example :
  let d := call (2 ^ 30 + SYS_read) 0 0 0 0 0 in
  filter_for Debug 100 101 [StdIO] Trap (built [StdIO] Trap) /\ native d /\
  N.testbit (sd_nr d) 30 = true /\ kernel_eval (built [StdIO] Trap) d = ret_into Trap /\
  kernel_eval (built [StdIO] Trap) (call SYS_read 0 0 0 0 0) = ret_into Allow.
Proof. concrete. Qed.

(** C18 *)
Theorem C18_lists_are_sets :
  forall prof prof' pid tid ps ps' v prog prog' d,
  (forall p, In p ps <-> In p ps') ->
  filter_for prof pid tid ps v prog -> filter_for prof' pid tid ps' v prog' ->
  kernel_eval prog d = kernel_eval prog' d.
Proof. exact PolicyFacts.c18. Qed.
Print Assumptions C18_lists_are_sets.
Example C18_example :
  (forall p, In p [StdIO; Exec] <-> In p [Exec; StdIO; Exec]) /\
  built [StdIO; Exec] KillProcess <> built [Exec; StdIO; Exec] KillProcess.
Proof. split; [cbn [In]; intuition|]. vm_compute. discriminate. Qed.

(** C19 *)
Theorem C19_more_promises_allow_more :
  forall prof prof' pid tid ps ps' v prog prog' d,
  (forall p, In p ps -> In p ps') ->
  filter_for prof pid tid ps v prog -> filter_for prof' pid tid ps' v prog' ->
  (kernel_eval prog d = SECCOMP_RET_ALLOW -> kernel_eval prog' d = SECCOMP_RET_ALLOW) /\
  (proceeds prog d -> proceeds prog' d).
Proof. exact PolicyFacts.c19. Qed.
Print Assumptions C19_more_promises_allow_more.
Example C19_example :
  (forall p, In p [RPath] -> In p [StdIO; RPath]) /\
  kernel_eval (built [RPath] KillProcess) (call SYS_stat 0 0 0 0 0) = SECCOMP_RET_ALLOW /\
  kernel_eval (built [RPath] KillProcess) (call SYS_read 0 0 0 0 0) <> SECCOMP_RET_ALLOW /\
  kernel_eval (built [StdIO; RPath] KillProcess) (call SYS_read 0 0 0 0 0) = SECCOMP_RET_ALLOW.
Proof. split; [cbn [In]; intuition|]. concrete. Qed.

(** C20 *)
Theorem C20_irrelevant_parts_ignored :
  forall prof pid tid ps v prog d d',
  filter_for prof pid tid ps v prog -> wf_data d -> wf_data d' ->
  sd_nr d = sd_nr d' -> sd_arch d = sd_arch d' ->
  lo32 (sd_a0 d) = lo32 (sd_a0 d') -> lo32 (sd_a1 d) = lo32 (sd_a1 d') ->
  lo32 (sd_a2 d) = lo32 (sd_a2 d') -> lo32 (sd_a3 d) = lo32 (sd_a3 d') ->
  lo32 (sd_a4 d) = lo32 (sd_a4 d') ->
  (sd_nr d = SYS_sendto -> hi32 (sd_a4 d) = hi32 (sd_a4 d')) ->
  kernel_eval prog d = kernel_eval prog d'.
Proof. exact PolicyFacts.c20. Qed.
Print Assumptions C20_irrelevant_parts_ignored.
Example C20_example :
  let d := call SYS_kill 100 9 0 0 0 in
  let d' := mkSD SYS_kill X86_64 0x7777 (2 ^ 63 + 100) 9 (2 ^ 40) 0 0 77 in
  wf_data d /\ wf_data d' /\ lo32 (sd_a0 d) = lo32 (sd_a0 d') /\ sd_a0 d <> sd_a0 d' /\
  kernel_eval (built [StdIO] KillProcess) d = SECCOMP_RET_ALLOW /\
  kernel_eval (built [StdIO] KillProcess) d' = SECCOMP_RET_ALLOW.
Proof. concrete. Qed.

(** C21 *)
Theorem C21_exit_always_allowed :
  forall prof pid tid ps v prog d,
  filter_for prof pid tid ps v prog -> native d -> sd_nr d = SYS_exit -> proceeds prog d.
Proof. exact PolicyFacts.c21_exit. Qed.
Print Assumptions C21_exit_always_allowed.
Example C21_exit_example :
  filter_for Debug 100 101 [] KillProcess (built [] KillProcess) /\ native (call SYS_exit 3 0 0 0 0) /\
  proceeds (built [] KillProcess) (call SYS_exit 3 0 0 0 0).
Proof. unfold proceeds. concrete. Qed.

(** C21 *)
Theorem C21_empty_list_allows_only_exit :
  forall prof pid tid v prog d,
  filter_for prof pid tid [] v prog -> enforcing v -> native d ->
  (proceeds prog d <-> sd_nr d = SYS_exit).
Proof. exact PolicyFacts.c21_empty. Qed.
Print Assumptions C21_empty_list_allows_only_exit.
Example C21_empty_example :
  filter_for Debug 100 101 [] KillProcess (built [] KillProcess) /\ native (call SYS_exit_group 3 0 0 0 0) /\
  ~ proceeds (built [] KillProcess) (call SYS_exit_group 3 0 0 0 0).
Proof. unfold proceeds. concrete. Qed.

(** C22 *)
Theorem C22_dangerous_calls_never_granted :
  forall prof pid tid ps v prog d,
  filter_for prof pid tid ps v prog -> native d -> In (sd_nr d) dangerous ->
  kernel_eval prog d = ret_into v /\ (enforcing v -> ~ proceeds prog d).
Proof. exact PolicyFacts.c22. Qed.
Print Assumptions C22_dangerous_calls_never_granted.
Example C22_example :
  let all := [StdIO; RPath; WPath; CPath; Exec; Proc; ProtExec; Inet; Unix; Id] in
  filter_for Debug 100 101 all KillProcess (built all KillProcess) /\
  native (call SYS_ptrace 0 0 0 0 0) /\ existsb (N.eqb SYS_ptrace) dangerous = true /\
  kernel_eval (built all KillProcess) (call SYS_ptrace 0 0 0 0 0) = ret_into KillProcess.
Proof. concrete. Qed.

(** C23 *)
Theorem C23_no_executable_memory :
  forall prof pid tid ps v prog d,
  filter_for prof pid tid ps v prog -> enforcing v -> native d -> ~ In ProtExec ps ->
  proceeds prog d ->
  (sd_nr d = SYS_mmap -> clear PROT_EXEC (sd_a2 d)) /\
  (sd_nr d = SYS_mprotect -> clear PROT_EXEC (sd_a2 d)) /\
  sd_nr d <> SYS_pkey_mprotect.
Proof. exact PolicyFacts.c23. Qed.
Print Assumptions C23_no_executable_memory.
Example C23_example :
  filter_for Debug 100 101 [StdIO] KillProcess (built [StdIO] KillProcess) /\ native (call SYS_mprotect 0 4096 3 0 0) /\
  proceeds (built [StdIO] KillProcess) (call SYS_mprotect 0 4096 3 0 0).
Proof. unfold proceeds. concrete. Qed.

(** C24 *)
Theorem C24_exec_needs_promise :
  forall prof pid tid ps v prog d,
  filter_for prof pid tid ps v prog -> enforcing v -> native d ->
  sd_nr d = SYS_execve \/ sd_nr d = SYS_execveat ->
  (proceeds prog d <-> In Exec ps).
Proof. exact PolicyFacts.c24. Qed.
Print Assumptions C24_exec_needs_promise.
Example C24_example :
  filter_for Debug 100 101 [Exec] KillProcess (built [Exec] KillProcess) /\ native (call SYS_execve 1 2 3 0 0) /\
  proceeds (built [Exec] KillProcess) (call SYS_execve 1 2 3 0 0).
Proof. unfold proceeds. concrete. Qed.
Example C24_example_refused :
  filter_for Debug 100 101 [StdIO; Proc] KillProcess (built [StdIO; Proc] KillProcess) /\ native (call SYS_execve 1 2 3 0 0) /\
  ~ proceeds (built [StdIO; Proc] KillProcess) (call SYS_execve 1 2 3 0 0).
Proof. unfold proceeds. concrete. Qed.

(** C25 *)
Theorem C25_processes_need_proc :
  forall prof pid tid ps v prog d,
  filter_for prof pid tid ps v prog -> enforcing v -> native d -> proceeds prog d ->
  (~ In Proc ps ->
     sd_nr d <> SYS_fork /\ sd_nr d <> SYS_vfork /\
     (sd_nr d = SYS_clone ->
      has CLONE_VM (sd_a0 d) /\ has CLONE_FS (sd_a0 d) /\ has CLONE_FILES (sd_a0 d) /\
      has CLONE_THREAD (sd_a0 d) /\ has CLONE_SIGHAND (sd_a0 d))) /\
  sd_nr d <> SYS_clone3 /\
  (sd_nr d = SYS_clone ->
   clear CLONE_NEWNS (sd_a0 d) /\ clear CLONE_PTRACE (sd_a0 d) /\ clear CLONE_UNTRACED (sd_a0 d)).
Proof. exact PolicyFacts.c25. Qed.
Print Assumptions C25_processes_need_proc.
Example C25_example :
  filter_for Debug 100 101 [StdIO] KillProcess (built [StdIO] KillProcess) /\ native (call SYS_clone 0x3d0f00 0 0 0 0) /\
  proceeds (built [StdIO] KillProcess) (call SYS_clone 0x3d0f00 0 0 0 0).
Proof. unfold proceeds. concrete. Qed.

(** C25 *)
Theorem C25_allowed_forms :
  forall prof pid tid ps v prog d,
  filter_for prof pid tid ps v prog -> native d ->
  (In Proc ps -> sd_nr d = SYS_fork \/ sd_nr d = SYS_vfork -> proceeds prog d) /\
  (sd_nr d = SYS_clone ->
   clear CLONE_NEWNS (sd_a0 d) /\ clear CLONE_PTRACE (sd_a0 d) /\ clear CLONE_UNTRACED (sd_a0 d) ->
   (In Proc ps \/
    In StdIO ps /\
    (has CLONE_VM (sd_a0 d) /\ has CLONE_FS (sd_a0 d) /\ has CLONE_FILES (sd_a0 d) /\
     has CLONE_THREAD (sd_a0 d) /\ has CLONE_SIGHAND (sd_a0 d))) ->
   proceeds prog d).
Proof. exact PolicyFacts.c25_allows. Qed.
Print Assumptions C25_allowed_forms.
Example C25_allows_example :
  filter_for Debug 100 101 [Proc] KillProcess (built [Proc] KillProcess) /\ native (call SYS_fork 0 0 0 0 0) /\
  proceeds (built [Proc] KillProcess) (call SYS_fork 0 0 0 0 0).
Proof. unfold proceeds. concrete. Qed.

(** C26 *)
Theorem C26_signals_only_to_self :
  forall prof pid tid ps v prog d,
  tid < 2 ^ 32 ->
  filter_for prof pid tid ps v prog -> enforcing v -> native d -> ~ In Proc ps ->
  proceeds prog d ->
  (sd_nr d = SYS_kill -> lo32 (sd_a0 d) = pid) /\
  (sd_nr d = SYS_tkill -> lo32 (sd_a0 d) = tid) /\
  sd_nr d <> SYS_tgkill.
Proof. exact PolicyFacts.c26. Qed.
Print Assumptions C26_signals_only_to_self.
Example C26_example :
  filter_for Debug 100 101 [StdIO] KillProcess (built [StdIO] KillProcess) /\ native (call SYS_kill 100 15 0 0 0) /\
  proceeds (built [StdIO] KillProcess) (call SYS_kill 100 15 0 0 0).
Proof. unfold proceeds. concrete. Qed.
Example C26_example_refused :
  filter_for Debug 100 101 [StdIO] KillProcess (built [StdIO] KillProcess) /\ native (call SYS_kill 99 15 0 0 0) /\
  ~ proceeds (built [StdIO] KillProcess) (call SYS_kill 99 15 0 0 0).
Proof. unfold proceeds. concrete. Qed.

(** C27 *)
Theorem C27_read_only_openat_partial :
  forall prof pid tid ps v prog d,
  filter_for prof pid tid ps v prog -> enforcing v -> native d ->
  ~ In WPath ps -> ~ In CPath ps -> proceeds prog d ->
  (sd_nr d = SYS_openat -> read_only (sd_a2 d)) /\
  ~ In (sd_nr d) tree_changing /\
  (sd_nr d = SYS_unlink \/ sd_nr d = SYS_unlinkat -> In TmpPath ps) /\
  (sd_nr d = SYS_mknod \/ sd_nr d = SYS_mknodat -> In DPath ps).
Proof. exact PolicyFacts.c27_partial. Qed.
Print Assumptions C27_read_only_openat_partial.
Example C27_partial_example :
  filter_for Debug 100 101 [RPath; TmpPath] KillProcess (built [RPath; TmpPath] KillProcess) /\ native (call SYS_openat 0 1 0 0 0) /\
  proceeds (built [RPath; TmpPath] KillProcess) (call SYS_openat 0 1 0 0 0).
Proof. unfold proceeds. concrete. Qed.

(** C27 *)
Theorem C27_open_refuted :
  forall prof pid tid,
  exists prog d,
    filter_for prof pid tid [RPath] KillProcess prog /\ native d /\ proceeds prog d /\
    sd_nr d = SYS_open /\ has O_WRONLY (sd_a1 d) /\ has O_CREAT (sd_a1 d) /\
    has O_TRUNC (sd_a1 d) /\ ~ read_only (sd_a1 d).
Proof. exact PolicyFacts.c27_refuted. Qed.
Print Assumptions C27_open_refuted.

(** C28 *)
Theorem C28_wpath_openat_partial :
  forall prof pid tid ps v prog d,
  filter_for prof pid tid ps v prog -> enforcing v -> native d -> ~ In CPath ps ->
  proceeds prog d -> sd_nr d = SYS_openat -> ~ creates (sd_a2 d).
Proof. exact PolicyFacts.c28_partial. Qed.
Print Assumptions C28_wpath_openat_partial.
Example C28_partial_example :
  filter_for Debug 100 101 [WPath] KillProcess (built [WPath] KillProcess) /\ native (call SYS_openat 0 1 O_WRONLY 0 0) /\
  proceeds (built [WPath] KillProcess) (call SYS_openat 0 1 O_WRONLY 0 0).
Proof. unfold proceeds. concrete. Qed.

(** C28 *)
Theorem C28_open_refuted :
  forall prof pid tid,
  exists prog d,
    filter_for prof pid tid [StdIO; WPath] KillProcess prog /\ native d /\ proceeds prog d /\
    sd_nr d = SYS_open /\ creates (sd_a1 d).
Proof. exact PolicyFacts.c28_refuted. Qed.
Print Assumptions C28_open_refuted.

(** C29 *)
Theorem C29_no_suid_partial :
  forall prof pid tid ps v prog d,
  filter_for prof pid tid ps v prog -> enforcing v -> native d -> proceeds prog d ->
  (sd_nr d = SYS_chmod \/ sd_nr d = SYS_fchmod \/ sd_nr d = SYS_creat -> clear suid_bits (sd_a1 d)) /\
  (sd_nr d = SYS_openat -> creates (sd_a2 d) -> clear suid_bits (sd_a3 d)).
Proof. exact PolicyFacts.c29_partial. Qed.
Print Assumptions C29_no_suid_partial.
Example C29_partial_example :
  filter_for Debug 100 101 [CPath; FAttr] KillProcess (built [CPath; FAttr] KillProcess) /\ native (call SYS_openat 0 1 O_CREAT 420 0) /\
  proceeds (built [CPath; FAttr] KillProcess) (call SYS_openat 0 1 O_CREAT 420 0).
Proof. unfold proceeds. concrete. Qed.
Example C29_partial_example_chmod :
  filter_for Debug 100 101 [FAttr] KillProcess (built [FAttr] KillProcess) /\ native (call SYS_chmod 0 420 0 0 0) /\
  proceeds (built [FAttr] KillProcess) (call SYS_chmod 0 420 0 0 0).
Proof. unfold proceeds. concrete. Qed.

(** C29 *)
Theorem C29_fchmodat_refuted :
  forall prof pid tid,
  exists prog d,
    filter_for prof pid tid [FAttr] KillProcess prog /\ native d /\ proceeds prog d /\
    sd_nr d = SYS_fchmodat /\ has S_ISUID (sd_a2 d).
Proof. exact PolicyFacts.c29_refuted_fchmodat. Qed.
Print Assumptions C29_fchmodat_refuted.

(** C29 *)
Theorem C29_open_refuted :
  forall prof pid tid,
  exists prog d,
    filter_for prof pid tid [CPath] KillProcess prog /\ native d /\ proceeds prog d /\
    sd_nr d = SYS_open /\ creates (sd_a1 d) /\ has S_ISUID (sd_a2 d).
Proof. exact PolicyFacts.c29_refuted_open. Qed.
Print Assumptions C29_open_refuted.

(** C30 *)
Theorem C30_sockets_confined :
  forall prof pid tid ps v prog d,
  filter_for prof pid tid ps v prog -> enforcing v -> native d ->
  (sd_nr d = SYS_socket ->
   (proceeds prog d <->
    ((In Inet ps \/ In Dns ps) /\ (lo32 (sd_a0 d) = AF_INET \/ lo32 (sd_a0 d) = AF_INET6) /\
     (sock_type (sd_a1 d) SOCK_STREAM \/ sock_type (sd_a1 d) SOCK_DGRAM) /\
     In (lo32 (sd_a2 d)) [0; IPPROTO_ICMP; IPPROTO_TCP; IPPROTO_UDP])
    \/ (In Unix ps /\ lo32 (sd_a0 d) = AF_UNIX /\
        (sock_type (sd_a1 d) SOCK_STREAM \/ sock_type (sd_a1 d) SOCK_DGRAM) /\
        lo32 (sd_a2 d) = 0))) /\
  (sd_nr d = SYS_bind \/ sd_nr d = SYS_connect ->
   (proceeds prog d <-> In Inet ps \/ In Unix ps \/ In Dns ps)) /\
  (sd_nr d = SYS_listen \/ sd_nr d = SYS_accept \/ sd_nr d = SYS_accept4 ->
   (proceeds prog d <-> In Inet ps \/ In Unix ps)) /\
  (sd_nr d = SYS_sendto ->
   (proceeds prog d <->
    In Inet ps \/ In Unix ps \/ In Dns ps \/ (In StdIO ps /\ sd_a4 d = 0))).
Proof. exact PolicyFacts.c30. Qed.
Print Assumptions C30_sockets_confined.
Example C30_example :
  filter_for Debug 100 101 [Inet] KillProcess (built [Inet] KillProcess) /\ native (call SYS_socket AF_INET (SOCK_STREAM + 2 ^ 19) IPPROTO_TCP 0 0) /\
  proceeds (built [Inet] KillProcess) (call SYS_socket AF_INET (SOCK_STREAM + 2 ^ 19) IPPROTO_TCP 0 0).
Proof. unfold proceeds. concrete. Qed.
Example C30_example_refused :
  filter_for Debug 100 101 [Inet] KillProcess (built [Inet] KillProcess) /\ native (call SYS_socket AF_UNIX SOCK_STREAM 0 0 0) /\
  ~ proceeds (built [Inet] KillProcess) (call SYS_socket AF_UNIX SOCK_STREAM 0 0 0).
Proof. unfold proceeds. concrete. Qed.

(** C31 *)
Theorem C31_limits_read_only_partial :
  forall prof pid tid ps v prog d,
  filter_for prof pid tid ps v prog -> enforcing v -> native d ->
  ~ In Proc ps -> ~ In Id ps ->
  (sd_nr d = SYS_prlimit64 ->
   (proceeds prog d <-> In StdIO ps /\ sd_a2 d mod 2 ^ 32 = 0)) /\
  (sd_nr d = SYS_setrlimit -> ~ proceeds prog d).
Proof. exact PolicyFacts.c31_partial. Qed.
Print Assumptions C31_limits_read_only_partial.
Example C31_partial_example :
  filter_for Debug 100 101 [StdIO] KillProcess (built [StdIO] KillProcess) /\ native (call SYS_prlimit64 0 7 0 1 0) /\
  proceeds (built [StdIO] KillProcess) (call SYS_prlimit64 0 7 0 1 0).
Proof. unfold proceeds. concrete. Qed.

(** C31 *)
Theorem C31_prlimit_pointer_refuted :
  forall prof pid tid,
  exists prog d,
    filter_for prof pid tid [StdIO] KillProcess prog /\ native d /\ proceeds prog d /\
    sd_nr d = SYS_prlimit64 /\ sd_a2 d <> 0.
Proof. exact PolicyFacts.c31_refuted. Qed.
Print Assumptions C31_prlimit_pointer_refuted.

(** C32 *)
Theorem C32_socket_options_partial :
  forall prof pid tid ps v prog d,
  filter_for prof pid tid ps v prog -> enforcing v -> native d ->
  (sd_nr d = SYS_setsockopt -> ~ proceeds prog d) /\
  (sd_nr d = SYS_getsockopt ->
   (proceeds prog d <->
    (In Inet ps \/ In Unix ps) /\
    ((In (lo32 (sd_a1 d)) getsockopt_levels /\ In (lo32 (sd_a2 d)) getsockopt_options) \/
     (In (lo32 (sd_a1 d)) setsockopt_levels /\ In (lo32 (sd_a2 d)) setsockopt_options)))).
Proof. exact PolicyFacts.c32_partial. Qed.
Print Assumptions C32_socket_options_partial.
Example C32_partial_example :
  filter_for Debug 100 101 [Inet] KillProcess (built [Inet] KillProcess) /\ native (call SYS_getsockopt 3 SOL_SOCKET SO_ERROR 0 0) /\
  proceeds (built [Inet] KillProcess) (call SYS_getsockopt 3 SOL_SOCKET SO_ERROR 0 0).
Proof. unfold proceeds. concrete. Qed.

(** C32 *)
Theorem C32_setsockopt_refuted :
  forall prof pid tid ps v prog,
  filter_for prof pid tid ps v prog -> enforcing v -> In Inet ps -> In Unix ps ->
  (exists d, native d /\ sd_nr d = SYS_setsockopt /\ In (lo32 (sd_a1 d)) setsockopt_levels /\
             In (lo32 (sd_a2 d)) setsockopt_options /\ ~ proceeds prog d) /\
  (exists d, native d /\ sd_nr d = SYS_getsockopt /\ ~ In (lo32 (sd_a1 d)) getsockopt_levels /\
             ~ In (lo32 (sd_a2 d)) getsockopt_options /\ proceeds prog d).
Proof. exact PolicyFacts.c32_refuted. Qed.
Print Assumptions C32_setsockopt_refuted.
Example C32_refuted_example :
  filter_for Debug 100 101 [Inet; Unix] KillProcess (built [Inet; Unix] KillProcess) /\ native (call SYS_setsockopt 3 SOL_SOCKET SO_KEEPALIVE 0 0) /\
  ~ proceeds (built [Inet; Unix] KillProcess) (call SYS_setsockopt 3 SOL_SOCKET SO_KEEPALIVE 0 0).
Proof. unfold proceeds. concrete. Qed.

(** C33 *)
Theorem C33_messages_partial :
  forall prof pid tid ps v prog d,
  filter_for prof pid tid ps v prog -> enforcing v -> native d ->
  (sd_nr d = SYS_sendmsg \/ sd_nr d = SYS_sendmmsg -> ~ proceeds prog d) /\
  (sd_nr d = SYS_recvmsg \/ sd_nr d = SYS_recvmmsg ->
   (proceeds prog d <-> In RecvFd ps \/ In SendFd ps)).
Proof. exact PolicyFacts.c33_partial. Qed.
Print Assumptions C33_messages_partial.
Example C33_partial_example :
  filter_for Debug 100 101 [RecvFd] KillProcess (built [RecvFd] KillProcess) /\ native (call SYS_recvmsg 3 0 0 0 0) /\
  proceeds (built [RecvFd] KillProcess) (call SYS_recvmsg 3 0 0 0 0).
Proof. unfold proceeds. concrete. Qed.

(** C33 *)
Theorem C33_sendfd_refuted :
  forall prof pid tid ps v prog,
  filter_for prof pid tid ps v prog -> enforcing v -> In SendFd ps ->
  exists d, native d /\ sd_nr d = SYS_sendmsg /\ ~ proceeds prog d.
Proof. exact PolicyFacts.c33_refuted. Qed.
Print Assumptions C33_sendfd_refuted.
Example C33_refuted_example :
  filter_for Debug 100 101 [SendFd] KillProcess (built [SendFd] KillProcess) /\ native (call SYS_sendmsg 3 0 0 0 0) /\
  ~ proceeds (built [SendFd] KillProcess) (call SYS_sendmsg 3 0 0 0 0).
Proof. unfold proceeds. concrete. Qed.

(** C34 *)
Theorem C34_anonymous_memory_partial :
  forall prof pid tid ps v prog d,
  filter_for prof pid tid ps v prog -> native d -> In StdIO ps -> sd_nr d = SYS_mmap ->
  clear (MAP_LOCKED + MAP_POPULATE + MAP_NONBLOCK + MAP_HUGETLB) (sd_a3 d) ->
  sd_a2 d = PROT_NONE \/ sd_a2 d = PROT_READ \/ sd_a2 d = PROT_WRITE ->
  proceeds prog d.
Proof. exact PolicyFacts.c34_partial. Qed.
Print Assumptions C34_anonymous_memory_partial.
Example C34_partial_example :
  filter_for Debug 100 101 [StdIO] KillProcess (built [StdIO] KillProcess) /\ native (call SYS_mmap 0 4096 1 0x22 0) /\
  proceeds (built [StdIO] KillProcess) (call SYS_mmap 0 4096 1 0x22 0).
Proof. unfold proceeds. concrete. Qed.

(** C34 *)
Theorem C34_read_write_refuted :
  forall prof pid tid ps v prog,
  filter_for prof pid tid ps v prog -> enforcing v -> In StdIO ps -> ~ In ProtExec ps ->
  exists d, native d /\ sd_nr d = SYS_mmap /\
    clear (MAP_LOCKED + MAP_POPULATE + MAP_NONBLOCK + MAP_HUGETLB) (sd_a3 d) /\
    sd_a2 d = PROT_READ + PROT_WRITE /\ ~ proceeds prog d.
Proof. exact PolicyFacts.c34_refuted. Qed.
Print Assumptions C34_read_write_refuted.
Example C34_refuted_example :
  filter_for Debug 100 101 [StdIO] KillProcess (built [StdIO] KillProcess) /\ native (call SYS_mmap 0 4096 3 0x22 0) /\
  ~ proceeds (built [StdIO] KillProcess) (call SYS_mmap 0 4096 3 0x22 0).
Proof. unfold proceeds. concrete. Qed.

(** C35 *)
Theorem C35_fcntl_ioctl_prctl :
  forall prof pid tid ps v prog d,
  filter_for prof pid tid ps v prog -> enforcing v -> native d ->
  (sd_nr d = SYS_fcntl ->
   (proceeds prog d <->
    In StdIO ps /\ In (lo32 (sd_a1 d)) [0; 1; 2; 3; 4; 1030] \/
    In FLock ps /\ In (lo32 (sd_a1 d)) [F_GETLK; F_SETLK; F_SETLKW])) /\
  (sd_nr d = SYS_ioctl ->
   (proceeds prog d <->
    In StdIO ps /\ In (lo32 (sd_a1 d)) [FIONREAD; FIONBIO; FIOCLEX; FIONCLEX] \/
    In Inet ps /\ lo32 (sd_a1 d) = 0x8905 \/
    In Tty ps /\ In (lo32 (sd_a1 d))
      [TCGETS; TCSETS; TCSETSW; TCSETSF; TIOCGWINSZ; TIOCSPGRP; TIOCGPGRP; TIOCSWINSZ;
       TCFLSH; TCXONC; TCSBRK; TIOCSBRK])) /\
  (sd_nr d = SYS_prctl ->
   (proceeds prog d <->
    In StdIO ps /\ In (lo32 (sd_a0 d))
      [PR_SET_NAME; PR_GET_NAME; PR_GET_SECCOMP; PR_SET_SECCOMP; PR_SET_NO_NEW_PRIVS;
       PR_CAPBSET_READ; PR_CAPBSET_DROP])).
Proof. exact PolicyFacts.c35. Qed.
Print Assumptions C35_fcntl_ioctl_prctl.
Example C35_example :
  filter_for Debug 100 101 [StdIO] KillProcess (built [StdIO] KillProcess) /\ native (call SYS_fcntl 0 3 0 0 0) /\
  proceeds (built [StdIO] KillProcess) (call SYS_fcntl 0 3 0 0 0).
Proof. unfold proceeds. concrete. Qed.
Example C35_example_refused :
  filter_for Debug 100 101 [StdIO; Inet; Tty] KillProcess (built [StdIO; Inet; Tty] KillProcess) /\ native (call SYS_ioctl 0 0x5412 0 0 0) /\
  ~ proceeds (built [StdIO; Inet; Tty] KillProcess) (call SYS_ioctl 0 0x5412 0 0 0).
Proof. unfold proceeds. concrete. Qed.
