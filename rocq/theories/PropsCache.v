(** Property theorems C125: pledges and the action cache of the kernel.
    Generated statements; the proofs are in the files required below. *)
From Coq Require Import NArith ZArith String List Bool Lia.
From Verif Require Import Libc Machine Bpf SeccompRet Asm Vm Promises Filters Kernel World Testkit Spec KernelCache CacheSpec Demo.
From Verif Require CacheFacts.
Import ListNotations.
Local Open Scope N_scope.

(** C125 *)
Theorem C125_the_action_cache_changes_no_decision :
  forall maps filters d, wf_data d -> run_filters_cached maps filters d = run_filters filters d.
Proof. exact CacheFacts.c125. Qed.
Print Assumptions C125_the_action_cache_changes_no_decision.
(** exit is answered from the cache, a call that the filter refuses is not. *)
Example C125_example :
  let filter ps := match promises_to_prog Debug (mkEnv (Ok 100) (Ok 100)) ps KillProcess with Ok p => p | _ => [] end in
  let maps := [(X86_64, 440); (0x40000003, 440)] in
  let call nr a2 := mkSD nr X86_64 0 0 0 a2 0 0 0 in
  cached maps [filter [StdIO]] (call SYS_exit 5) = true /\
  cached maps [filter [StdIO]] (call SYS_mprotect 1) = false /\
  run_filters_cached maps [filter [StdIO]] (call SYS_exit 5) = 0x7fff0000 /\
  run_filters_cached maps [filter [StdIO]] (call SYS_mprotect 1) = 0x7fff0000 /\
  run_filters_cached maps [filter [StdIO]] (call SYS_mprotect 4) = 0x80000000 /\
  run_filters_cached maps [filter [StdIO]] (call SYS_ptrace 1) = 0x80000000.
Proof. cbv zeta. repeat (apply conj); vm_compute; reflexivity. Qed.

(** C125 *)
Theorem C125_what_is_cached_under_a_pledge :
  forall prof pid tid ps v prog older nr arch,
  filter_for prof pid tid ps v prog -> small_payload v -> v <> Allow ->
  (cache_bit (prog :: older) nr arch = true <->
   cache_bit older nr arch = true /\ arch = X86_64 /\ number_decides (Default :: ps) nr).
Proof. exact CacheFacts.c125_pledge. Qed.
Print Assumptions C125_what_is_cached_under_a_pledge.
(** With ProtExec before StdIO, mprotect is answered from the cache; with StdIO first it is not, though both
    orders grant it with any arguments. *)
Example C125_pledge_example :
  let filter ps := match promises_to_prog Debug (mkEnv (Ok 100) (Ok 100)) ps KillProcess with Ok p => p | _ => [] end in
  let any := mkSD SYS_mprotect X86_64 0 0 0 4 0 0 0 in
  cache_bit [filter [ProtExec; StdIO]] SYS_mprotect X86_64 = true /\
  cache_bit [filter [StdIO; ProtExec]] SYS_mprotect X86_64 = false /\
  cache_bit [filter [StdIO]; filter [ProtExec; StdIO]] SYS_mprotect X86_64 = false /\
  cache_bit [filter [ProtExec; StdIO]] SYS_mprotect 0x40000003 = false /\
  run_filters [filter [ProtExec; StdIO]] any = 0x7fff0000 /\
  run_filters [filter [StdIO; ProtExec]] any = 0x7fff0000.
Proof. cbv zeta. repeat (apply conj); vm_compute; reflexivity. Qed.

(** C125 *)
Theorem C125_which_allowed_calls_are_cached :
  forall prof pid tid ps v prog d,
  filter_for prof pid tid ps v prog -> enforcing v -> native d ->
  (In (sd_nr d) [SYS_open; SYS_mmap; SYS_ioctl; SYS_socket; SYS_getsockopt; SYS_clone; SYS_fcntl; SYS_creat; SYS_chmod;
     SYS_fchmod; SYS_prctl; SYS_openat; SYS_fchmodat] -> cache_bit [prog] (sd_nr d) X86_64 = false) /\
  (~ In (sd_nr d) [SYS_open; SYS_mmap; SYS_ioctl; SYS_socket; SYS_getsockopt; SYS_clone; SYS_fcntl; SYS_creat; SYS_chmod;
     SYS_fchmod; SYS_prctl; SYS_openat; SYS_fchmodat; SYS_mprotect; SYS_sendto; SYS_kill; SYS_tkill; SYS_prlimit64] ->
   (cache_bit [prog] (sd_nr d) X86_64 = true <-> proceeds prog d)).
Proof. exact CacheFacts.c125_which. Qed.
Print Assumptions C125_which_allowed_calls_are_cached.
(** read is cached as soon as it is allowed; fcntl(F_GETFD), though allowed, is not; mprotect is neither kind. *)
Example C125_which_example :
  let f := built [StdIO] Trap in
  filter_for Debug 100 101 [StdIO] Trap f /\ native (call SYS_read 0 0x7000 10 0 0) /\
  proceeds f (call SYS_read 0 0x7000 10 0 0) /\ cache_bit [f] SYS_read X86_64 = true /\
  ~ proceeds f (call SYS_rename 0x7000 0x7100 0 0 0) /\ cache_bit [f] SYS_rename X86_64 = false /\
  proceeds f (call SYS_fcntl 0 1 0 0 0) /\ cache_bit [f] SYS_fcntl X86_64 = false /\
  proceeds f (call SYS_mprotect 0x7000 4096 1 0 0) /\ cache_bit [f] SYS_mprotect X86_64 = false.
Proof. cbv zeta. unfold proceeds. concrete. Qed.

(** C125 *)
Theorem C125_StdIO_last_is_the_best_order :
  forall ps nr,
  (forall before p after, ps = before ++ p :: after -> In StdIO before -> p = StdIO) ->
  (number_decides (Default :: ps) nr <-> exists p, In p (Default :: ps) /\ plain_rule p nr).
Proof. exact CacheFacts.c125_best. Qed.
Print Assumptions C125_StdIO_last_is_the_best_order.
(** With StdIO last, mprotect, sendto and kill are all cached. *)
Example C125_best_example :
  let ps := [ProtExec; Inet; Proc; StdIO] in
  let f := built ps Trap in
  (forall before p after, ps = before ++ p :: after -> In StdIO before -> p = StdIO) /\
  map (fun nr => cache_bit [f] nr X86_64) [SYS_mprotect; SYS_sendto; SYS_kill; SYS_prlimit64; SYS_read; SYS_mmap; SYS_tkill] =
    [true; true; true; true; true; false; true] /\
  map (fun nr => cache_bit [built [StdIO; ProtExec; Inet; Proc] Trap] nr X86_64)
      [SYS_mprotect; SYS_sendto; SYS_kill; SYS_prlimit64; SYS_read; SYS_mmap; SYS_tkill] =
    [false; false; false; false; true; false; false].
Proof.
  cbv zeta. split; [|split; vm_compute; reflexivity].
  intros before p after E H.
  destruct before as [|? before]; [destruct H|]. injection E as <- E. destruct H as [H|H]; [discriminate|].
  destruct before as [|? before]; [destruct H|]. injection E as <- E. destruct H as [H|H]; [discriminate|].
  destruct before as [|? before]; [destruct H|]. injection E as <- E. destruct H as [H|H]; [discriminate|].
  destruct before as [|? before]; [destruct H|]. injection E as <- E. destruct before; discriminate.
Qed.

(** C125 *)
Theorem C125_what_is_cached_is_granted :
  forall ps pid tid d, number_decides (Default :: ps) (sd_nr d) -> granted ps pid tid d.
Proof. exact CacheFacts.c125_granted. Qed.
Print Assumptions C125_what_is_cached_is_granted.
(** exit is granted by any pledge. *)
Example C125_granted_example : forall ps pid tid, granted ps pid tid (mkSD SYS_exit X86_64 0 7 0 0 0 0 0).
Proof.
  intros ps pid tid. apply C125_what_is_cached_is_granted. exists [], Default, ps. split; [reflexivity|].
  split; [|intros q []]. exists [(AnyArgs, [Default])], [Default].
  split; [|split; left; reflexivity].
  change (In (SYS_exit, [(AnyArgs, [Default])]) policy). unfold policy. repeat (first [left; reflexivity | right]).
Qed.
