(** Property theorems C107: what a passing integration test shows.
    Generated statements; the proofs are in the files required below. *)
From Coq Require Import NArith ZArith String List Bool Lia.
From Verif Require Import Libc Machine Bpf SeccompRet Asm Vm Promises Filters Kernel World Testkit Spec Helpers HelperSpec Demo.
From Verif Require HelperFacts.
Import ListNotations.
Local Open Scope N_scope.

(** C107 *)
Theorem C107_exit_code_tests_are_exact :
  forall prof amb t ps answer body harness calls st e,
  t_filters t = [] -> amb_oom (amb 1%nat) = false -> NoDup ps ->
  calls_wf body -> calls_wf harness ->
  child_of_test prof amb t ps KillProcess answer body harness = (calls, st) ->
  (fork_expect_code e st = Passed <->
   Forall (permitted ps (t_pid t) (t_tid t)) calls /\
   exists init d, calls = init ++ [d] /\
     (sd_nr d = SYS_exit \/ sd_nr d = SYS_exit_group) /\ Z.of_N (sd_a0 d mod 2 ^ 8) = e).
Proof. exact HelperFacts.c107_code. Qed.
Print Assumptions C107_exit_code_tests_are_exact.
(** A child like that of rpath_open_passwd (tests/lib.rs): open, read, close, exit(99). *)
Example C107_code_example :
  let body := Sys (call SYS_openat 4294967196 0x7000 0x80000 0 0) (fun fd =>
              Sys (call SYS_read 3 0x7100 4096 0 0) (fun _ =>
              Sys (call SYS_exit_group 99 0 0 0 0) (fun _ => Fault SIGSEGV))) in
  let go ps := child_of_test Debug amb0 thread0 ps KillProcess (fun _ => 3%Z) body Ret in
  (t_filters thread0 = [] /\ amb_oom (amb0 1%nat) = false /\ NoDup [StdIO; RPath] /\ calls_wf body) /\
  (fork_expect_code 99 (snd (go [StdIO; RPath])) = Passed /\ length (fst (go [StdIO; RPath])) = 3%nat) /\
  (fork_expect_code 99 (snd (go [StdIO])) = Failed /\ fork_expect_sig SIGSYS (snd (go [StdIO])) = Passed /\
   length (fst (go [StdIO])) = 1%nat) /\ fork_expect_code 98 (snd (go [StdIO; RPath])) = Failed.
Proof.
  cbv zeta. split; [|vm_compute; repeat split; reflexivity].
  split; [reflexivity|]. split; [reflexivity|]. split; [repeat constructor; cbn; intuition discriminate|].
  cbn. repeat split.
Qed.

(** C107 *)
Theorem C107_later_calls_pass_signal_tests_refuted :
  forall prof amb t ps answer body prog calls,
  t_filters t = [] -> amb_oom (amb 1%nat) = false -> NoDup ps ->
  filter_for prof (t_pid t) (t_tid t) ps KillProcess prog ->
  child_run answer [prog] [] body = (calls, None) -> calls_wf body ->
  Forall (permitted ps (t_pid t) (t_tid t)) calls /\
  exists harness, fork_expect_sig SIGSYS
    (snd (child_of_test prof amb t ps KillProcess answer body harness)) = Passed.
Proof. exact HelperFacts.c107_refuted. Qed.
Print Assumptions C107_later_calls_pass_signal_tests_refuted.
(** A child like that of stdio_personality_killed (tests/lib.rs), were the call granted: getpid
    instead of personality. *)
Example C107_refuted_example :
  let body := Sys (call SYS_getpid 0 0 0 0 0) (fun _ => Ret) in
  let harness := Sys (call SYS_clone3 0 0 0 0 0) (fun _ => Ret) in
  let go h := child_of_test Debug amb0 thread0 [StdIO] KillProcess (fun _ => 100%Z) body h in
  child_run (fun _ => 100%Z) [built [StdIO] KillProcess] [] body = ([call SYS_getpid 0 0 0 0 0], None) /\
  permitted [StdIO] 100 101 (call SYS_getpid 0 0 0 0 0) /\
  fork_expect_sig SIGSYS (snd (go harness)) = Passed /\
  fork_expect_sig SIGSYS (snd (go Ret)) = Failed.
Proof.
  cbv zeta. split; [vm_compute; reflexivity|].
  split; [split; [reflexivity|]|split; vm_compute; reflexivity].
  exists [(AnyArgs, [StdIO])], AnyArgs, [StdIO], StdIO.
  split; [vm_compute; tauto|cbn; tauto].
Qed.

(** C107 *)
Theorem C107_signal_tests_partial :
  forall prof amb t ps answer body harness calls st,
  t_filters t = [] -> amb_oom (amb 1%nat) = false -> NoDup ps ->
  calls_wf body -> calls_wf harness -> never_raises SIGSYS body -> never_raises SIGSYS harness ->
  child_of_test prof amb t ps KillProcess answer body harness = (calls, st) ->
  (fork_expect_sig SIGSYS st = Passed <->
   exists init d, calls = init ++ [d] /\ Forall (permitted ps (t_pid t) (t_tid t)) init /\
     ~ permitted ps (t_pid t) (t_tid t) d) /\
  (never_returns body -> child_of_test prof amb t ps KillProcess answer body Ret = (calls, st)).
Proof. exact HelperFacts.c107_sig. Qed.
Print Assumptions C107_signal_tests_partial.
(** The child of stdio_open_not_passwd (tests/lib.rs): open, then exit(99). *)
Example C107_sig_example :
  let body := Sys (call SYS_openat 4294967196 0x7000 0x80000 0 0) (fun _ =>
              Sys (call SYS_exit_group 99 0 0 0 0) (fun _ => Fault SIGSEGV)) in
  let go ps := child_of_test Debug amb0 thread0 ps KillProcess (fun _ => 3%Z) body
                 (Sys (call SYS_clone3 0 0 0 0 0) (fun _ => Ret)) in
  (calls_wf body /\ never_raises SIGSYS body /\ never_returns body) /\
  fork_expect_sig SIGSYS (snd (go [StdIO])) = Passed /\
  fork_expect_sig SIGSYS (snd (go [StdIO; RPath])) = Failed.
Proof.
  cbv zeta. split; [|vm_compute; split; reflexivity].
  split; [cbn; repeat split|]. split; [cbn; intros; discriminate|]. cbn. tauto.
Qed.
