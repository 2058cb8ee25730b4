(** Property theorems C110: the integration tests pass.
    Generated statements; the proofs are in the files required below. *)
From Coq Require Import NArith ZArith String List Bool Lia.
From Verif Require Import Libc Machine Bpf SeccompRet Asm Vm Promises Filters Kernel World Testkit Spec Helpers HelperSpec IntTests Demo.
From Verif Require IntFacts.
Import ListNotations.
Local Open Scope N_scope.

(** C110 *)
Theorem C110_integration_tests_pass :
  forall test prof amb t answer ds harness,
  In test tests_lib -> Forall2 makes (it_calls test) ds -> Forall wf_data ds ->
  t_filters t = [] -> amb_oom (amb 1%nat) = false ->
  judge (it_expect test)
    (snd (child_of_test prof amb t (it_promises test) KillProcess answer (straight ds) harness)) = Passed.
Proof. exact IntFacts.c110. Qed.
Print Assumptions C110_integration_tests_pass.
(** fchmod passes with FAttr, not without, and not with a setuid bit. *)
Example C110_example :
  length tests_lib = 22%nat /\
  (let ds := call SYS_openat 0xffffff9c 0x7000 0x80241 0x1b6 0 ::
             call SYS_write 3 0x7000 15 0 0 :: call SYS_fchmod 3 0xbeef000001b6 0 0 0 ::
             call SYS_close 3 0 0 0 0 :: [call SYS_exit_group (2 ^ 32 + 99) 0 0 0 0] in
   let go ps := snd (child_of_test Debug amb0 thread0 ps KillProcess (fun _ => 3%Z) (straight ds) Ret) in
   match find (fun t => String.eqb (it_name t) "fattr_ok") tests_lib with
   | Some t => Forall2 makes (it_calls t) ds /\ Forall wf_data ds
   | None => False
   end /\
   go [StdIO; CPath; FAttr] = Some (Exited 99) /\ go [StdIO; CPath] = Some (Signaled SIGSYS)).
Proof.
  cbv zeta. split; [reflexivity|]. cbn [find tests_lib it_name String.eqb Ascii.eqb Bool.eqb it_calls].
  split; [split|split; vm_compute; reflexivity].
  - repeat (apply Forall2_cons;
      [split; [reflexivity|]; split; [reflexivity|];
       match goal with |- exists more, Forall2 is_arg (q_args ?q ++ more) _ =>
         let k := eval vm_compute in (6 - length (q_args q))%nat in exists (repeat Any k) end;
       repeat constructor|]). constructor.
  - repeat constructor.
Qed.

(** C110 *)
Theorem C110_errno_test_passes :
  forall prof amb t answer d e harness,
  makes (Call SYS_personality [Int 0xffffffff]) d -> makes (libc_exit 0xffffffff) e ->
  wf_data d -> t_filters t = [] -> amb_oom (amb 1%nat) = false ->
  exists prog, filter_for prof (t_pid t) (t_tid t) [StdIO] (Errno 999) prog /\
  child_of_test prof amb t [StdIO] (Errno 999) answer (errno_child d e) harness =
    child_run answer [prog] [d] (andthen harness main_returned) /\
  fork_expect_code 0
    (snd (child_of_test prof amb t [StdIO] (Errno 999) answer (errno_child d e) Ret)) = Passed.
Proof. exact IntFacts.c110_errno. Qed.
Print Assumptions C110_errno_test_passes.
Example C110_errno_example :
  let d := call SYS_personality 0xffffffff 0 0 0 0 in
  let e := call SYS_exit_group 0xffffffff 0 0 0 0 in
  let go v := child_of_test Debug amb0 thread0 [StdIO] v (fun _ => 0%Z) (errno_child d e) Ret in
  makes (Call SYS_personality [Int 0xffffffff]) d /\ makes (libc_exit 0xffffffff) e /\
  go (Errno 999) = ([d; mkSD SYS_exit_group AUDIT_ARCH_X86_64 0 0 0 0 0 0 0], Some (Exited 0)) /\
  go (Errno 998) = ([d; e], Some (Exited 255)) /\ go KillProcess = ([d], Some (Signaled SIGSYS)).
Proof.
  cbv zeta. repeat split; try (vm_compute; reflexivity); exists (repeat Any 5); repeat constructor.
Qed.
