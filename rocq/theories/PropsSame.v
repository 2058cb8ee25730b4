(** Property theorems C108, C109: comparing two pledges.
    Generated statements; the proofs are in the files required below. *)
From Coq Require Import NArith ZArith String List Bool Lia.
From Verif Require Import Libc Machine Bpf SeccompRet Asm Vm Promises Filters Kernel World Testkit Spec Demo.
From Verif Require SameFacts.
Import ListNotations.
Local Open Scope N_scope.

(** C108 *)
Theorem C108_when_two_pledges_build_the_same_filter :
  forall prof prof' pid tid pid' tid' ps qs v v' prog prog',
  filter_for prof pid tid ps v prog -> filter_for prof' pid' tid' qs v' prog' ->
  small_payload v -> small_payload v' ->
  (prog = prog' <->
   Forall2 (fun p q => p = q \/ In p [RecvFd; SendFd] /\ In q [RecvFd; SendFd]) ps qs /\ v = v' /\
   (In StdIO ps -> pid = pid' /\ tid mod 2 ^ 32 = tid' mod 2 ^ 32)).
Proof. exact SameFacts.c108. Qed.
Print Assumptions C108_when_two_pledges_build_the_same_filter.
Example C108_example :
  let at_ids pid tid ps := match promises_to_prog Release (mkEnv (Ok pid) (Ok tid)) ps Trap with
                           | Ok p => p | _ => [] end in
  (built [Inet; SendFd; Tty] Trap = at_ids 7 8 [Inet; RecvFd; Tty] /\ length (built [Inet; SendFd; Tty] Trap) = 111%nat) /\
  built [Inet; SendFd] Trap <> built [SendFd; Inet] Trap /\ built [Inet] Trap <> built [Dns] Trap /\
  built [Tty] Trap <> built [Tty; Default] Trap /\ built [Tty] Trap <> built [Tty] (Errno 1) /\
  built [StdIO] Trap = at_ids 100 (2 ^ 32 + 101) [StdIO] /\ built [StdIO] Trap <> at_ids 100 102 [StdIO] /\
  built [StdIO] Trap <> at_ids 101 101 [StdIO].
Proof.
  cbv zeta. split; [split; vm_compute; reflexivity|].
  split; [vm_compute; discriminate|]. split; [vm_compute; discriminate|]. split; [vm_compute; discriminate|].
  split; [vm_compute; discriminate|]. split; [vm_compute; reflexivity|]. split; vm_compute; discriminate.
Qed.

(** C109 *)
Theorem C109_when_a_pledge_allows_all_another_does :
  forall prof prof' pid tid pid' tid' ps qs v v' prog prog',
  filter_for prof pid tid ps v prog -> filter_for prof' pid' tid' qs v' prog' ->
  enforcing v -> enforcing v' -> pid < 2 ^ 32 ->
  ((forall d, native d -> proceeds prog d -> proceeds prog' d) <->
   (forall p, In p ps ->
      p = Default \/ In p qs \/
      exists alt,
        In (p, alt)
          [ (VmInfo, [StdIO]); (RecvFd, [SendFd]); (SendFd, [RecvFd]);
            (TmpPath, [RPath; CPath]); (TmpPath, [WPath; CPath]);
            (Dns, [StdIO; RPath; Inet]); (Dns, [StdIO; WPath; CPath; Inet]) ] /\
        forall q, In q alt -> In q qs) /\
   (In StdIO ps -> In Proc qs \/ pid = pid' /\ tid mod 2 ^ 32 = tid' mod 2 ^ 32)).
Proof. exact SameFacts.c109. Qed.
Print Assumptions C109_when_a_pledge_allows_all_another_does.
Example C109_example :
  (forall d, native d -> proceeds (built [Dns; TmpPath; VmInfo] Trap) d ->
                         proceeds (built [StdIO; CPath; Inet; WPath] KillProcess) d) /\
  (let d := call SYS_newfstatat 0 0x7000 0x7100 0 0 in
   native d /\ proceeds (built [Dns] Trap) d /\ ~ proceeds (built [StdIO; CPath; Inet] KillProcess) d) /\
  (let d := call SYS_chdir 0x7000 0 0 0 0 in
   native d /\ proceeds (built [RPath] Trap) d /\ ~ proceeds (built [StdIO; CPath; Inet; WPath] KillProcess) d).
Proof.
  split; [|unfold proceeds; concrete].
  apply (proj2 (C109_when_a_pledge_allows_all_another_does Debug Debug 100 101 100 101 [Dns; TmpPath; VmInfo]
    [StdIO; CPath; Inet; WPath] Trap KillProcess _ _ eq_refl eq_refl
    ltac:(repeat split; discriminate) ltac:(repeat split; discriminate) eq_refl)).
  split.
  - intros p [<-|[<-|[<-|[]]]]; right; right; eexists; (split; [cbn; eauto 12|]); cbn; intuition.
  - cbn. intuition discriminate.
Qed.
