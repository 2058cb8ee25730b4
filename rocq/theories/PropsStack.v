(** Property theorems C65-C71, C77: stacks of pledges.
    Generated statements; the proofs are in the files required below. *)
From Coq Require Import NArith ZArith String List Bool Lia.
From Verif Require Import Libc Machine Bpf SeccompRet Asm Vm Promises Filters Kernel World Testkit Spec Demo.
From Verif Require StackProofs.
Import ListNotations.
Local Open Scope N_scope.

(** C65 *)
Theorem C65_order_of_filters_is_irrelevant :
  forall fs fs' d, (forall f, In f fs <-> In f fs') ->
  same_kind (syscall_entry fs d) (syscall_entry fs' d).
Proof. exact StackProofs.c65. Qed.
Print Assumptions C65_order_of_filters_is_irrelevant.
Example C65_example :
  let a := built [StdIO] (Errno 1) in let b := built [RPath] (Errno 2) in
  syscall_entry [a; b] (call SYS_execve 0 0 0 0 0) = Fake (-1) /\
  syscall_entry [b; a] (call SYS_execve 0 0 0 0 0) = Fake (-2) /\
  syscall_entry [a; b] (call SYS_fstat 0 0 0 0 0) = Proceed /\
  syscall_entry [b; a] (call SYS_fstat 0 0 0 0 0) = Proceed.
Proof. repeat split; vm_compute; reflexivity. Qed.

(** C66 *)
Theorem C66_repeated_filter_changes_nothing :
  forall f fs d, syscall_entry (f :: f :: fs) d = syscall_entry (f :: fs) d.
Proof. exact StackProofs.c66. Qed.
Print Assumptions C66_repeated_filter_changes_nothing.
Example C66_example :
  syscall_entry [built [StdIO] (Errno 1); built [StdIO] (Errno 1)] (call SYS_execve 0 0 0 0 0) = Fake (-1).
Proof. vm_compute. reflexivity. Qed.

(** C66 *)
Theorem C66_repeated_pledge_changes_nothing :
  forall prof pledges amb amb' t ps v t1 r t2 d,
  stack_with prof pledges (t_filters t) ->
  Forall (fun pv => small_payload (snd pv) /\ In StdIO (fst pv)) pledges ->
  (forall n, quiet (amb n)) -> (forall n, quiet (amb' n)) -> In StdIO ps -> small_payload v ->
  pledge_override prof amb t ps v = (Ok tt, t1) ->
  pledge_override prof amb' t1 ps v = (r, t2) ->
  syscall_entry (t_filters t2) d = syscall_entry (t_filters t1) d.
Proof. exact StackProofs.c66_pledge. Qed.
Print Assumptions C66_repeated_pledge_changes_nothing.
Example C66_pledge_example :
  stack_with Debug [] (t_filters thread0) /\
  exists t1 t2, pledge_override Debug amb0 thread0 [StdIO] Trap = (Ok tt, t1) /\
    pledge_override Debug amb0 t1 [StdIO] Trap = (Ok tt, t2) /\ length (t_filters t2) = 2%nat.
Proof.
  split; [constructor|].
  eexists. eexists. split; [vm_compute; reflexivity|]. split; [vm_compute; reflexivity|].
  vm_compute. reflexivity.
Qed.

(** C67 *)
Theorem C67_larger_pledge_changes_nothing :
  forall prof pid tid ps ps' v v' f f' fs d,
  filter_for prof pid tid ps v f -> filter_for prof pid tid ps' v' f' -> enforcing v ->
  incl ps ps' -> wf_data d -> In f fs ->
  (syscall_entry (f' :: fs) d = Proceed <-> syscall_entry fs d = Proceed).
Proof. exact StackProofs.c67. Qed.
Print Assumptions C67_larger_pledge_changes_nothing.
Example C67_example :
  let small := built [StdIO] Trap in let large := built [StdIO; Exec] (Errno 3) in
  enforcing Trap /\ incl [StdIO] [StdIO; Exec] /\
  syscall_entry [small] (call SYS_read 0 0 0 0 0) = Proceed /\
  syscall_entry [large; small] (call SYS_read 0 0 0 0 0) = Proceed /\
  syscall_entry [large; small] (call SYS_execve 0 0 0 0 0) = Kill DeathSigsys.
Proof.
  split; [concrete|]. split; [intros p [<-|[]]; left; reflexivity|]. repeat split; vm_compute; reflexivity.
Qed.

(** C68 *)
Theorem C68_common_promises_survive_partial :
  forall prof pid tid ps ps' v v' f f' fs d,
  filter_for prof pid tid ps v f -> filter_for prof pid tid ps' v' f' ->
  native d -> fs = [f'; f] ->
  granted (filter (fun p => existsb (promise_eqb p) ps') ps) pid tid d ->
  syscall_entry fs d = Proceed.
Proof. exact StackProofs.c68_partial. Qed.
Print Assumptions C68_common_promises_survive_partial.
Example C68_partial_example :
  syscall_entry [built [RPath; StdIO] Trap; built [StdIO; Exec] Trap] (call SYS_read 0 0 0 0 0) = Proceed /\
  filter (fun p => existsb (promise_eqb p) [RPath; StdIO]) [StdIO; Exec] = [StdIO].
Proof. split; vm_compute; reflexivity. Qed.

(** C68 *)
Theorem C68_intersection_refuted :
  forall prof pid tid, exists f f' d,
  filter_for prof pid tid [RPath] KillProcess f /\ filter_for prof pid tid [WPath] KillProcess f' /\
  native d /\ syscall_entry [f'; f] d = Proceed /\ ~ granted [] pid tid d.
Proof. exact StackProofs.c68_refuted. Qed.
Print Assumptions C68_intersection_refuted.

(** C69 *)
Theorem C69_28_pledges_fit :
  forall prof pledges amb t ps v,
  stack_with prof pledges (t_filters t) ->
  Forall (fun pv => small_payload (snd pv) /\ In StdIO (fst pv) /\ NoDup (fst pv)) pledges ->
  (forall n, quiet (amb n)) -> NoDup ps -> (length pledges <= 27)%nat ->
  exists prog t', filter_for prof (t_pid t) (t_tid t) ps v prog /\
    pledge_override prof amb t ps v = (Ok tt, t') /\
    t_filters t' = prog :: t_filters t /\ t_nnp t' = true.
Proof. exact StackProofs.c69. Qed.
Print Assumptions C69_28_pledges_fit.
Example C69_example :
  let all := [StdIO; RPath; WPath; CPath; DPath; FLock; FAttr; Inet; Unix; Dns; Tty; RecvFd; SendFd;
              Proc; Id; Chown; SetTime; ProtExec; Exec; VmInfo; TmpPath; Unveil; Default] in
  let pledges := repeat (all, Trap) 27 in
  stack_with Debug pledges (repeat (built all Trap) 27) /\
  Forall (fun pv => small_payload (snd pv) /\ In StdIO (fst pv) /\ NoDup (fst pv)) pledges /\
  fst (pledge_override Debug amb0 (set_filters thread0 (repeat (built all Trap) 27)) all Trap) = Ok tt /\
  fst (pledge_override Debug amb0 (set_filters thread0 (repeat (built all Trap) 28)) all Trap) = Err (SysErr 12).
Proof.
  cbv zeta. split; [|split; [|split]].
  - match goal with |- stack_with _ (repeat (?all, Trap) 27) _ =>
      apply (PledgeProofs.stack_of_with Debug (repeat (mkInst 100 101 all Trap) 27)) end.
    unfold stack_of. cbn [repeat]. repeat constructor; vm_compute; reflexivity.
  - cbn [repeat]. repeat (constructor; [split; [exact I|split; [left; reflexivity|]];
      repeat constructor; cbn; intuition discriminate|]). constructor.
  - vm_compute. reflexivity.
  - vm_compute. reflexivity.
Qed.

(** C70 *)
Theorem C70_exact_filter_size :
  forall prof pid tid ps v prog, filter_for prof pid tid ps v prog ->
  N.of_nat (length prog) = 7 + promises_size ps /\
  (kernel_accepts prog = true <-> promises_size ps <= 4089).
Proof. exact StackProofs.c70. Qed.
Print Assumptions C70_exact_filter_size.
Example C70_example :
  length (built [StdIO; Dns; Exec] Trap) = 342%nat /\ promises_size [StdIO; Dns; Exec] = 335 /\
  promises_size (repeat StdIO 14) = 4060.
Proof. repeat split; vm_compute; reflexivity. Qed.

(** C70 *)
Theorem C70_first_pledge_succeeds_iff_it_fits :
  forall prof amb t ps v, t_filters t = [] -> amb_oom (amb 1%nat) = false ->
  (fst (pledge_override prof amb t ps v) = Ok tt <-> promises_size ps <= 4089).
Proof. exact StackProofs.c70_pledge. Qed.
Print Assumptions C70_first_pledge_succeeds_iff_it_fits.
Example C70_pledge_example :
  fst (pledge_override Debug amb0 thread0 (repeat StdIO 14 ++ repeat VmInfo 14) Trap) = Ok tt /\
  fst (pledge_override Debug amb0 thread0 (repeat StdIO 14 ++ repeat VmInfo 15) Trap) = Err (SysErr 22).
Proof. split; vm_compute; reflexivity. Qed.

(** C77 *)
Theorem C77_exact_cost_of_a_filter :
  forall prof pid tid ps v prog,
  filter_for prof pid tid ps v prog -> small_ids pid tid ->
  prog_cost prog = 14 + promises_cost ps.
Proof. exact StackProofs.c77_cost. Qed.
Print Assumptions C77_exact_cost_of_a_filter.
Example C77_cost_example :
  small_ids 100 101 /\ prog_cost (built [StdIO; Dns; Exec] Trap) = 485 /\
  prog_cost (match promises_to_prog Debug (mkEnv (Ok (2 ^ 31)) (Ok 101)) [StdIO] Trap with Ok p => p | _ => [] end)
  = 14 + promises_cost [StdIO] + 1.
Proof. repeat split; vm_compute; reflexivity. Qed.

(** C77 *)
Theorem C77_exactly_when_another_pledge_fits :
  forall prof pledges amb t ps v r t',
  stack_of prof pledges (t_filters t) ->
  Forall (fun i => small_payload (i_v i) /\ In StdIO (i_ps i) /\ small_ids (i_pid i) (i_tid i)) pledges ->
  (forall n, quiet (amb n)) -> small_ids (t_pid t) (t_tid t) ->
  pledge_override prof amb t ps v = (r, t') ->
  r = (if 4089 <? promises_size ps then Err (SysErr 22)
       else if 32768 <? 14 + promises_cost ps + pledges_cost pledges then Err (SysErr 12)
       else Ok tt) /\
  (r <> Ok tt -> t_filters t' = t_filters t).
Proof. exact StackProofs.c77. Qed.
Print Assumptions C77_exactly_when_another_pledge_fits.
Example C77_example :
  let pledges n := repeat (mkInst 100 101 [StdIO] Trap) n in
  stack_of Debug (pledges 75%nat) (repeat (built [StdIO] Trap) 75) /\
  Forall (fun i => small_payload (i_v i) /\ In StdIO (i_ps i) /\ small_ids (i_pid i) (i_tid i)) (pledges 75%nat) /\
  14 + promises_cost [StdIO] + pledges_cost (pledges 75%nat) = 32752 /\
  fst (pledge_override Debug amb0 (set_filters thread0 (repeat (built [StdIO] Trap) 75)) [StdIO] Trap) = Ok tt /\
  fst (pledge_override Debug amb0 (set_filters thread0 (repeat (built [StdIO] Trap) 76)) [StdIO] Trap) = Err (SysErr 12).
Proof.
  cbv zeta. split; [|split; [|split; [|split]]].
  - unfold stack_of. cbn [repeat]. repeat constructor; vm_compute; reflexivity.
  - apply Forall_forall. intros i I. apply repeat_spec in I. subst. repeat split. left. reflexivity.
  - vm_compute. reflexivity.
  - vm_compute. reflexivity.
  - vm_compute. reflexivity.
Qed.

(** C71 *)
Theorem C71_build_profile_is_irrelevant :
  forall amb t ps v,
  pledge_override Debug amb t ps v = pledge_override Release amb t ps v.
Proof. exact StackProofs.c71. Qed.
Print Assumptions C71_build_profile_is_irrelevant.
Example C71_example :
  fst (pledge_override Release amb0 thread0 [StdIO] (Errno 0xffffffff)) = Ok tt.
Proof. vm_compute. reflexivity. Qed.

(** C71 *)
Theorem C71_build_profile_same_filter :
  forall pid tid ps v prog,
  filter_for Debug pid tid ps v prog <-> filter_for Release pid tid ps v prog.
Proof. exact StackProofs.c71_filter. Qed.
Print Assumptions C71_build_profile_same_filter.
Example C71_filter_example :
  filter_for Release 100 101 [StdIO; Inet] Trap (built [StdIO; Inet] Trap).
Proof. vm_compute. reflexivity. Qed.
