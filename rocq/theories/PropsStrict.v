(** Property theorems C116: seccomp strict mode.
    Generated statements; the proofs are in the files required below. *)
From Coq Require Import NArith ZArith String List Bool Lia.
From Verif Require Import Libc Machine Bpf SeccompRet Asm Vm Promises Filters Kernel World Testkit Spec Demo.
From Verif Require StrictFacts.
Import ListNotations.
Local Open Scope N_scope.

(** C116 *)
Theorem C116_what_strict_mode_allows :
  forall s d, wf_data d ->
  (strict_call d -> supervised_entry s [strict_mode] d = Proceed) /\
  (~ strict_call d -> supervised_entry s [strict_mode] d = Kill DeathThread).
Proof. exact StrictFacts.c116_mode. Qed.
Print Assumptions C116_what_strict_mode_allows.
Example C116_mode_example :
  map (supervised_entry nobody [strict_mode]) [call SYS_write 1 0 0 0 0; call SYS_exit 0 0 0 0 0; call SYS_exit_group 0 0 0 0 0;
    mkSD 4 0x40000003 0 0 0 0 0 0 0; mkSD 0x40000001 AUDIT_ARCH_X86_64 0 0 0 0 0 0 0] =
    [Proceed; Proceed; Kill DeathThread; Proceed; Kill DeathThread] /\
  strict_call (call SYS_write 1 0 0 0 0) /\ ~ strict_call (mkSD 0x40000001 AUDIT_ARCH_X86_64 0 0 0 0 0 0 0).
Proof.
  split; [vm_compute; reflexivity|]. split; [left; split; [reflexivity|right; left; reflexivity]|].
  unfold strict_call. cbn. intuition discriminate.
Qed.

(** C116 *)
Theorem C116_strict_mode_excluded_by_pledges :
  forall prof w t d o w' evs,
  distinct w -> In t (w_threads w) -> asks_for_strict_mode d ->
  wstep prof w (OSys (t_uid t) d o) = (w', evs) -> In (EvCall (t_uid t) d Proceed) evs ->
  (t_filters t <> [] -> w' = w) /\
  (t_filters t = [] ->
   forall x, In x (w_threads w') <->
     x = set_filters t [strict_mode] \/ In x (w_threads w) /\ t_uid x <> t_uid t).
Proof. exact StrictFacts.c116_enter. Qed.
Print Assumptions C116_strict_mode_excluded_by_pledges.
(** Asked for by a pledged thread, and by one that is not. *)
Example C116_enter_example :
  let t1 := mkThread 0 100 101 true false [built [StdIO] (Errno 1)] None in
  let t2 := mkThread 1 100 102 false false [] None in
  let w := mkWorld [t1; t2] 2 in
  let strict := call SYS_prctl 22 1 0 0 0 in
  let o := mkOracle nobody [] false false 0 in
  asks_for_strict_mode strict /\
  wstep Debug w (OSys 0 strict o) = (w, [EvCall 0 strict Proceed]) /\
  wstep Debug w (OSys 1 strict o) = (mkWorld [t1; set_filters t2 [strict_mode]] 2, [EvCall 1 strict Proceed]) /\
  wstep Debug w (OSys 1 (call SYS_seccomp 0 0 0 0 0) o) =
    (mkWorld [t1; set_filters t2 [strict_mode]] 2, [EvCall 1 (call SYS_seccomp 0 0 0 0 0) Proceed]).
Proof.
  cbv zeta. split; [left; repeat split|]. repeat split; vm_compute; reflexivity.
Qed.

(** C116 *)
Theorem C116_pledge_dies_in_strict_mode :
  forall prof amb t ps v, t_filters t = [strict_mode] ->
  pledge_override prof amb t ps v = (Died DeathThread, t).
Proof. exact StrictFacts.c116_dies. Qed.
Print Assumptions C116_pledge_dies_in_strict_mode.
Example C116_dies_example :
  pledge_override Debug amb0 (mkThread 0 100 100 false true [strict_mode] None) [StdIO; RPath] (Errno 1) =
    (Died DeathThread, mkThread 0 100 100 false true [strict_mode] None).
Proof. vm_compute. reflexivity. Qed.

(** C116 *)
Theorem C116_ever_after_in_strict_mode :
  forall prof w ops w' tr t,
  fresh_world w -> distinct w -> In t (w_threads w) -> t_filters t = [strict_mode] ->
  Forall real_calls ops -> wrun prof w ops = (w', tr) ->
  (forall d, In (EvCall (t_uid t) d Proceed) tr -> strict_call d) /\
  (forall c, ~ In (EvSpawn (t_uid t) c) tr) /\
  (forall pid tid ps v, ~ In (EvInstalled (t_uid t) pid tid ps v) tr) /\
  (forall ps v r, ~ In (EvReturned (t_uid t) ps v r) tr).
Proof. exact StrictFacts.c116_after. Qed.
Print Assumptions C116_ever_after_in_strict_mode.
Example C116_after_example :
  let t1 := mkThread 0 100 101 false false [strict_mode] None in
  let t2 := mkThread 1 100 102 false false [] None in
  let o := mkOracle nobody [] false false 300 in
  let write := call SYS_write 1 0 0 0 0 in let fork := call SYS_fork 0 0 0 0 0 in
  wrun Debug (mkWorld [t1; t2] 2) [OSys 0 write o; OSys 1 fork o; OPledge 0 [] Trap; OStep 0 (amb0 0%nat); OSys 0 fork o;
      OStep 0 (amb0 0%nat)] =
    (mkWorld [mkThread 2 300 300 false false [] None; t2] 3,
     [EvCall 0 write Proceed; EvCall 1 fork Proceed; EvSpawn 1 2; EvCall 0 fork (Kill DeathThread)]).
Proof. vm_compute. reflexivity. Qed.
