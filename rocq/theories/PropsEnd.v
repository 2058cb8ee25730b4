(** Property theorems C115: threads and processes that end themselves.
    Generated statements; the proofs are in the files required below. *)
From Coq Require Import NArith ZArith String List Bool Lia.
From Verif Require Import Libc Machine Bpf SeccompRet Asm Vm Promises Filters Kernel World Testkit Spec Demo.
From Verif Require EndFacts.
Import ListNotations.
Local Open Scope N_scope.

(** C115 *)
Theorem C115_exit_always_works :
  forall prof l w t d o w' evs,
  distinct w -> In t (w_threads w) -> stack_with prof l (t_filters t) -> native d -> sd_nr d = SYS_exit ->
  wstep prof w (OSys (t_uid t) d o) = (w', evs) ->
  evs = [EvCall (t_uid t) d Proceed] /\
  forall x, In x (w_threads w') <-> In x (w_threads w) /\ t_uid x <> t_uid t.
Proof. exact EndFacts.c115_exit. Qed.
Print Assumptions C115_exit_always_works.
(** Under three pledges, none with StdIO. *)
Example C115_exit_example :
  let fs := [built [] KillProcess; built [RPath] (Errno 1); built [WPath] Trap] in
  let t1 := mkThread 0 100 101 true false fs None in
  let t2 := mkThread 1 100 102 true false [] None in
  let exit := call SYS_exit 3 0 0 0 0 in
  wstep Debug (mkWorld [t1; t2] 2) (OSys 0 exit (mkOracle nobody [] true false 0)) =
    (mkWorld [t2] 2, [EvCall 0 exit Proceed]).
Proof. vm_compute. reflexivity. Qed.

(** C115 *)
Theorem C115_exit_group_needs_stdio :
  forall prof pledges w t d o w' evs,
  distinct w -> In t (w_threads w) -> stack_of prof pledges (t_filters t) ->
  Forall (fun i => enforcing (i_v i)) pledges -> o_sup o = nobody -> native d -> sd_nr d = SYS_exit_group ->
  wstep prof w (OSys (t_uid t) d o) = (w', evs) ->
  (In (EvCall (t_uid t) d Proceed) evs <-> Forall (fun i => In StdIO (i_ps i)) pledges) /\
  (In (EvCall (t_uid t) d Proceed) evs ->
   forall x, In x (w_threads w') <-> In x (w_threads w) /\ t_pid x <> t_pid t).
Proof. exact EndFacts.c115_group. Qed.
Print Assumptions C115_exit_group_needs_stdio.
Example C115_group_example :
  let t1 := mkThread 0 100 101 true false [built [StdIO] (Errno 1); built [StdIO; RPath] Trap] None in
  let t2 := mkThread 1 100 102 true false [built [RPath] (Errno 1); built [StdIO; RPath] Trap] None in
  let t3 := mkThread 2 200 200 true false [] None in
  let w := mkWorld [t1; t2; t3] 3 in
  let exit := call SYS_exit_group 0 0 0 0 0 in
  let o := mkOracle nobody [] false false 0 in
  stack_of Debug [mkInst 100 101 [StdIO] (Errno 1); mkInst 100 101 [StdIO; RPath] Trap] (t_filters t1) /\
  wstep Debug w (OSys 0 exit o) = (mkWorld [t3] 3, [EvCall 0 exit Proceed]) /\
  wstep Debug w (OSys 1 exit o) = (w, [EvCall 1 exit (Fake (-1))]).
Proof.
  cbv zeta. split; [repeat constructor; vm_compute; reflexivity|]. split; vm_compute; reflexivity.
Qed.

(** C115 *)
Theorem C115_a_process_can_end_thread_by_thread :
  forall prof w pid ds o w' tr,
  distinct w ->
  (forall t, In t (w_threads w) -> t_pid t = pid -> exists l, stack_with prof l (t_filters t)) ->
  (forall u, native (ds u) /\ sd_nr (ds u) = SYS_exit) ->
  wrun prof w (map (fun t => OSys (t_uid t) (ds (t_uid t)) o)
                   (filter (fun t => t_pid t =? pid) (w_threads w))) = (w', tr) ->
  (forall x, In x (w_threads w') <-> In x (w_threads w) /\ t_pid x <> pid) /\
  (forall ev, In ev tr -> exists u, ev = EvCall u (ds u) Proceed).
Proof. exact EndFacts.c115_all. Qed.
Print Assumptions C115_a_process_can_end_thread_by_thread.
Example C115_all_example :
  let t1 := mkThread 0 100 101 true false [built [RPath] KillProcess] None in
  let t2 := mkThread 1 100 102 true false [built [] Trap] None in
  let t3 := mkThread 2 200 200 true false [] None in
  let exit := call SYS_exit 0 0 0 0 0 in
  let o := mkOracle nobody [] false false 0 in
  wrun Debug (mkWorld [t1; t2; t3] 3) [OSys 0 exit o; OSys 1 exit o] =
    (mkWorld [t3] 3, [EvCall 0 exit Proceed; EvCall 1 exit Proceed]).
Proof. vm_compute. reflexivity. Qed.

(** C115 *)
Theorem C115_ended_threads_do_nothing :
  forall prof w ops1 w1 tr1 t d o w2 evs ops2 w3 tr2 x,
  fresh_world w -> distinct w -> wrun prof w ops1 = (w1, tr1) -> In t (w_threads w1) ->
  wstep prof w1 (OSys (t_uid t) d o) = (w2, evs) -> In (EvCall (t_uid t) d Proceed) evs ->
  wrun prof w2 ops2 = (w3, tr2) -> In x (w_threads w1) ->
  sd_nr d = SYS_exit /\ x = t \/ sd_nr d = SYS_exit_group /\ t_pid x = t_pid t ->
  (forall ev, In ev tr2 -> actor ev <> t_uid x) /\ (forall y, In y (w_threads w3) -> t_uid y <> t_uid x).
Proof. exact EndFacts.c115_after. Qed.
Print Assumptions C115_ended_threads_do_nothing.
Example C115_after_example :
  let t2 := mkThread 1 100 102 false false [] None in
  let exit := call SYS_exit_group 0 0 0 0 0 in let fork := call SYS_fork 0 0 0 0 0 in
  let o := mkOracle nobody [] false false 300 in
  wrun Debug (mkWorld [thread0; t2] 2) [OSys 1 fork o; OSys 0 exit o; OSys 0 fork o; OSys 1 fork o; OPledge 1 [] Trap;
      OStep 1 (amb0 0%nat); OSys 2 exit o] =
    (mkWorld [] 3, [EvCall 1 fork Proceed; EvSpawn 1 2; EvCall 0 exit Proceed; EvCall 2 exit Proceed]).
Proof. vm_compute. reflexivity. Qed.
