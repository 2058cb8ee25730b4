(** Property theorems C120: processes do not influence each other.
    Generated statements; the proofs are in the files required below. *)
From Coq Require Import NArith ZArith String List Bool Lia.
From Verif Require Import Libc Machine Bpf SeccompRet Asm Vm Promises Filters Kernel World Testkit Spec RenameSpec Demo.
From Verif Require ApartFacts RenameFacts.
Import ListNotations.
Local Open Scope N_scope.

(** C120 *)
Theorem C120_other_processes_change_nothing :
  forall prof w o p,
  distinct w -> acts_in p w o = false ->
  (forall c x, ~ In (EvSpawn c x) (snd (wstep prof w o))) ->
  threads_of p (fst (wstep prof w o)) = threads_of p w /\ w_next (fst (wstep prof w o)) = w_next w.
Proof. exact ApartFacts.c120_others. Qed.
Print Assumptions C120_other_processes_change_nothing.
(** A process installs a filter for all its threads, and ends. *)
Example C120_others_example :
  let allow := [SockFilter 6 0 0 0x7fff0000] in
  let t1 := mkThread 0 100 100 false false [] None in let t2 := mkThread 1 100 101 false false [] None in
  let t3 := mkThread 2 200 200 true false [] None in
  let o := mkOracle nobody allow false false 300 in
  let w := mkWorld [t1; t2; t3] 3 in
  acts_in 100 w (OSys 2 (call SYS_seccomp 1 1 4096 0 0) o) = false /\
  fst (wstep Debug w (OSys 2 (call SYS_seccomp 1 1 4096 0 0) o)) = mkWorld [t1; t2; mkThread 2 200 200 true false [allow] None] 3 /\
  fst (wstep Debug w (OSys 2 (call SYS_exit_group 0 0 0 0 0) o)) = mkWorld [t1; t2] 3 /\
  fst (wstep Debug w (OSys 1 (call SYS_exit_group 0 0 0 0 0) o)) = mkWorld [t3] 3.
Proof. repeat split; vm_compute; reflexivity. Qed.

(** C120 *)
Theorem C120_own_steps_depend_on_the_process_alone :
  forall prof w v o p,
  distinct w -> distinct v -> threads_of p v = threads_of p w -> w_next v = w_next w -> acts_in p w o = true ->
  snd (wstep prof v o) = snd (wstep prof w o) /\
  threads_of p (fst (wstep prof v o)) = threads_of p (fst (wstep prof w o)) /\
  w_next (fst (wstep prof v o)) = w_next (fst (wstep prof w o)).
Proof. exact ApartFacts.c120_own. Qed.
Print Assumptions C120_own_steps_depend_on_the_process_alone.
(** A fork of the third thread, beside the two others and alone. *)
Example C120_own_example :
  let allow := [SockFilter 6 0 0 0x7fff0000] in
  let t1 := mkThread 0 100 100 false false [] None in let t2 := mkThread 1 100 101 false false [] None in
  let t3 := mkThread 2 200 200 true false [] None in
  let o := mkOracle nobody allow false false 300 in
  let fork := call SYS_fork 0 0 0 0 0 in
  let child := mkThread 3 300 300 true false [] None in
  threads_of 200 (mkWorld [t3] 3) = threads_of 200 (mkWorld [t1; t2; t3] 3) /\
  wstep Debug (mkWorld [t1; t2; t3] 3) (OSys 2 fork o) = (mkWorld [child; t1; t2; t3] 4, [EvCall 2 fork Proceed; EvSpawn 2 3]) /\
  wstep Debug (mkWorld [t3] 3) (OSys 2 fork o) = (mkWorld [child; t3] 4, [EvCall 2 fork Proceed; EvSpawn 2 3]).
Proof. repeat split; vm_compute; reflexivity. Qed.

(** C120 *)
Theorem C120_a_process_runs_as_if_alone :
  forall prof p mine ops w v,
  distinct w -> Forall (fun t => (t_uid t < w_next w)%nat) (w_threads w) ->
  distinct v -> Forall (fun t => (t_uid t < w_next v)%nat) (w_threads v) ->
  threads_of p v = threads_of p w -> w_next v = w_next w ->
  (forall ops1 ops2 t, ops = ops1 ++ ops2 -> In t (w_threads (fst (wrun prof w ops1))) ->
     mine (t_uid t) = (t_pid t =? p)) ->
  (forall c x, In (EvSpawn c x) (snd (wrun prof w ops)) -> mine c = true) ->
  let alone := wrun prof v (choices_of prof p w ops) in
  threads_of p (fst alone) = threads_of p (fst (wrun prof w ops)) /\
  w_next (fst alone) = w_next (fst (wrun prof w ops)) /\
  snd alone = filter (fun ev => mine (actor ev)) (snd (wrun prof w ops)).
Proof. exact ApartFacts.c120_history. Qed.
Print Assumptions C120_a_process_runs_as_if_alone.
(** While the first process creates a thread and one of its threads exits, the other makes a call and
    ends: alone the first does the same. *)
Example C120_history_example :
  let allow := [SockFilter 6 0 0 0x7fff0000] in
  let t1 := mkThread 0 100 100 false false [] None in let t2 := mkThread 1 100 101 false false [] None in
  let t3 := mkThread 2 200 200 true false [] None in
  let o := mkOracle nobody allow false false 300 in
  let thread := call SYS_clone CLONE_THREAD 0 0 0 0 in let exit := call SYS_exit 0 0 0 0 0 in
  let getpid := call SYS_getpid 0 0 0 0 0 in let leave := call SYS_exit_group 0 0 0 0 0 in
  let ops := [OSys 2 getpid o; OSys 0 thread o; OSys 2 leave o; OSys 1 exit o; OSys 2 getpid o] in
  let t4 := mkThread 3 100 300 false false [] None in
  choices_of Debug 100 (mkWorld [t1; t2; t3] 3) ops = [OSys 0 thread o; OSys 1 exit o] /\
  wrun Debug (mkWorld [t1; t2; t3] 3) ops = (mkWorld [t4; t1] 4,
    [EvCall 2 getpid Proceed; EvCall 0 thread Proceed; EvSpawn 0 3; EvCall 2 leave Proceed; EvCall 1 exit Proceed]) /\
  wrun Debug (mkWorld [t1; t2] 3) [OSys 0 thread o; OSys 1 exit o] = (mkWorld [t4; t1] 4,
    [EvCall 0 thread Proceed; EvSpawn 0 3; EvCall 1 exit Proceed]).
Proof. repeat split; vm_compute; reflexivity. Qed.

(** C120 *)
Theorem C120_a_process_runs_as_if_alone_whatever_others_create :
  forall prof p mine ops w v,
  distinct w -> Forall (fun t => (t_uid t < w_next w)%nat) (w_threads w) ->
  distinct v -> Forall (fun t => (t_uid t < w_next v)%nat) (w_threads v) ->
  threads_of p v = threads_of p w ->
  (forall ops1 ops2 t, ops = ops1 ++ ops2 -> In t (w_threads (fst (wrun prof w ops1))) ->
     mine (t_uid t) = (t_pid t =? p)) ->
  (forall c x, In (EvSpawn c x) (snd (wrun prof w ops)) -> mine c = false -> mine x = false) ->
  exists f, (forall n, (n < w_next w)%nat -> f n = n) /\
    let alone := wrun prof v (map (named_op f) (choices_of prof p w ops)) in
    threads_of p (fst alone) = map (named f) (threads_of p (fst (wrun prof w ops))) /\
    snd alone = map (named_event f) (filter (fun ev => mine (actor ev)) (snd (wrun prof w ops))).
Proof. exact RenameFacts.c120_renamed. Qed.
Print Assumptions C120_a_process_runs_as_if_alone_whatever_others_create.
(** The other process forks first, so that the thread the first one creates is number 4 instead of 3. *)
Example C120_renamed_example :
  let t1 := mkThread 0 100 100 false false [] None in let t2 := mkThread 1 100 101 false false [] None in
  let t3 := mkThread 2 200 200 true false [] None in
  let o n := mkOracle nobody [] false false n in
  let thread := call SYS_clone CLONE_THREAD 0 0 0 0 in let fork := call SYS_fork 0 0 0 0 0 in
  let getpid := call SYS_getpid 0 0 0 0 0 in
  let ops := [OSys 2 fork (o 300); OSys 0 thread (o 102); OSys 3 getpid (o 0); OSys 4 getpid (o 0)] in
  let f n := if Nat.eqb n 4 then 3%nat else n in
  let own := [OSys 0 thread (o 102); OSys 4 getpid (o 0)] in
  choices_of Debug 100 (mkWorld [t1; t2; t3] 3) ops = own /\
  map (named_op f) own = [OSys 0 thread (o 102); OSys 3 getpid (o 0)] /\
  wrun Debug (mkWorld [t1; t2; t3] 3) ops =
    (mkWorld [mkThread 4 100 102 false false [] None; mkThread 3 300 300 true false [] None; t1; t2; t3] 5,
    [EvCall 2 fork Proceed; EvSpawn 2 3; EvCall 0 thread Proceed; EvSpawn 0 4; EvCall 3 getpid Proceed; EvCall 4 getpid Proceed]) /\
  wrun Debug (mkWorld [t1; t2] 3) (map (named_op f) own) = (mkWorld [mkThread 3 100 102 false false [] None; t1; t2] 4,
    [EvCall 0 thread Proceed; EvSpawn 0 3; EvCall 3 getpid Proceed]) /\
  map (named_event f) [EvCall 0 thread Proceed; EvSpawn 0 4; EvCall 4 getpid Proceed] =
    [EvCall 0 thread Proceed; EvSpawn 0 3; EvCall 3 getpid Proceed].
Proof. cbv zeta. repeat (apply conj); vm_compute; reflexivity. Qed.
