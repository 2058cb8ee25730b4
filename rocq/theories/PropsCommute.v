(** Property theorems C122: steps of different threads commute.
    Generated statements; the proofs are in the files required below. *)
From Coq Require Import NArith ZArith String List Bool Lia.
From Verif Require Import Libc Machine Bpf SeccompRet Asm Vm Promises Filters Kernel World Testkit Spec CommuteSpec Demo.
From Verif Require CommuteFacts.
Import ListNotations.
Local Open Scope N_scope.

(** C122 *)
Theorem C122_steps_of_threads_commute :
  forall prof w o1 o2,
  distinct w -> Forall (fun t => (t_uid t < w_next w)%nat) (w_threads w) ->
  keeps_to_itself prof w o1 -> keeps_to_itself prof w o2 -> whose o1 <> whose o2 ->
  syncs o1 = false -> syncs o2 = false ->
  fst (wrun prof w [o1; o2]) = fst (wrun prof w [o2; o1]) /\
  snd (wrun prof w [o1; o2]) = snd (wstep prof w o1) ++ snd (wstep prof w o2) /\
  snd (wrun prof w [o2; o1]) = snd (wstep prof w o2) ++ snd (wstep prof w o1).
Proof. exact CommuteFacts.c122_commute. Qed.
Print Assumptions C122_steps_of_threads_commute.
(** Two threads of one process install a filter and begin a pledge.  Running a program, or TSYNC, does not
    commute with what the other thread does. *)
Example C122_commute_example :
  let allow := [SockFilter 6 0 0 0x7fff0000] in
  let t1 := mkThread 0 100 100 true false [] None in let t2 := mkThread 1 100 101 true false [] None in
  let o := mkOracle nobody allow false false 300 in
  let w := mkWorld [t1; t2] 2 in
  let a := OSys 0 (call SYS_seccomp 1 0 4096 0 0) o in let b := OPledge 1 [StdIO] Trap in
  let w' := mkWorld [mkThread 0 100 100 true false [allow] None; mkThread 1 100 101 true false [] (Some (PStart [StdIO] Trap))] 2 in
  fst (wrun Debug w [a; b]) = w' /\ fst (wrun Debug w [b; a]) = w' /\
  let a' := OSys 0 (call SYS_seccomp 1 1 4096 0 0) o in let b' := OSys 1 (call SYS_seccomp 1 0 4096 0 0) o in
  length (t_filters (hd t1 (w_threads (fst (wrun Debug w [a'; b']))))) = 1%nat /\
  fst (wrun Debug w [b'; a']) = mkWorld [t1; mkThread 1 100 101 true false [allow] None] 2.
Proof. repeat split; vm_compute; reflexivity. Qed.

(** C122 *)
Theorem C122_which_steps_keep_to_themselves :
  forall prof w o,
  distinct w -> Forall (fun t => (t_uid t < w_next w)%nat) (w_threads w) -> syncs o = false ->
  (forall ev, In ev (snd (wstep prof w o)) ->
     match ev with
     | EvSpawn _ _ | EvCall _ _ (Kill DeathProcess) | EvCall _ _ (Kill DeathSigsys) => False
     | EvCall _ d Proceed => ~ In (sd_nr d) [SYS_execve; SYS_execveat; SYS_exit_group]
     | _ => True
     end) ->
  keeps_to_itself prof w o.
Proof. exact CommuteFacts.c122_keeps. Qed.
Print Assumptions C122_which_steps_keep_to_themselves.
(** A call killing its thread, and one killing the process. *)
Example C122_keeps_example :
  let allow := [SockFilter 6 0 0 0x7fff0000] in
  let t1 := mkThread 0 100 100 true false [] None in let t2 := mkThread 1 100 101 true false [] None in
  let o := mkOracle nobody allow false false 300 in
  let w k := mkWorld [mkThread 0 100 100 true false [[SockFilter 6 0 0 k]] None; t2] 2 in
  let c := call SYS_getpid 0 0 0 0 0 in
  wstep Debug (w 0) (OSys 0 c o) = (mkWorld [t2] 2, [EvCall 0 c (Kill DeathThread)]) /\
  keeps_to_itself Debug (w 0) (OSys 0 c o) /\
  wstep Debug (w 0x80000000) (OSys 0 c o) = (mkWorld [] 2, [EvCall 0 c (Kill DeathProcess)]) /\
  ~ keeps_to_itself Debug (w 0x80000000) (OSys 0 c o).
Proof.
  cbv zeta. split; [vm_compute; reflexivity|]. split.
  { apply C122_which_steps_keep_to_themselves; [| |reflexivity|].
    - repeat constructor; cbn; intuition discriminate.
    - repeat constructor.
    - intros ev I. vm_compute in I. destruct I as [<-|[]]. exact I. }
  split; [vm_compute; reflexivity|]. intros K.
  apply (K (mkThread 1 100 101 true false [] None)); [discriminate|right; left; reflexivity].
Qed.
