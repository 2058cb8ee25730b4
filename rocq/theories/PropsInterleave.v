(** Property theorems C121: the order in which processes take their steps does not matter.
    Generated statements; the proofs are in the files required below. *)
From Coq Require Import NArith ZArith String List Bool Lia.
From Verif Require Import Libc Machine Bpf SeccompRet Asm Vm Promises Filters Kernel World Testkit Spec Demo.
From Verif Require InterleaveFacts.
Import ListNotations.
Local Open Scope N_scope.

(** C121 *)
Theorem C121_steps_of_different_processes_commute :
  forall prof w o1 o2 t1 t2,
  distinct w -> Forall (fun t => (t_uid t < w_next w)%nat) (w_threads w) ->
  In t1 (w_threads w) -> t_uid t1 = whose o1 -> In t2 (w_threads w) -> t_uid t2 = whose o2 ->
  t_pid t1 <> t_pid t2 ->
  (forall c x, ~ In (EvSpawn c x) (snd (wstep prof w o1))) ->
  (forall c x, ~ In (EvSpawn c x) (snd (wstep prof w o2))) ->
  fst (wrun prof w [o1; o2]) = fst (wrun prof w [o2; o1]) /\
  snd (wrun prof w [o1; o2]) = snd (wstep prof w o1) ++ snd (wstep prof w o2) /\
  snd (wrun prof w [o2; o1]) = snd (wstep prof w o2) ++ snd (wstep prof w o1).
Proof. exact InterleaveFacts.c121_commute. Qed.
Print Assumptions C121_steps_of_different_processes_commute.
(** One process runs a program, the other sets no_new_privs.  Steps of one process do not commute: a thread
    that another ended does nothing. *)
Example C121_commute_example :
  let allow := [SockFilter 6 0 0 0x7fff0000] in
  let t1 := mkThread 0 100 100 false false [] None in let t2 := mkThread 1 100 101 false false [] None in
  let t3 := mkThread 2 200 200 true false [] None in
  let o := mkOracle nobody allow false false 300 in
  let exec := call SYS_execve 0 0 0 0 0 in let nnp := call SYS_prctl 38 1 0 0 0 in let leave := call SYS_exit_group 0 0 0 0 0 in
  let w := mkWorld [t1; t2; t3] 3 in
  let w' := mkWorld [mkThread 1 100 100 false false [] None; t3] 3 in
  wrun Debug w [OSys 1 exec o; OSys 2 nnp o] = (w', [EvCall 1 exec Proceed; EvCall 2 nnp Proceed]) /\
  wrun Debug w [OSys 2 nnp o; OSys 1 exec o] = (w', [EvCall 2 nnp Proceed; EvCall 1 exec Proceed]) /\
  wrun Debug w [OSys 1 exec o; OSys 0 nnp o] = (w', [EvCall 1 exec Proceed]) /\
  wrun Debug w [OSys 0 nnp o; OSys 1 exec o] = (w', [EvCall 0 nnp Proceed; EvCall 1 exec Proceed]).
Proof. repeat split; vm_compute; reflexivity. Qed.

(** C121 *)
Theorem C121_interleaving_does_not_matter :
  forall prof w ops ops',
  distinct w -> Forall (fun t => (t_uid t < w_next w)%nat) (w_threads w) ->
  (forall c x, ~ In (EvSpawn c x) (snd (wrun prof w ops))) ->
  (forall c x, ~ In (EvSpawn c x) (snd (wrun prof w ops'))) ->
  (forall p, choices_of prof p w ops' = choices_of prof p w ops) ->
  fst (wrun prof w ops') = fst (wrun prof w ops) /\
  forall p, let of_p ev := existsb (fun t => Nat.eqb (t_uid t) (actor ev)) (threads_of p w) in
    filter of_p (snd (wrun prof w ops')) = filter of_p (snd (wrun prof w ops)).
Proof. exact InterleaveFacts.c121_histories. Qed.
Print Assumptions C121_interleaving_does_not_matter.
(** Two interleavings of two calls each. *)
Example C121_histories_example :
  let allow := [SockFilter 6 0 0 0x7fff0000] in
  let t1 := mkThread 0 100 100 false false [] None in let t2 := mkThread 1 100 101 false false [] None in
  let t3 := mkThread 2 200 200 true false [] None in
  let o := mkOracle nobody allow false false 300 in
  let w := mkWorld [t1; t2; t3] 3 in
  let a := OSys 0 (call SYS_prctl 38 1 0 0 0) o in let b := OSys 1 (call SYS_exit 0 0 0 0 0) o in
  let c := OSys 2 (call SYS_seccomp 1 0 4096 0 0) o in let d := OSys 2 (call SYS_getpid 0 0 0 0 0) o in
  (forall p, choices_of Debug p w [c; a; d; b] = choices_of Debug p w [a; b; c; d]) /\
  fst (wrun Debug w [c; a; d; b]) = mkWorld [mkThread 0 100 100 true false [] None; mkThread 2 200 200 true false [allow] None] 3.
Proof.
  cbv zeta. split; [|vm_compute; reflexivity]. intros p. cbn [choices_of].
  repeat match goal with |- context [fst (wstep Debug ?w ?o)] =>
    let v := eval vm_compute in (fst (wstep Debug w o)) in
    replace (fst (wstep Debug w o)) with v by (vm_compute; reflexivity) end.
  unfold acts_in, threads_of. cbn [w_threads filter t_pid].
  destruct (N.eqb_spec 100 p); destruct (N.eqb_spec 200 p); subst; try discriminate; reflexivity.
Qed.
