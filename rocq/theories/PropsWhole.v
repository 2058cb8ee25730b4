(** Property theorems C123: a process all of whose threads have pledged.
    Generated statements; the proofs are in the files required below. *)
From Coq Require Import NArith ZArith String List Bool Lia.
From Verif Require Import Libc Machine Bpf SeccompRet Asm Vm Promises Filters Kernel World Testkit Spec Demo.
From Verif Require WholeFacts.
Import ListNotations.
Local Open Scope N_scope.

(** C123 *)
Theorem C123_process_of_pledged_threads_is_confined :
  forall prof w ops1 w1 tr1 pid d ops2 w2 tr2 t o,
  fresh_world w -> wrun prof w ops1 = (w1, tr1) -> wf_data d ->
  wrun prof w1 ops2 = (w2, tr2) ->
  (forall u' d' o', In (OSys u' d' o') ops2 -> o_newid o' <> pid) ->
  (forall x, In x (w_threads w1) -> t_pid x = pid ->
     exists before u pid' tid' ps v after,
       tr1 = before ++ EvInstalled u pid' tid' ps v :: after /\ In (t_uid x) (descendants [u] after) /\
       (sd_arch d = X86_64 -> forall p q, ~ granted ps p q d) /\
       (hard v \/ (enforcing v /\ Forall unsupervised (ops1 ++ ops2 ++ [OSys (t_uid t) d o])))) ->
  In t (w_threads w2) -> t_pid t = pid ->
  ~ In (EvCall (t_uid t) d Proceed) (snd (wstep prof w2 (OSys (t_uid t) d o))).
Proof. exact WholeFacts.c123. Qed.
Print Assumptions C123_process_of_pledged_threads_is_confined.
(** Two threads of a process, pledging one after the other, no longer call ptrace. *)
Example C123_example :
  let amb := mkAmb 0 0 0 0 0 0 0 nobody false 0 in let o := mkOracle nobody [] false false 0 in
  let pledge u ps := OPledge u ps KillProcess :: repeat (OStep u amb) (pledge_length ps) in
  let w1 := fst (wrun Debug two_threads (pledge 0%nat [] ++ pledge 1%nat [RPath])) in
  let tr1 := snd (wrun Debug two_threads (pledge 0%nat [] ++ pledge 1%nat [RPath])) in
  filter (fun ev => match ev with EvInstalled _ _ _ _ _ => true | _ => false end) tr1 =
    [EvInstalled 0 100 100 [] KillProcess; EvInstalled 1 100 101 [RPath] KillProcess] /\
  map t_uid (w_threads w1) = [0; 1]%nat /\
  snd (wstep Debug w1 (OSys 0 ptrace_call o)) = [EvCall 0 ptrace_call (Kill DeathProcess)] /\
  snd (wstep Debug w1 (OSys 1 ptrace_call o)) = [EvCall 1 ptrace_call (Kill DeathProcess)] /\
  snd (wstep Debug w1 (OSys 1 (call SYS_access 0 0 0 0 0) o)) = [EvCall 1 (call SYS_access 0 0 0 0 0) Proceed].
Proof. cbv zeta. repeat (apply conj); vm_compute; reflexivity. Qed.
