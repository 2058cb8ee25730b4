(** Property theorems C119: a pledge that is kept is not noticed.
    Generated statements; the proofs are in the files required below. *)
From Coq Require Import NArith ZArith String List Bool Lia.
From Verif Require Import Libc Machine Bpf SeccompRet Asm Vm Promises Filters Kernel World Testkit Spec Demo.
From Verif Require UnnoticedFacts.
Import ListNotations.
Local Open Scope N_scope.

(** C119 *)
Theorem C119_filters_act_only_by_what_they_answer :
  forall prof w w' ops,
  alike_worlds w w' ->
  calls_among (snd (wrun prof w ops)) = calls_among (snd (wrun prof w' ops)) ->
  no_filter_asked (snd (wrun prof w ops)) ->
  snd (wrun prof w' ops) = snd (wrun prof w ops) /\ alike_worlds (fst (wrun prof w ops)) (fst (wrun prof w' ops)).
Proof. exact UnnoticedFacts.c119_answers. Qed.
Print Assumptions C119_filters_act_only_by_what_they_answer.
(** A thread without filters and one with a filter that refuses open (with EPERM): a fork and an
    exit of the child come out the same. An open does not. *)
Example C119_answers_example :
  let no_open := [SockFilter 0x20 0 0 0; SockFilter 0x15 0 1 SYS_open; SockFilter 6 0 0 0x50001; SockFilter 6 0 0 0x7fff0000] in
  let w fs := mkWorld [mkThread 0 100 100 false false fs None] 1 in
  let o := mkOracle nobody [] false false 300 in
  let fork := call SYS_fork 0 0 0 0 0 in let exit := call SYS_exit 0 0 0 0 0 in let open := call SYS_open 4096 0 0 0 0 in
  alike_worlds (w []) (w [no_open]) /\
  wrun Debug (w []) [OSys 0 fork o; OSys 1 exit o] = (mkWorld [mkThread 0 100 100 false false [] None] 2,
    [EvCall 0 fork Proceed; EvSpawn 0 1; EvCall 1 exit Proceed]) /\
  wrun Debug (w [no_open]) [OSys 0 fork o; OSys 1 exit o] = (mkWorld [mkThread 0 100 100 false false [no_open] None] 2,
    [EvCall 0 fork Proceed; EvSpawn 0 1; EvCall 1 exit Proceed]) /\
  snd (wrun Debug (w []) [OSys 0 open o]) = [EvCall 0 open Proceed] /\
  snd (wrun Debug (w [no_open]) [OSys 0 open o]) = [EvCall 0 open (Fake (-1))].
Proof. cbv zeta. split; [split; [reflexivity|repeat constructor]|]. repeat split; vm_compute; reflexivity. Qed.

(** C119 *)
Theorem C119_a_pledge_that_is_kept_is_not_noticed :
  forall prof pid tid ps v prog U w w' ops prof',
  filter_for prof pid tid ps v prog -> also_under U prog w w' ->
  (forall p c, In (EvSpawn p c) (snd (wrun prof' w ops)) -> U p -> U c) ->
  (forall u d e, U u -> In (EvCall u d e) (snd (wrun prof' w ops)) -> native d /\ granted ps pid tid d) ->
  no_filter_asked (snd (wrun prof' w ops)) ->
  snd (wrun prof' w' ops) = snd (wrun prof' w ops) /\
  also_under U prog (fst (wrun prof' w ops)) (fst (wrun prof' w' ops)).
Proof. exact UnnoticedFacts.c119_unnoticed. Qed.
Print Assumptions C119_a_pledge_that_is_kept_is_not_noticed.
(** Under a pledge of StdIO and Proc a fork, a write of the child and its exit come out as without
    it; under one of StdIO the fork ends the process. *)
Example C119_unnoticed_example :
  let filter ps := match promises_to_prog Debug (mkEnv (Ok 100) (Ok 100)) ps KillProcess with Ok p => p | _ => [] end in
  let w fs := mkWorld [mkThread 0 100 100 true false fs None] 1 in
  let o := mkOracle nobody [] false false 300 in
  let fork := call SYS_fork 0 0 0 0 0 in let write := call SYS_write 1 4096 5 0 0 in let exit := call SYS_exit 0 0 0 0 0 in
  let ops := [OSys 0 fork o; OSys 1 write o; OSys 1 exit o] in
  let evs := [EvCall 0 fork Proceed; EvSpawn 0 1; EvCall 1 write Proceed; EvCall 1 exit Proceed] in
  snd (wrun Debug (w []) ops) = evs /\ snd (wrun Debug (w [filter [StdIO; Proc]]) ops) = evs /\
  snd (wrun Debug (w [filter [StdIO]]) ops) = [EvCall 0 fork (Kill DeathProcess)].
Proof. repeat split; vm_compute; reflexivity. Qed.

(** C119 *)
Theorem C119_refused_calls_leave_no_trace :
  forall prof w ops1 u d o ops2 r,
  In (EvCall u d (Fake r)) (snd (wstep prof (fst (wrun prof w ops1)) (OSys u d o))) ->
  fst (wrun prof w (ops1 ++ OSys u d o :: ops2)) = fst (wrun prof w (ops1 ++ ops2)) /\
  exists e1 e2, snd (wrun prof w (ops1 ++ OSys u d o :: ops2)) = e1 ++ EvCall u d (Fake r) :: e2 /\
    snd (wrun prof w (ops1 ++ ops2)) = e1 ++ e2.
Proof. exact UnnoticedFacts.c119_refused. Qed.
Print Assumptions C119_refused_calls_leave_no_trace.
(** The open that is refused might as well not have been made. *)
Example C119_refused_example :
  let no_open := [SockFilter 0x20 0 0 0; SockFilter 0x15 0 1 SYS_open; SockFilter 6 0 0 0x50001; SockFilter 6 0 0 0x7fff0000] in
  let w := mkWorld [mkThread 0 100 100 false false [no_open] None] 1 in
  let o := mkOracle nobody [] false false 300 in
  let fork := call SYS_fork 0 0 0 0 0 in let exit := call SYS_exit 0 0 0 0 0 in let open := call SYS_open 4096 0 0 0 0 in
  wrun Debug w [OSys 0 fork o; OSys 1 open o; OSys 1 exit o] = (mkWorld [mkThread 0 100 100 false false [no_open] None] 2,
    [EvCall 0 fork Proceed; EvSpawn 0 1; EvCall 1 open (Fake (-1)); EvCall 1 exit Proceed]) /\
  wrun Debug w [OSys 0 fork o; OSys 1 exit o] = (mkWorld [mkThread 0 100 100 false false [no_open] None] 2,
    [EvCall 0 fork Proceed; EvSpawn 0 1; EvCall 1 exit Proceed]).
Proof. split; vm_compute; reflexivity. Qed.
