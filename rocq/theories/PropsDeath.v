(** Property theorems C85: kills.
    Generated statements; the proofs are in the files required below. *)
From Coq Require Import NArith ZArith String List Bool Lia.
From Verif Require Import Libc Machine Bpf SeccompRet Asm Vm Promises Filters Kernel World Testkit Spec Demo.
From Verif Require DeathProofs.
Import ListNotations.
Local Open Scope N_scope.

(** C85 *)
Theorem C85_kill_hits_exactly_its_target :
  forall prof w o w' evs u d k,
  wstep prof w o = (w', evs) -> In (EvCall u d (Kill k)) evs ->
  exists t s, In t (w_threads w) /\ t_uid t = u /\ supervised_entry s (t_filters t) d = Kill k /\
  forall t', In t' (w_threads w') <->
    In t' (w_threads w) /\
    match k with DeathThread => t_uid t' <> u | _ => t_pid t' <> t_pid t end.
Proof. exact DeathProofs.c85_step. Qed.
Print Assumptions C85_kill_hits_exactly_its_target.
Example C85_step_example :
  let t1 := set_filters thread0 [built [StdIO] KillThread] in
  let t2 := mkThread 1 100 102 false false [built [StdIO] KillProcess] None in
  let t3 := mkThread 2 200 200 false false [] None in
  let w := mkWorld [t1; t2; t3] 3 in
  let open := call SYS_open 0 0 0 0 0 in
  let o := mkOracle nobody [] false false 0 in
  wstep Debug w (OSys 0 open o) = (mkWorld [t2; t3] 3, [EvCall 0 open (Kill DeathThread)]) /\
  wstep Debug w (OSys 1 open o) = (mkWorld [t3] 3, [EvCall 1 open (Kill DeathProcess)]).
Proof. cbv zeta. split; vm_compute; reflexivity. Qed.

(** C85 *)
Theorem C85_nobody_else_dies :
  forall prof w o w' evs t,
  wstep prof w o = (w', evs) -> In t (w_threads w) ->
  (forall t', In t' (w_threads w') -> t_uid t' <> t_uid t) ->
  o = ODie (t_uid t) \/
  (exists t0 d k, In t0 (w_threads w) /\ In (EvCall (t_uid t0) d (Kill k)) evs /\
     match k with DeathThread => t_uid t0 = t_uid t | _ => t_pid t0 = t_pid t end) \/
  (exists t0 d, In t0 (w_threads w) /\ In (EvCall (t_uid t0) d Proceed) evs /\
     (sd_nr d = SYS_exit /\ t_uid t0 = t_uid t \/ sd_nr d = SYS_exit_group /\ t_pid t0 = t_pid t \/
      (sd_nr d = SYS_execve \/ sd_nr d = SYS_execveat) /\ t_pid t0 = t_pid t /\ t_uid t0 <> t_uid t)).
Proof. exact DeathProofs.c85_only. Qed.
Print Assumptions C85_nobody_else_dies.
Example C85_only_example :
  let t2 := mkThread 1 100 102 false false [built [StdIO] KillProcess] None in
  let w := mkWorld [thread0; t2] 2 in
  let open := call SYS_open 0 0 0 0 0 in
  let (w', evs) := wstep Debug w (OSys 1 open (mkOracle nobody [] false false 0)) in
  In thread0 (w_threads w) /\ w_threads w' = [] /\
  In (EvCall (t_uid t2) open (Kill DeathProcess)) evs /\ t_pid t2 = t_pid thread0.
Proof. vm_compute. tauto. Qed.

(** C85 *)
Theorem C85_the_dead_do_nothing :
  forall prof w ops1 w1 tr1 o w2 evs ops2 w3 tr2 u d k t t',
  distinct w -> Forall (fun t => (t_uid t < w_next w)%nat) (w_threads w) ->
  wrun prof w ops1 = (w1, tr1) -> wstep prof w1 o = (w2, evs) -> wrun prof w2 ops2 = (w3, tr2) ->
  In (EvCall u d (Kill k)) evs -> In t (w_threads w1) -> t_uid t = u ->
  In t' (w_threads w1) -> (t' = t \/ k <> DeathThread /\ t_pid t' = t_pid t) ->
  (forall ev, In ev tr2 -> actor ev <> t_uid t') /\
  (forall x, In x (w_threads w3) -> t_uid x <> t_uid t').
Proof. exact DeathProofs.c85. Qed.
Print Assumptions C85_the_dead_do_nothing.
Example C85_example :
  let t1 := set_filters thread0 [built [StdIO; Proc] KillThread] in
  let t2 := mkThread 1 100 102 false false [] None in
  let w := mkWorld [t1; t2] 2 in
  let o := mkOracle nobody [] false false 300 in
  let fork := call SYS_fork 0 0 0 0 0 in
  let open := call SYS_open 0 0 0 0 0 in
  distinct w /\ Forall (fun t => (t_uid t < w_next w)%nat) (w_threads w) /\
  snd (wrun Debug w [OSys 0 fork o; OSys 0 open o; OSys 0 fork o; OPledge 0 [] Trap; OStep 0 (amb0 0%nat);
                     OSys 1 open o; OSys 2 open o; OSys 2 fork o]) =
    [EvCall 0 fork Proceed; EvSpawn 0 2] ++ EvCall 0 open (Kill DeathThread) ::
    [EvCall 1 open Proceed; EvCall 2 open (Kill DeathThread)].
Proof.
  cbv zeta. split; [repeat constructor; cbn; intuition discriminate|].
  split; [repeat constructor|]. vm_compute. reflexivity.
Qed.

(** C85 *)
Theorem C85_killing_violations_kill :
  forall prof pid tid ps v prog w t d o w' evs,
  distinct w -> In t (w_threads w) ->
  filter_for prof pid tid ps v prog -> In prog (t_filters t) -> v = KillThread \/ v = KillProcess ->
  wf_data d -> ~ (sd_arch d = X86_64 /\ granted ps pid tid d) ->
  wstep prof w (OSys (t_uid t) d o) = (w', evs) ->
  (exists k, evs = [EvCall (t_uid t) d (Kill k)]) /\
  (forall x, In x (w_threads w') -> In x (w_threads w) /\ x <> t) /\
  (v = KillProcess -> forall x, In x (w_threads w') <-> In x (w_threads w) /\ t_pid x <> t_pid t).
Proof. exact DeathProofs.c85_violation. Qed.
Print Assumptions C85_killing_violations_kill.
Example C85_violation_example :
  let permit := mkSup (Some Proceed) (Some Proceed) (Some 0%Z) in
  let t1 := set_filters thread0 [built [StdIO; Exec] (Trace 5); built [StdIO] KillThread] in
  let t2 := mkThread 1 100 102 false false [] None in
  let w := mkWorld [t1; t2] 2 in
  let exec := call SYS_execve 0 0 0 0 0 in
  distinct w /\ filter_for Debug 100 101 [StdIO] KillThread (built [StdIO] KillThread) /\
  ~ granted [StdIO] 100 101 exec /\
  wstep Debug w (OSys 0 exec (mkOracle permit [] false false 0)) =
    (mkWorld [t2] 2, [EvCall 0 exec (Kill DeathThread)]).
Proof.
  cbv zeta. split; [repeat constructor; cbn; intuition discriminate|]. split; [vm_compute; reflexivity|].
  split; [|vm_compute; reflexivity].
  intros G. PolicyProofs.row SYS_execve R. rewrite R in G by reflexivity. unfold PolicyProofs.promised in G.
  cbn in G. intuition discriminate.
Qed.
