(** Property theorems C114: programs run by execve and execveat.
    Generated statements; the proofs are in the files required below. *)
From Coq Require Import NArith ZArith String List Bool Lia.
From Verif Require Import Libc Machine Bpf SeccompRet Asm Vm Promises Filters Kernel World Testkit Spec Demo.
From Verif Require ExecFacts.
Import ListNotations.
Local Open Scope N_scope.

(** C114 *)
Theorem C114_program_keeps_the_filters :
  forall prof w t d o w' evs,
  distinct w -> In t (w_threads w) -> sd_nr d = 59 \/ sd_nr d = 322 -> o_refuse o = false ->
  supervised_entry (o_sup o) (t_filters t) d = Proceed -> wstep prof w (OSys (t_uid t) d o) = (w', evs) ->
  evs = [EvCall (t_uid t) d Proceed] /\
  forall x, In x (w_threads w') <->
    x = mkThread (t_uid t) (t_pid t) (t_pid t) (t_nnp t) (t_cap t) (t_filters t) None \/
    (In x (w_threads w) /\ t_pid x <> t_pid t).
Proof. exact ExecFacts.c114_step. Qed.
Print Assumptions C114_program_keeps_the_filters.
(** Thread 102 of process 100, in the middle of a pledge, runs a program; threads 100 and 101 end. *)
Example C114_example :
  let t1 := mkThread 1 100 102 true false [built [StdIO; Exec] Trap] (Some (PStart [StdIO] Trap)) in
  let t2 := mkThread 2 100 100 true false [] None in
  let t3 := mkThread 3 200 200 false true [] None in
  let exec := call SYS_execve 0 0 0 0 0 in
  wstep Debug (mkWorld [thread0; t1; t2; t3] 4) (OSys 1 exec (mkOracle nobody [] false false 0)) =
    (mkWorld [mkThread 1 100 100 true false [built [StdIO; Exec] Trap] None; t3] 4, [EvCall 1 exec Proceed]).
Proof. vm_compute. reflexivity. Qed.

(** C114 *)
Theorem C114_failed_program_changes_nothing :
  forall prof w t d o w' evs,
  distinct w -> In t (w_threads w) -> sd_nr d = 59 \/ sd_nr d = 322 ->
  (o_refuse o = true /\ supervised_entry (o_sup o) (t_filters t) d = Proceed) \/
  (exists z, supervised_entry (o_sup o) (t_filters t) d = Fake z) ->
  wstep prof w (OSys (t_uid t) d o) = (w', evs) -> w' = w.
Proof. exact ExecFacts.c114_refused. Qed.
Print Assumptions C114_failed_program_changes_nothing.
Example C114_refused_example :
  let t1 := mkThread 0 100 101 true false [built [StdIO] (Errno 13)] None in
  let t2 := mkThread 1 100 102 true false [] None in
  let exec := call SYS_execveat 0 0 0 0 0 in
  let w := mkWorld [t1; t2] 2 in
  wstep Debug w (OSys 0 exec (mkOracle nobody [] false false 0)) = (w, [EvCall 0 exec (Fake (-13))]) /\
  wstep Debug w (OSys 1 exec (mkOracle nobody [] true false 0)) = (w, [EvCall 1 exec Proceed]).
Proof. cbv zeta. split; vm_compute; reflexivity. Qed.

(** C114 *)
Theorem C114_programs_need_exec :
  forall prof w ops w' tr tr1 u pid tid ps v mid u' d rest,
  fresh_world w -> wrun prof w ops = (w', tr) ->
  tr = tr1 ++ EvInstalled u pid tid ps v :: mid ++ EvCall u' d Proceed :: rest ->
  hard v \/ (enforcing v /\ Forall unsupervised ops) ->
  In u' (descendants [u] mid) -> wf_data d -> sd_nr d = 59 \/ sd_nr d = 322 -> In Exec ps.
Proof. exact ExecFacts.c114_needs. Qed.
Print Assumptions C114_programs_need_exec.
(** The first program may run another; what it starts is bound by the pledge it makes itself. *)
Example C114_needs_example :
  let w := mkWorld [thread0] 1 in
  let amb := amb0 0%nat in
  let exec := call SYS_execve 0 0 0 0 0 in
  let o := mkOracle nobody [] false false 0 in
  let tr := snd (wrun Debug w (OPledge 0 [StdIO; Exec] (Errno 1) ::
                     repeat (OStep 0 amb) (pledge_length [StdIO; Exec]) ++
                     [OSys 0 exec o; OPledge 0 [StdIO] (Errno 1)] ++
                     repeat (OStep 0 amb) (pledge_length [StdIO]) ++ [OSys 0 exec o])) in
  nth_error tr 4 = Some (EvInstalled 0 100 101 [StdIO; Exec] (Errno 1)) /\
  nth_error tr 6 = Some (EvCall 0 exec Proceed) /\ In Exec [StdIO; Exec] /\
  nth_error tr 11 = Some (EvInstalled 0 100 100 [StdIO] (Errno 1)) /\
  nth_error tr 13 = Some (EvCall 0 exec (Fake (-1))).
Proof. vm_compute. tauto. Qed.

(** C114 *)
Theorem C114_program_signalling_itself :
  forall prof ps v prog w t o e w' evs t' d,
  distinct w -> In t (w_threads w) -> t_filters t = [prog] -> filter_for prof (t_pid t) (t_tid t) ps v prog ->
  enforcing v -> In StdIO ps -> ~ In Proc ps -> word (t_pid t) -> word (t_tid t) ->
  sd_nr e = 59 \/ sd_nr e = 322 -> o_refuse o = false ->
  wstep prof w (OSys (t_uid t) e o) = (w', evs) -> In (EvCall (t_uid t) e Proceed) evs ->
  In t' (w_threads w') -> t_uid t' = t_uid t -> native d ->
  (sd_nr d = SYS_kill -> sd_a0 d = t_pid t' -> syscall_entry (t_filters t') d = Proceed) /\
  (sd_nr d = SYS_tkill -> sd_a0 d = t_tid t' ->
   (syscall_entry (t_filters t') d = Proceed <-> t_tid t = t_pid t)).
Proof. exact ExecFacts.c114_self. Qed.
Print Assumptions C114_program_signalling_itself.
(** Thread 101 of process 100 pledges and runs a program, which then is thread 100. *)
Example C114_self_example :
  let p := built [StdIO; Exec] (Errno 1) in
  let t := mkThread 0 100 101 true false [p] None in
  let exec := call SYS_execve 0 0 0 0 0 in
  let (w', evs) := wstep Debug (mkWorld [t] 1) (OSys 0 exec (mkOracle nobody [] false false 0)) in
  filter_for Debug 100 101 [StdIO; Exec] (Errno 1) p /\ In (EvCall 0 exec Proceed) evs /\
  map t_tid (w_threads w') = [100] /\ map t_filters (w_threads w') = [[p]] /\
  syscall_entry [p] (call SYS_kill 100 6 0 0 0) = Proceed /\
  syscall_entry [p] (call SYS_tkill 100 6 0 0 0) = Fake (-1) /\
  syscall_entry [p] (call SYS_tkill 101 6 0 0 0) = Proceed.
Proof. vm_compute. tauto. Qed.

(** C114 *)
Theorem C114_pledge_in_progress_is_forgotten :
  forall prof w ops1 w1 tr1 t d o w2 evs ops2 w3 tr2,
  fresh_world w -> distinct w -> wrun prof w ops1 = (w1, tr1) -> In t (w_threads w1) ->
  sd_nr d = 59 \/ sd_nr d = 322 -> o_refuse o = false ->
  wstep prof w1 (OSys (t_uid t) d o) = (w2, evs) -> In (EvCall (t_uid t) d Proceed) evs ->
  wrun prof w2 ops2 = (w3, tr2) -> (forall ps v, ~ In (OPledge (t_uid t) ps v) ops2) ->
  (forall ps v r, ~ In (EvReturned (t_uid t) ps v r) tr2) /\
  (forall pid tid ps v, ~ In (EvInstalled (t_uid t) pid tid ps v) tr2).
Proof. exact ExecFacts.c114_abandoned. Qed.
Print Assumptions C114_pledge_in_progress_is_forgotten.
(** A signal handler runs a program while the thread is in a pledge: no filter is installed. *)
Example C114_abandoned_example :
  let amb := amb0 0%nat in
  let exec := call SYS_execve 0 0 0 0 0 in
  wrun Debug (mkWorld [thread0] 1)
    (OPledge 0 [] Trap :: repeat (OStep 0 amb) 3 ++ [OSys 0 exec (mkOracle nobody [] false false 0)] ++
     repeat (OStep 0 amb) (pledge_length [])) =
  (mkWorld [mkThread 0 100 100 false false [] None] 1, [EvCall 0 exec Proceed]).
Proof. vm_compute. reflexivity. Qed.
