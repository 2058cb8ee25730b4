(** Property theorems C72-C76: supervisors, histories, isolation.
    Generated statements; the proofs are in the files required below. *)
From Coq Require Import NArith ZArith String List Bool Lia.
From Verif Require Import Libc Machine Bpf SeccompRet Asm Vm Promises Filters Kernel World Testkit Spec Demo.
From Verif Require HistoryProofs.
Import ListNotations.
Local Open Scope N_scope.

(** C39 *)
Theorem C39_signal_handler_misleads :
  forall prof amb amb' t ps ps' v' z,
  (forall n, quiet (amb n)) -> (forall n, wf_amb (amb' n)) ->
  (forall n, s_trap (amb_sup (amb' n)) = Some z) -> (z mod 2 ^ 32 = 0)%Z ->
  t_filters t = [] -> NoDup ps -> ~ In StdIO ps ->
  exists t1, pledge_override prof amb t ps Trap = (Ok tt, t1) /\
             pledge_override prof amb' t1 ps' v' = (Ok tt, t1).
Proof. exact HistoryProofs.c39_handler. Qed.
Print Assumptions C39_signal_handler_misleads.
Example C39_handler_example :
  let amb1 := fun _ : nat => mkAmb 1 2 3 4 5 6 7 (mkSup None None (Some 0%Z)) false 0 in
  (0 mod 2 ^ 32 = 0)%Z /\ NoDup [RPath] /\
  exists t1, pledge_override Debug amb0 thread0 [RPath] Trap = (Ok tt, t1) /\
    pledge_override Debug amb1 t1 [StdIO] KillProcess = (Ok tt, t1).
Proof.
  cbv zeta. split; [reflexivity|]. split; [repeat constructor; cbn; tauto|].
  exists (set_filters (set_nnp thread0) [built [RPath] Trap]). split; vm_compute; reflexivity.
Qed.

(** C39 *)
Theorem C39_success_means_installed_in_histories_partial :
  forall prof w ops w' tr, fresh_world w ->
  Forall (fun t => Forall frank (t_filters t)) (w_threads w) -> Forall frank_op ops ->
  wrun prof w ops = (w', tr) ->
  (forall u d z, In (EvCall u d (Fake z)) tr -> (z mod 2 ^ 32 <> 0)%Z) /\
  (forall tr1 u ps v tr2, tr = tr1 ++ EvReturned u ps v (Ok tt) :: tr2 ->
     exists tr0 pid tid, tr1 = tr0 ++ [EvInstalled u pid tid ps v]).
Proof. exact HistoryProofs.c39_history. Qed.
Print Assumptions C39_success_means_installed_in_histories_partial.
Example C39_history_example :
  let allow := [SockFilter 6 0 0 0x7fff0000] in
  let w := mkWorld [set_nnp thread0; mkThread 1 100 102 false false [allow] None] 2 in
  let amb := amb0 0%nat in
  let install := call SYS_prctl 22 2 0 0 0 in
  let ops := [OSys 0 install (mkOracle nobody allow false false 0)] ++
             OPledge 0 [StdIO] (Errno 13) :: repeat (OStep 0 amb) (pledge_length [StdIO]) ++
             [OSys 0 (call SYS_execve 0 0 0 0 0) (mkOracle nobody allow false false 0)] ++
             OPledge 0 [RPath] Trap :: repeat (OStep 0 amb) (pledge_length [RPath]) in
  fresh_world w /\ Forall (fun t => Forall frank (t_filters t)) (w_threads w) /\ Forall frank_op ops /\
  snd (wrun Debug w ops) =
    [EvCall 0 install Proceed;
     EvCall 0 (call_getpid amb) Proceed; EvCall 0 (call_gettid amb) Proceed;
     EvCall 0 (call_set_nnp amb) Proceed; EvCall 0 (call_set_seccomp amb) Proceed;
     EvInstalled 0 100 101 [StdIO] (Errno 13); EvReturned 0 [StdIO] (Errno 13) (Ok tt);
     EvCall 0 (call SYS_execve 0 0 0 0 0) (Fake (-13)%Z);
     EvCall 0 (call_set_nnp amb) Proceed; EvCall 0 (call_set_seccomp amb) Proceed;
     EvInstalled 0 100 101 [RPath] Trap; EvReturned 0 [RPath] Trap (Ok tt)] /\
  ~ frank (built [StdIO] (Errno 0)).
Proof.
  assert (A : frank [SockFilter 6 0 0 0x7fff0000]) by (intros d; vm_compute; discriminate).
  cbv zeta. split; [repeat constructor|]. split; [repeat constructor; exact A|]. split; [|split].
  - apply Forall_app. split; [repeat constructor; exact A|].
    constructor; [split; [exact I|split; [reflexivity|discriminate]]|].
    apply Forall_app. split; [apply Forall_forall; intros o Io; apply repeat_spec in Io; subst o; split; [reflexivity|exact I]|].
    apply Forall_app. split; [repeat constructor; exact A|].
    constructor; [split; [exact I|split; [exact I|discriminate]]|].
    apply Forall_forall; intros o Io; apply repeat_spec in Io; subst o; split; [reflexivity|exact I].
  - vm_compute. reflexivity.
  - intros F. apply (F (call SYS_execve 0 0 0 0 0)). vm_compute. reflexivity.
Qed.

(** C41 *)
Theorem C41_single_threaded_process_partial :
  forall prof w ops1 w1 tr1 o w2 evs u pid tid ps v ops2 w3 tr2,
  fresh_world w -> wrun prof w ops1 = (w1, tr1) ->
  wstep prof w1 o = (w2, evs) -> In (EvInstalled u pid tid ps v) evs ->
  (forall t, In t (w_threads w1) -> t_pid t = pid -> t_uid t = u) ->
  wrun prof w2 ops2 = (w3, tr2) ->
  (forall u' d o', In (OSys u' d o') ops2 -> o_newid o' <> pid) ->
  forall t' d' o' w4 evs4, In t' (w_threads w3) -> t_pid t' = pid ->
  wstep prof w3 (OSys (t_uid t') d' o') = (w4, evs4) -> In (EvCall (t_uid t') d' Proceed) evs4 -> wf_data d' ->
  hard v \/ (enforcing v /\ Forall unsupervised (ops1 ++ o :: ops2 ++ [OSys (t_uid t') d' o'])) ->
  sd_arch d' = X86_64 /\
  exists p t, answered u tr1 SYS_getpid pid p /\ answered u tr1 SYS_gettid tid t /\ granted ps p t d'.
Proof. exact HistoryProofs.c41_partial. Qed.
Print Assumptions C41_single_threaded_process_partial.
Example C41_example :
  let w := mkWorld [thread0; mkThread 1 7 7 false false [] None] 2 in
  let amb := amb0 0%nat in
  let clone := call SYS_clone 0x10f00 0 0 0 0 in
  let read := call SYS_read 0 0 0 0 0 in
  let exec := call SYS_execve 0 0 0 0 0 in
  let ops := OPledge 0 [StdIO] (Errno 1) :: repeat (OStep 0 amb) (pledge_length [StdIO] - 1) in
  let w1 := fst (wrun Debug w ops) in
  let w2 := fst (wstep Debug w1 (OStep 0 amb)) in
  let w3 := fst (wrun Debug w2 [OSys 0 clone (mkOracle nobody [] false false 102)]) in
  fresh_world w /\ hard (Errno 1) /\
  snd (wstep Debug w1 (OStep 0 amb)) =
    [EvCall 0 (call_set_seccomp amb) Proceed; EvInstalled 0 100 101 [StdIO] (Errno 1);
     EvReturned 0 [StdIO] (Errno 1) (Ok tt)] /\
  map (fun t => (t_uid t, t_pid t)) (w_threads w1) = [(0%nat, 100); (1%nat, 7)] /\
  In (2%nat, 100) (map (fun t => (t_uid t, t_pid t)) (w_threads w3)) /\
  snd (wstep Debug w3 (OSys 2 read (mkOracle nobody [] false false 0))) = [EvCall 2 read Proceed] /\
  snd (wstep Debug w3 (OSys 2 exec (mkOracle nobody [] false false 0))) = [EvCall 2 exec (Fake (-1))].
Proof.
  cbv zeta. split; [repeat constructor|]. split; [reflexivity|]. split; [vm_compute; reflexivity|].
  split; [vm_compute; reflexivity|]. split; [vm_compute; tauto|]. split; vm_compute; reflexivity.
Qed.

(** C42 *)
Theorem C42_no_later_installation_in_histories :
  forall prof w ops w' tr tr1 u pid tid ps v tr2 tr3 u' pid' tid' ps' v' tr4,
  fresh_world w -> Forall real_calls ops -> wrun prof w ops = (w', tr) ->
  tr = tr1 ++ EvInstalled u pid tid ps v :: tr2 ->
  hard v \/ (enforcing v /\ Forall unsupervised ops) -> ~ In StdIO ps ->
  tr2 = tr3 ++ EvInstalled u' pid' tid' ps' v' :: tr4 -> ~ In u' (descendants [u] tr3).
Proof. exact HistoryProofs.c42_history. Qed.
Print Assumptions C42_no_later_installation_in_histories.
Example C42_history_example :
  let w := mkWorld [thread0] 1 in
  let amb := amb0 0%nat in
  let fork := call SYS_fork 0 0 0 0 0 in
  let ops := OPledge 0 [RPath; Proc] (Errno 13) :: repeat (OStep 0 amb) (pledge_length [RPath; Proc]) ++
             OSys 0 fork (mkOracle nobody [] false false 102) ::
             OPledge 1 [RPath] Trap :: repeat (OStep 1 amb) (pledge_length [RPath]) in
  fresh_world w /\ Forall real_calls ops /\ hard (Errno 13) /\ ~ In StdIO [RPath; Proc] /\
  snd (wrun Debug w ops) =
    [EvCall 0 (call_set_nnp amb) Proceed; EvCall 0 (call_set_seccomp amb) Proceed] ++
    EvInstalled 0 100 101 [RPath; Proc] (Errno 13) ::
    [EvReturned 0 [RPath; Proc] (Errno 13) (Ok tt);
     EvCall 0 fork Proceed; EvSpawn 0 1;
     EvCall 1 (call_set_nnp amb) (Fake (-13)%Z); EvReturned 1 [RPath] Trap (Err (SysErr 13))].
Proof.
  cbv zeta. split; [repeat constructor|]. split; [|split; [reflexivity|split; [cbn; intuition discriminate|vm_compute; reflexivity]]].
  assert (A : wf_amb (amb0 0%nat)) by (vm_compute; repeat split; discriminate).
  constructor; [exact I|]. apply Forall_app. split; [apply Forall_forall; intros o Io; apply repeat_spec in Io; subst o; exact A|].
  constructor; [vm_compute; repeat split; discriminate|]. constructor; [exact I|].
  apply Forall_forall; intros o Io; apply repeat_spec in Io; subst o; exact A.
Qed.

(** C72 *)
Theorem C72_hard_violations_hold_under_any_supervisor :
  forall prof pid tid ps v prog fs s d,
  filter_for prof pid tid ps v prog -> hard v -> wf_data d -> In prog fs ->
  ~ (sd_arch d = X86_64 /\ granted ps pid tid d) -> supervised_entry s fs d <> Proceed.
Proof. exact HistoryProofs.c72. Qed.
Print Assumptions C72_hard_violations_hold_under_any_supervisor.
Example C72_example :
  let all := mkSup (Some Proceed) (Some Proceed) (Some 0%Z) in
  filter_for Debug 100 101 [StdIO] (Errno 1) (built [StdIO] (Errno 1)) /\ hard (Errno 1) /\
  wf_data (call SYS_execve 0 0 0 0 0) /\
  supervised_entry all [built [Exec] (Trace 7); built [StdIO] (Errno 1)] (call SYS_execve 0 0 0 0 0) = Fake (-1) /\
  supervised_entry all [built [StdIO] Trap] (call SYS_execve 0 0 0 0 0) = Fake 0 /\
  supervised_entry all [built [StdIO] Trap] (call SYS_read 0 0 0 0 0) = Proceed.
Proof. repeat split; vm_compute; reflexivity. Qed.

(** C72 *)
Theorem C72_tracer_lifts_trace_refuted :
  forall prof pid tid ps t prog d,
  filter_for prof pid tid ps (Trace t) prog -> t < 2 ^ 16 -> native d ->
  supervised_entry (mkSup (Some Proceed) None None) [prog] d = Proceed.
Proof. exact HistoryProofs.c72_refuted. Qed.
Print Assumptions C72_tracer_lifts_trace_refuted.

(** C73 *)
Theorem C73_confinement_only_grows :
  forall prof w ops w' tr t t',
  distinct w -> Forall (fun t => (t_uid t < w_next w)%nat) (w_threads w) ->
  wrun prof w ops = (w', tr) -> In t (w_threads w) -> In t' (w_threads w') ->
  In (t_uid t') (descendants [t_uid t] tr) ->
  (exists fs, t_filters t' = fs ++ t_filters t) /\ (t_nnp t = true -> t_nnp t' = true).
Proof. exact HistoryProofs.c73. Qed.
Print Assumptions C73_confinement_only_grows.
Example C73_example :
  let w := mkWorld [set_filters thread0 [built [StdIO; Proc] Trap]] 1 in
  let fork := call SYS_fork 0 0 0 0 0 in
  distinct w /\ exists w' tr,
  wrun Debug w ([OSys 0 fork (mkOracle nobody [] false false 102); OPledge 1 [StdIO] Trap] ++
                repeat (OStep 1 (amb0 0%nat)) (pledge_length [StdIO]) ++ [ODie 0]) = (w', tr) /\
  descendants [0%nat] tr = [1%nat; 0%nat] /\
  map t_filters (w_threads w') =
    [[(match promises_to_prog Debug (mkEnv (Ok 102) (Ok 102)) [StdIO] Trap with Ok p => p | _ => [] end);
      built [StdIO; Proc] Trap]].
Proof.
  cbv zeta. split; [repeat constructor; cbn; tauto|]. eexists. eexists.
  split; [vm_compute; reflexivity|]. split; vm_compute; reflexivity.
Qed.

(** C74 *)
Theorem C74_success_follows_installation :
  forall prof w ops w' tr tr1 u ps v tr2,
  wrun prof w ops = (w', tr) -> tr = tr1 ++ EvReturned u ps v (Ok tt) :: tr2 ->
  exists tr0 ev, tr1 = tr0 ++ [ev] /\
   ((exists pid tid, ev = EvInstalled u pid tid ps v) \/
    (exists d z, ev = EvCall u d (Fake z) /\ sd_nr d = SYS_prctl /\ sd_a0 d = PR_SET_SECCOMP /\
                 sd_a1 d = 2 /\ (z mod 2 ^ 32 = 0)%Z)).
Proof. exact HistoryProofs.c74. Qed.
Print Assumptions C74_success_follows_installation.
Example C74_example :
  snd (wrun Debug (mkWorld [thread0] 1) (OPledge 0 [RPath] Trap :: repeat (OStep 0 (amb0 0%nat)) (pledge_length [RPath])))
  = [EvCall 0 (call_set_nnp (amb0 0%nat)) Proceed; EvCall 0 (call_set_seccomp (amb0 0%nat)) Proceed;
     EvInstalled 0 100 101 [RPath] Trap] ++ EvReturned 0 [RPath] Trap (Ok tt) :: [].
Proof. vm_compute. reflexivity. Qed.
(** The other case: the load was skipped with value 0. *)
Example C74_example_skipped :
  snd (wrun Debug (mkWorld [set_filters thread0 [built [RPath] (Errno 0)]] 1)
    (OPledge 0 [Exec] Trap :: repeat (OStep 0 (amb0 0%nat)) (pledge_length [Exec])))
  = [EvCall 0 (call_set_nnp (amb0 0%nat)) (Fake 0); EvCall 0 (call_set_seccomp (amb0 0%nat)) (Fake 0)] ++
    EvReturned 0 [Exec] Trap (Ok tt) :: [].
Proof. vm_compute. reflexivity. Qed.

(** C74 *)
Theorem C74_installation_is_reported :
  forall prof w ops w' tr tr1 u pid tid ps v tr2,
  wrun prof w ops = (w', tr) -> tr = tr1 ++ EvInstalled u pid tid ps v :: tr2 ->
  exists tr3, tr2 = EvReturned u ps v (Ok tt) :: tr3.
Proof. exact HistoryProofs.c74_converse. Qed.
Print Assumptions C74_installation_is_reported.
Example C74_converse_example :
  snd (wrun Debug (mkWorld [thread0] 1) (OPledge 0 [] Trap :: repeat (OStep 0 (amb0 0%nat)) (pledge_length [])))
  = [EvCall 0 (call_set_nnp (amb0 0%nat)) Proceed; EvCall 0 (call_set_seccomp (amb0 0%nat)) Proceed;
     EvInstalled 0 100 101 [] Trap; EvReturned 0 [] Trap (Ok tt)].
Proof. vm_compute. reflexivity. Qed.

(** C75 *)
Theorem C75_pledging_changes_no_other_thread :
  forall prof w u amb w' evs,
  wstep prof w (OStep u amb) = (w', evs) ->
  (forall t, In t (w_threads w) -> t_uid t <> u ->
     In t (w_threads w') \/
     exists t0 d k, In t0 (w_threads w) /\ t_uid t0 = u /\ t_pid t0 = t_pid t /\
       In (EvCall u d (Kill k)) evs /\ k <> DeathThread) /\
  (forall t, In t (w_threads w') -> t_uid t <> u -> In t (w_threads w)).
Proof. exact HistoryProofs.c75. Qed.
Print Assumptions C75_pledging_changes_no_other_thread.
Example C75_example :
  let other := mkThread 1 100 102 false false [] None in
  let stranger := mkThread 2 103 103 false false [] None in
  let stuck := set_call (set_filters thread0 [built [RPath] Trap]) (Some (PBuild [StdIO] Trap [] [KillSelf])) in
  w_threads (fst (wstep Debug (mkWorld [set_call thread0 (Some (PLoad [RPath] Trap (built [RPath] Trap))); other; stranger] 3)
                        (OStep 0 (amb0 0%nat)))) = [thread0; other; stranger] /\
  w_threads (fst (wstep Debug (mkWorld [stuck; other; stranger] 3) (OStep 0 (amb0 0%nat)))) = [stranger].
Proof. split; vm_compute; reflexivity. Qed.

(** C76 *)
Theorem C76_no_new_processes_without_proc :
  forall prof w ops w' tr tr1 u pid tid ps v tr2 t',
  fresh_world w -> Forall real_calls ops -> wrun prof w ops = (w', tr) ->
  tr = tr1 ++ EvInstalled u pid tid ps v :: tr2 ->
  hard v \/ (enforcing v /\ Forall unsupervised ops) -> ~ In Proc ps ->
  In t' (w_threads w') -> In (t_uid t') (descendants [u] tr2) -> t_pid t' = pid.
Proof. exact HistoryProofs.c76. Qed.
Print Assumptions C76_no_new_processes_without_proc.
Example C76_example :
  let amb := amb0 0%nat in
  let thread := call SYS_clone 0x3d0f00 0 0 0 0 in let fork := call SYS_fork 0 0 0 0 0 in
  exists w' tr2,
  fresh_world (mkWorld [thread0] 1) /\
  wrun Debug (mkWorld [thread0] 1)
    (OPledge 0 [StdIO] (Errno 1) :: repeat (OStep 0 amb) (pledge_length [StdIO]) ++
     [OSys 0 thread (mkOracle nobody [] false false 102); OSys 1 fork (mkOracle nobody [] false false 103);
      OSys 1 thread (mkOracle nobody [] false false 104)])
  = (w', [EvCall 0 (call_getpid amb) Proceed; EvCall 0 (call_gettid amb) Proceed;
          EvCall 0 (call_set_nnp amb) Proceed; EvCall 0 (call_set_seccomp amb) Proceed] ++
         EvInstalled 0 100 101 [StdIO] (Errno 1) :: tr2) /\
  descendants [0%nat] tr2 = [2%nat; 1%nat; 0%nat] /\
  map (fun t => (t_uid t, t_pid t, t_tid t)) (w_threads w')
    = [(2%nat, 100, 104); (1%nat, 100, 102); (0%nat, 100, 101)] /\
  In (EvCall 1 fork (Fake (-1))) tr2.
Proof.
  cbv zeta. eexists. eexists. split; [repeat constructor|]. split; [vm_compute; reflexivity|].
  split; [vm_compute; reflexivity|]. split; [vm_compute; reflexivity|].
  cbn [In]. right. right. right. left. vm_compute. reflexivity.
Qed.
