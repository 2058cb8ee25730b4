(** Property theorems C36-C46: installing filters, histories and threads.
    Generated statements; the proofs are in the files required below. *)
From Coq Require Import NArith ZArith String List Bool Lia.
From Verif Require Import Libc Machine Bpf SeccompRet Asm Vm Promises Filters Kernel World Testkit Spec Demo.
From Verif Require CodeProofs PledgeProofs WorldProofs.
Import ListNotations.
Local Open Scope N_scope.

(** C36 *)
Theorem C36_kernel_accepts_generated_filters :
  forall prof pid tid ps v prog, filter_for prof pid tid ps v prog ->
  (kernel_accepts prog = true <-> N.of_nat (length prog) <= 4096) /\
  (NoDup ps -> kernel_accepts prog = true).
Proof. exact CodeProofs.c36. Qed.
Print Assumptions C36_kernel_accepts_generated_filters.
Example C36_example :
  filter_for Debug 100 101 [StdIO; Inet] Trap (built [StdIO; Inet] Trap) /\
  NoDup [StdIO; Inet] /\ (100 < length (built [StdIO; Inet] Trap))%nat /\
  kernel_accepts (built [StdIO; Inet] Trap) = true /\
  kernel_accepts (built (repeat StdIO 20) Trap) = false.
Proof.
  split; [vm_compute; reflexivity|]. split; [repeat constructor; cbn; intuition discriminate|].
  split; [apply Nat.ltb_lt|split]; vm_compute; reflexivity.
Qed.

(** C37 *)
Theorem C37_no_prefix_accepted :
  forall prof pid tid ps v prog n, filter_for prof pid tid ps v prog ->
  (n < length prog)%nat -> kernel_accepts (firstn n prog) = false.
Proof. exact PledgeProofs.c37_prefix. Qed.
Print Assumptions C37_no_prefix_accepted.
Example C37_prefix_example :
  filter_for Debug 100 101 [RPath] Trap (built [RPath] Trap) /\
  kernel_accepts (built [RPath] Trap) = true /\
  kernel_accepts (firstn (length (built [RPath] Trap) - 1) (built [RPath] Trap)) = false.
Proof. repeat split; vm_compute; reflexivity. Qed.

(** C37 *)
Theorem C37_too_long_fails :
  forall prof amb t ps v pid tid prog r t',
  filter_for prof pid tid ps v prog -> 4096 < N.of_nat (length prog) ->
  pledge_override prof amb t ps v = (r, t') ->
  t_filters t' = t_filters t /\
  (t_filters t = [] -> amb_oom (amb 1%nat) = false -> r = Err (SysErr 22)).
Proof. exact PledgeProofs.c37_pledge. Qed.
Print Assumptions C37_too_long_fails.
Example C37_pledge_example :
  let ps := repeat StdIO 20 in
  filter_for Debug 100 101 ps Trap (built ps Trap) /\
  4096 < N.of_nat (length (built ps Trap)) /\
  pledge_override Debug amb0 thread0 ps Trap = (Err (SysErr 22), set_nnp thread0).
Proof. repeat split; vm_compute; reflexivity. Qed.

(** C38 *)
Theorem C38_all_or_nothing :
  forall prof amb t ps v r t',
  pledge_override prof amb t ps v = (r, t') ->
  (r <> Ok tt -> t_filters t' = t_filters t) /\
  (t_filters t' <> t_filters t ->
   r = Ok tt /\ exists prog,
     filter_with prof (fun e => exists n, e = thread_env t (amb n)) ps v prog /\
     t_filters t' = prog :: t_filters t /\
     (fate_of t (amb 2%nat) (call_set_nnp (amb 2%nat)) = Proceed -> t_nnp t' = true)) /\
  (t_uid t' = t_uid t /\ t_pid t' = t_pid t /\ t_tid t' = t_tid t /\ t_cap t' = t_cap t) /\
  (t_nnp t = true -> t_nnp t' = true).
Proof. exact PledgeProofs.c38. Qed.
Print Assumptions C38_all_or_nothing.
Example C38_example :
  pledge_override Debug amb0 thread0 [StdIO] Trap
    = (Ok tt, set_filters (set_nnp thread0) [built [StdIO] Trap]) /\
  (let t := set_filters thread0 [built [RPath] (Errno 5)] in
   pledge_override Debug amb0 t [StdIO] Trap = (Err (SysErr 5), t)).
Proof. split; vm_compute; reflexivity. Qed.

(** C38 *)
Theorem C38_interruption :
  forall prof amb t ps v n ph t',
  pledge_steps n prof amb t (PStart ps v) = (inl ph, t') -> t_filters t' = t_filters t.
Proof. exact PledgeProofs.c38_interrupted. Qed.
Print Assumptions C38_interruption.
Example C38_interrupted_example :
  let n := pledge_length [StdIO] in
  pledge_steps (n - 2) Debug amb0 thread0 (PStart [StdIO] Trap)
    = (inl (PNnp [StdIO] Trap (built [StdIO] Trap)), thread0) /\
  pledge_steps (n - 1) Debug amb0 thread0 (PStart [StdIO] Trap)
    = (inl (PLoad [StdIO] Trap (built [StdIO] Trap)), set_nnp thread0) /\
  (exists parts rules, pledge_steps 9 Debug amb0 thread0 (PStart [StdIO] Trap)
    = (inl (PBuild [StdIO] Trap parts rules), thread0)).
Proof. cbv zeta. split; [|split; [|eexists; eexists]]; vm_compute; reflexivity. Qed.

(** C38 *)
Theorem C38_filter_acts_like_filter_for :
  forall prof (E : sysenv -> Prop) ps v prog, filter_with prof E ps v prog ->
  forall d, exists pid tid,
  (In StdIO ps -> (exists e, E e /\ env_getpid e = Ok pid) /\ (exists e, E e /\ env_gettid e = Ok tid)) /\
  forall prog', filter_for prof pid tid ps v prog' -> kernel_eval prog d = kernel_eval prog' d.
Proof. exact PledgeProofs.c38_like. Qed.
Print Assumptions C38_filter_acts_like_filter_for.
Example C38_like_example :
  let part := fun pid rule => match filter_to_bpf Debug (mkEnv (Ok pid) (Ok 101)) rule with Ok c => c | _ => [] end in
  let rules := match promises_to_filters [StdIO; StdIO] with Ok l => l | _ => [] end in
  let half := Nat.div2 (length rules) in
  let parts := map (part 100) (firstn half rules) ++ map (part 200) (skipn half rules) in
  let prog := match assemble_parts Debug parts Trap with Ok p => p | _ => [] end in
  let kill pid := mkSD SYS_kill X86_64 0 pid 15 0 0 0 0 in
  filter_with Debug (fun e => e = mkEnv (Ok 100) (Ok 101) \/ e = mkEnv (Ok 200) (Ok 101)) [StdIO; StdIO] Trap prog /\
  kernel_eval prog (kill 100) = 0x7fff0000 /\ kernel_eval prog (kill 200) = 0x7fff0000 /\
  kernel_eval prog (kill 300) = 0x30000.
Proof.
  cbv zeta. split; [|repeat split; vm_compute; reflexivity].
  eexists. eexists. split; [reflexivity|]. split; [|reflexivity].
  cbn. repeat (constructor; [solve [eexists; split; [left; reflexivity|reflexivity] |
                                    eexists; split; [right; reflexivity|reflexivity]]|]). constructor.
Qed.

(** C38 *)
Theorem C38_one_answer_gives_filter_for :
  forall prof (E : sysenv -> Prop) pid tid ps v prog, filter_with prof E ps v prog ->
  (forall e x, E e -> env_getpid e = Ok x -> x = pid) ->
  (forall e x, E e -> env_gettid e = Ok x -> x = tid) ->
  filter_for prof pid tid ps v prog.
Proof. exact PledgeProofs.c38_one. Qed.
Print Assumptions C38_one_answer_gives_filter_for.
Example C38_one_example :
  let E := fun e => exists n, e = thread_env thread0 (amb0 n) in
  filter_with Debug E [RPath] Trap (built [RPath] Trap) /\
  (forall e x, E e -> env_getpid e = Ok x -> x = 100) /\ (forall e x, E e -> env_gettid e = Ok x -> x = 101).
Proof.
  cbv zeta. split.
  - apply (PledgeProofs.for_with Debug _ 100 101); [vm_compute; reflexivity|exists 0%nat; vm_compute; reflexivity].
  - split; intros e x (n & ->) H; vm_compute in H; congruence.
Qed.

(** C39 *)
Theorem C39_success_means_installed_partial :
  forall prof t0 hist t amb ps v t',
  t_filters t0 = [] -> pledged prof t0 hist t ->
  (forall ps0 v0, In (ps0, v0) hist -> small_payload v0 /\ v0 <> Errno 0) ->
  (forall n, calm (amb n)) ->
  pledge_override prof amb t ps v = (Ok tt, t') ->
  exists prog, filter_for prof (t_pid t) (t_tid t) ps v prog /\
    t_filters t' = prog :: t_filters t /\ t_nnp t' = true.
Proof. exact PledgeProofs.c39_partial. Qed.
Print Assumptions C39_success_means_installed_partial.
Example C39_partial_example :
  (forall n, calm (amb0 n)) /\
  exists t t', pledged Debug thread0 [([StdIO; RPath; Exec], KillProcess)] t /\
    small_payload KillProcess /\ KillProcess <> Errno 0 /\
    pledge_override Debug amb0 t [StdIO; RPath] Trap = (Ok tt, t') /\ length (t_filters t') = 2%nat.
Proof.
  assert (W : forall n, calm (amb0 n)) by (intros n; vm_compute; repeat split; reflexivity).
  split; [exact W|]. eexists. eexists. split.
  { eapply pledged_cons; [intros n; apply (proj1 (W n))|vm_compute; reflexivity|apply pledged_nil]. }
  split; [exact I|]. split; [discriminate|]. split; vm_compute; reflexivity.
Qed.

(** C39 *)
Theorem C39_success_without_filter_refuted :
  forall prof, exists t0 amb t1 t2,
  t_filters t0 = [] /\ (forall n, quiet (amb n)) /\
  pledge_override prof amb t0 [RPath] (Errno 0) = (Ok tt, t1) /\
  pledge_override prof amb t1 [StdIO] KillProcess = (Ok tt, t2) /\
  forall pid tid prog, filter_for prof pid tid [StdIO] KillProcess prog -> ~ In prog (t_filters t2).
Proof. exact PledgeProofs.c39_refuted. Qed.
Print Assumptions C39_success_without_filter_refuted.

(** C39 *)
Theorem C39_errno_0_always_misleads :
  forall prof amb amb' t ps ps' v',
  (forall n, quiet (amb n)) -> (forall n, calm (amb' n)) -> t_filters t = [] -> NoDup ps -> ~ In StdIO ps ->
  exists t1, pledge_override prof amb t ps (Errno 0) = (Ok tt, t1) /\
             pledge_override prof amb' t1 ps' v' = (Ok tt, t1).
Proof. exact PledgeProofs.c39_errno0. Qed.
Print Assumptions C39_errno_0_always_misleads.
Example C39_errno0_example : NoDup [RPath; Exec] /\ ~ In StdIO [RPath; Exec] /\ t_filters thread0 = [].
Proof. split; [repeat constructor; cbn; intuition discriminate|]. split; [cbn; intuition discriminate|reflexivity]. Qed.

(** C40 *)
Theorem C40_pledges_only_narrow :
  forall prof w ops w' tr tr1 u pid tid ps v tr2,
  fresh_world w -> wrun prof w ops = (w', tr) ->
  tr = tr1 ++ EvInstalled u pid tid ps v :: tr2 ->
  hard v \/ (enforcing v /\ Forall unsupervised ops) ->
  exists pids tids,
  (length pids <= Nat.max 1 (count_occ promise_eq_dec ps StdIO))%nat /\
  (length tids <= Nat.max 1 (count_occ promise_eq_dec ps StdIO))%nat /\
  Forall (answered u tr1 SYS_getpid pid) pids /\ Forall (answered u tr1 SYS_gettid tid) tids /\
  forall mid u' d rest,
    tr2 = mid ++ EvCall u' d Proceed :: rest -> In u' (descendants [u] mid) -> wf_data d ->
    sd_arch d = X86_64 /\ exists p t, In p pids /\ In t tids /\ granted ps p t d.
Proof. exact WorldProofs.c40. Qed.
Print Assumptions C40_pledges_only_narrow.
Example C40_example :
  let w := mkWorld [thread0] 1 in
  let amb := amb0 0%nat in
  let fork := call SYS_fork 0 0 0 0 0 in
  let read := call SYS_read 0 0 0 0 0 in
  let exec := call SYS_execve 0 0 0 0 0 in
  let p1 := EvCall 0 (call_getpid amb) Proceed in let p2 := EvCall 0 (call_gettid amb) Proceed in
  let p3 := EvCall 0 (call_set_nnp amb) Proceed in let p4 := EvCall 0 (call_set_seccomp amb) Proceed in
  let tracer := mkSup (Some Proceed) (Some Proceed) (Some 0%Z) in
  fresh_world w /\ hard (Errno 1) /\
  snd (wrun Debug w (OPledge 0 [StdIO; Proc] (Errno 1) ::
                     repeat (OStep 0 amb) (pledge_length [StdIO; Proc]) ++
                    [OSys 0 fork (mkOracle tracer [] false false 102); ODie 0;
                     OSys 1 exec (mkOracle tracer [] false false 0); OSys 1 read (mkOracle tracer [] false false 0)]))
  = [p1; p2; p3; p4] ++ EvInstalled 0 100 101 [StdIO; Proc] (Errno 1) ::
    [EvReturned 0 [StdIO; Proc] (Errno 1) (Ok tt); EvCall 0 fork Proceed; EvSpawn 0 1;
     EvCall 1 exec (Fake (-1))] ++ EvCall 1 read Proceed :: [] /\
  descendants [0%nat] [EvReturned 0 [StdIO; Proc] (Errno 1) (Ok tt); EvCall 0 fork Proceed; EvSpawn 0 1;
     EvCall 1 exec (Fake (-1))] = [1%nat; 0%nat] /\
  (forall x, answered 0 [p1; p2; p3; p4] SYS_getpid 100 x -> x = 100).
Proof.
  cbv zeta. split; [repeat constructor|]. split; [reflexivity|].
  split; [vm_compute; reflexivity|]. split; [vm_compute; reflexivity|].
  intros x [E|(d & r & I & _)]; [exact E|]. cbn [In] in I.
  destruct I as [I|[I|[I|[I|[]]]]]; discriminate I.
Qed.

(** C41 *)
Theorem C41_other_threads_refuted :
  forall prof,
  let amb := mkAmb 0 0 0 0 0 0 0 nobody false 0 in
  let ops := OPledge 0 [] KillProcess :: repeat (OStep 0 amb) (pledge_length []) ++
             [OSys 1 ptrace_call (mkOracle nobody [] false false 0)] in
  fresh_world two_threads /\ Forall (fun t => t_pid t = 100) (w_threads two_threads) /\
  wf_data ptrace_call /\ ~ (exists pid tid, granted [] pid tid ptrace_call) /\
  exists before between, snd (wrun prof two_threads ops) =
    before ++ EvInstalled 0 100 100 [] KillProcess :: EvReturned 0 [] KillProcess (Ok tt) ::
    between ++ [EvCall 1 ptrace_call Proceed].
Proof. exact WorldProofs.c41_refuted. Qed.
Print Assumptions C41_other_threads_refuted.

(** C42 *)
Theorem C42_cannot_tighten_without_stdio :
  forall prof ids ps0 v0 prog fs1 fs2 amb t ps v r t',
  filter_with prof ids ps0 v0 prog -> enforcing v0 ->
  (hard v0 \/ forall n, amb_sup (amb n) = nobody) -> ~ In StdIO ps0 ->
  t_filters t = fs1 ++ prog :: fs2 -> (forall n, wf_amb (amb n)) ->
  pledge_override prof amb t ps v = (r, t') -> t_filters t' = t_filters t.
Proof. exact PledgeProofs.c42_never. Qed.
Print Assumptions C42_cannot_tighten_without_stdio.
Example C42_never_example :
  filter_with Debug (fun _ => True) [RPath] (Errno 1) (built [RPath] (Errno 1)) /\ enforcing (Errno 1) /\ hard (Errno 1) /\
  ~ In StdIO [RPath] /\
  fst (pledge_override Debug amb0
         (set_filters thread0 [built [StdIO; RPath] Trap; built [RPath] (Errno 1); built [StdIO] Log])
         [RPath] KillProcess) = Err (SysErr 1).
Proof.
  split; [apply (PledgeProofs.for_with Debug _ 100 101); [vm_compute; reflexivity|exact I]|].
  split; [vm_compute; repeat split; discriminate|]. split; [reflexivity|].
  split; [cbn; intuition discriminate|]. vm_compute. reflexivity.
Qed.

(** C42 *)
Theorem C42_first_call_gets_the_violation :
  forall prof ids ps0 v0 prog a d,
  filter_with prof ids ps0 v0 prog -> small_payload v0 -> ~ In StdIO ps0 -> wf_amb a ->
  In d [call_getpid a; call_gettid a; call_set_nnp a; call_set_seccomp a] ->
  syscall_entry [prog] d = fate v0.
Proof. exact PledgeProofs.c42_first_call. Qed.
Print Assumptions C42_first_call_gets_the_violation.
Example C42_first_call_example :
  filter_with Debug (fun _ => True) [RPath] Trap (built [RPath] Trap) /\ wf_amb (amb0 0%nat) /\
  syscall_entry [built [RPath] Trap] (call_set_nnp (amb0 0%nat)) = Kill DeathSigsys.
Proof.
  split; [apply (PledgeProofs.for_with Debug _ 100 101); [vm_compute; reflexivity|exact I]|].
  repeat split; vm_compute; reflexivity.
Qed.

(** C42 *)
Theorem C42_later_pledge_fails :
  forall prof pledges amb t ps v r t',
  stack_with prof pledges (t_filters t) ->
  Forall (fun pv => small_payload (snd pv) /\ snd pv <> Errno 0) pledges ->
  (exists ps0 v0, In (ps0, v0) pledges /\ enforcing v0 /\ ~ In StdIO ps0) ->
  (forall n, calm (amb n)) ->
  pledge_override prof amb t ps v = (r, t') -> r <> Ok tt /\ t_filters t' = t_filters t.
Proof. exact PledgeProofs.c42_fails. Qed.
Print Assumptions C42_later_pledge_fails.
Example C42_fails_example :
  let pledges := [([StdIO], KillProcess); ([RPath], Errno 13)] in
  stack_with Debug pledges [built [StdIO] KillProcess; built [RPath] (Errno 13)] /\
  Forall (fun pv => small_payload (snd pv) /\ snd pv <> Errno 0) pledges /\
  exists ps0 v0, In (ps0, v0) pledges /\ enforcing v0 /\ ~ In StdIO ps0.
Proof.
  split; [apply (PledgeProofs.stack_of_with Debug [mkInst 100 101 [StdIO] KillProcess; mkInst 100 101 [RPath] (Errno 13)]);
          repeat constructor; vm_compute; reflexivity|].
  split; [repeat constructor; vm_compute; congruence|].
  eexists. eexists. split; [right; left; reflexivity|].
  split; [vm_compute; repeat split; discriminate|cbn; intuition discriminate].
Qed.

(** C42 *)
Theorem C42_stdio_pledges_can_be_tightened :
  forall prof pledges amb t ps v,
  stack_with prof pledges (t_filters t) ->
  Forall (fun pv => small_payload (snd pv) /\ In StdIO (fst pv)) pledges ->
  (forall n, quiet (amb n)) ->
  exists prog, filter_for prof (t_pid t) (t_tid t) ps v prog /\
  forall r t', pledge_override prof amb t ps v = (r, t') ->
    let fits := N.of_nat (length prog) <= 4096 /\
                prog_cost prog + stack_cost (t_filters t) <= 32768 in
    (fits -> r = Ok tt /\ t_filters t' = prog :: t_filters t /\ t_nnp t' = true) /\
    (~ fits -> r = Err (SysErr (if 4096 <? N.of_nat (length prog) then EINVAL else ENOMEM)) /\
               t_filters t' = t_filters t).
Proof. exact PledgeProofs.c42_succeeds. Qed.
Print Assumptions C42_stdio_pledges_can_be_tightened.
Example C42_succeeds_example :
  let pledges := [([StdIO; RPath], KillProcess)] in
  stack_with Debug pledges [built [StdIO; RPath] KillProcess] /\
  Forall (fun pv => small_payload (snd pv) /\ In StdIO (fst pv)) pledges /\
  fst (pledge_override Debug amb0 (set_filters thread0 [built [StdIO; RPath] KillProcess]) [RPath] Trap) = Ok tt /\
  stack_cost [built [StdIO; RPath] KillProcess] < 1000.
Proof.
  split; [apply (PledgeProofs.stack_of_with Debug [mkInst 100 101 [StdIO; RPath] KillProcess]);
          repeat constructor; vm_compute; reflexivity|].
  split; [repeat constructor|]. split; vm_compute; reflexivity.
Qed.

(** C43 *)
Theorem C43_strictest_action_wins :
  forall prof pledges fs d,
  stack_of prof pledges fs -> pledges <> [] -> Forall (fun i => small_payload (i_v i)) pledges ->
  native d ->
  exists acts, Forall2 (fun i a => verdict_of i d a) pledges acts /\
    exists newer a older, acts = newer ++ a :: older /\
      syscall_entry fs d = fate a /\
      Forall (fun b => (severity a < severity b)%nat) newer /\
      Forall (fun b => (severity a <= severity b)%nat) older.
Proof. exact PledgeProofs.c43. Qed.
Print Assumptions C43_strictest_action_wins.
Example C43_example :
  let pledges := [mkInst 100 101 [StdIO] (Errno 1); mkInst 100 101 [RPath] (Errno 2); mkInst 100 101 [] Log] in
  let fs := [built [StdIO] (Errno 1); built [RPath] (Errno 2); built [] Log] in
  stack_of Debug pledges fs /\ Forall (fun i => small_payload (i_v i)) pledges /\
  syscall_entry fs (call SYS_execve 0 0 0 0 0) = Fake (-1) /\
  syscall_entry fs (call SYS_read 0 0 0 0 0) = Fake (-2) /\
  syscall_entry fs (call SYS_exit 0 0 0 0 0) = Proceed.
Proof.
  split; [repeat constructor; vm_compute; reflexivity|].
  split; [repeat constructor|]. repeat split; vm_compute; reflexivity.
Qed.

(** C43 *)
Theorem C43_proceeds_iff_all_let_it :
  forall prof pledges fs d,
  stack_of prof pledges fs -> Forall (fun i => small_payload (i_v i)) pledges -> native d ->
  (syscall_entry fs d = Proceed <-> Forall (fun f => proceeds f d) fs).
Proof. exact PledgeProofs.c43_proceeds. Qed.
Print Assumptions C43_proceeds_iff_all_let_it.
Example C43_proceeds_example :
  let fs := [built [StdIO; RPath] Trap; built [RPath; WPath] (Errno 2); built [] Log] in
  stack_of Debug [mkInst 100 101 [StdIO; RPath] Trap; mkInst 100 101 [RPath; WPath] (Errno 2); mkInst 100 101 [] Log] fs /\
  syscall_entry fs (call SYS_stat 0 0 0 0 0) = Proceed /\
  syscall_entry fs (call SYS_read 0 0 0 0 0) = Fake (-2) /\
  syscall_entry fs (call SYS_truncate 0 0 0 0 0) = Kill DeathSigsys.
Proof.
  cbv zeta. split; [repeat constructor; vm_compute; reflexivity|]. repeat split; vm_compute; reflexivity.
Qed.

(** C44 *)
Theorem C44_violation_decides_refused_calls :
  forall prof pid tid ps v prog d, filter_for prof pid tid ps v prog ->
  small_payload v -> native d ->
  (granted ps pid tid d -> syscall_entry [prog] d = Proceed) /\
  (~ granted ps pid tid d -> syscall_entry [prog] d = fate v) /\
  (v = Allow \/ v = Log -> proceeds prog d) /\
  (v <> Allow -> v <> Log -> (proceeds prog d <-> granted ps pid tid d)).
Proof. exact PledgeProofs.c44. Qed.
Print Assumptions C44_violation_decides_refused_calls.
Example C44_example :
  filter_for Debug 100 101 [RPath] (Errno 5000) (built [RPath] (Errno 5000)) /\
  small_payload (Errno 5000) /\
  syscall_entry [built [RPath] (Errno 5000)] (call SYS_read 0 0 0 0 0) = Fake (-4095) /\
  syscall_entry [built [RPath] Log] (call SYS_read 0 0 0 0 0) = Proceed.
Proof. repeat split; vm_compute; reflexivity. Qed.

(** C44 *)
Theorem C44_large_payload_refuted :
  exists v, v <> Allow /\ v <> Log /\ payload_u32 v /\
  forall prof pid tid ps prog d, filter_for prof pid tid ps v prog -> native d -> proceeds prog d.
Proof. exact PledgeProofs.c44_refuted. Qed.
Print Assumptions C44_large_payload_refuted.

(** C45 *)
Theorem C45_pledge_kills_the_process :
  forall prof amb t ps,
  pledge prof amb t ps = pledge_override prof amb t ps KillProcess /\
  forall r t', pledge prof amb t ps = (r, t') -> t_filters t' <> t_filters t ->
  (forall d, native d -> (forall pid tid, ~ granted ps pid tid d) ->
     syscall_entry (t_filters t') d = Kill DeathProcess) /\
  (forall pid tid,
     (forall n x, read_call t (amb n) (call_getpid (amb n)) = Ok x -> x = pid) ->
     (forall n x, read_call t (amb n) (call_gettid (amb n)) = Ok x -> x = tid) ->
     filter_for prof pid tid ps KillProcess (hd [] (t_filters t')) /\
     forall d, native d -> ~ granted ps pid tid d -> syscall_entry (t_filters t') d = Kill DeathProcess).
Proof. exact PledgeProofs.c45. Qed.
Print Assumptions C45_pledge_kills_the_process.
Example C45_example :
  pledge Debug amb0 thread0 [StdIO] = (Ok tt, set_filters (set_nnp thread0) [built [StdIO] KillProcess]) /\
  syscall_entry [built [StdIO] KillProcess] (call SYS_execve 0 0 0 0 0) = Kill DeathProcess /\
  (forall pid tid, ~ granted [StdIO] pid tid (call SYS_execve 0 0 0 0 0)) /\
  (forall n x, read_call thread0 (amb0 n) (call_getpid (amb0 n)) = Ok x -> x = 100).
Proof.
  split; [vm_compute; reflexivity|]. split; [vm_compute; reflexivity|]. split.
  - intros pid tid G. PolicyProofs.row SYS_execve R. rewrite R in G by reflexivity.
    unfold PolicyProofs.promised in G. cbn in G. intuition discriminate.
  - intros n x H. vm_compute in H. congruence.
Qed.

(** C46 *)
Theorem C46_cost_of_generated_filters :
  forall prof pid tid ps v prog mem d, filter_for prof pid tid ps v prog ->
  let t := ktrace prog 0 0 0 mem (sd_words d) in
  (length t <= length prog)%nat /\
  (forall f, In f t -> In (sf_code f) simple_codes) /\
  exists before f, t = before ++ [f] /\ sf_code f = 0x06 /\ kernel_eval_mem mem prog d = sf_k f.
Proof. exact CodeProofs.c46. Qed.
Print Assumptions C46_cost_of_generated_filters.
Example C46_example :
  length (ktrace (built [StdIO; RPath] Trap) 0 0 0 (repeat 0 16) (sd_words (call SYS_exit 0 0 0 0 0))) = 5%nat.
Proof. vm_compute. reflexivity. Qed.

(** C46 *)
Theorem C46_accepted_filters_return :
  forall prog mem d, kernel_accepts prog = true ->
  let t := ktrace prog 0 0 0 mem (sd_words d) in
  (length t <= 4096)%nat /\
  exists before f, t = before ++ [f] /\ (sf_code f = 0x06 \/ sf_code f = 0x16 \/ sf_code f = 0x3c).
Proof. exact CodeProofs.c46_accepted. Qed.
Print Assumptions C46_accepted_filters_return.
Example C46_accepted_example : kernel_accepts (built [StdIO; RPath] Trap) = true.
Proof. vm_compute. reflexivity. Qed.
