(** Property theorems C86-C92: the course of a pledge call, what refuses calls.
    Generated statements; the proofs are in the files required below. *)
From Coq Require Import NArith ZArith String List Bool Lia.
From Verif Require Import Libc Machine Bpf SeccompRet Asm Vm Promises Filters Kernel World Testkit Spec Demo.
From Verif Require LiveProofs JustProofs AloneProofs.
Import ListNotations.
Local Open Scope N_scope.

(** C86 *)
Theorem C86_pledge_ends :
  forall prof w ops1 w1 tr1 u t ps v ops2 w2 tr2,
  fresh_world w -> distinct w -> wrun prof w ops1 = (w1, tr1) ->
  In t (w_threads w1) -> t_uid t = u -> t_call t = None ->
  wrun prof w1 (OPledge u ps v :: ops2) = (w2, tr2) ->
  (steps_needed ps <= steps_of u ops2)%nat ->
  (exists r, In (EvReturned u ps v r) tr2) \/
  (exists d, In (EvCall u d Proceed) tr2 /\ (sd_nr d = 59 \/ sd_nr d = 322)) \/
  (forall x, In x (w_threads w2) -> t_uid x <> u).
Proof. exact LiveProofs.c86. Qed.
Print Assumptions C86_pledge_ends.
Example C86_example :
  let t2 := mkThread 1 100 102 false false [] None in
  let w := mkWorld [thread0; t2] 2 in
  let fork := call SYS_fork 0 0 0 0 0 in
  let o := mkOracle nobody [] false false 300 in
  let s := OStep 0 (amb0 0%nat) in
  let other := OSys 1 fork o in
  let ops := [s; other; s; s; OSys 0 fork o; s; other; s; OPledge 1 [StdIO] Trap; s] in
  fresh_world w /\ distinct w /\ steps_needed [Tty] = 6%nat /\ steps_of 0 ops = 6%nat /\
  In (EvReturned 0 [Tty] Trap (Ok tt)) (snd (wrun Debug w (OPledge 0 [Tty] Trap :: ops))).
Proof.
  cbv zeta. split; [repeat constructor|]. split; [repeat constructor; cbn; intuition discriminate|].
  split; [reflexivity|]. split; [reflexivity|]. vm_compute. tauto.
Qed.

(** C86 *)
Theorem C86_pledge_takes_all_its_steps :
  forall prof w ops1 w1 tr1 u t ps v ops2 w2 tr2,
  fresh_world w -> distinct w -> wrun prof w ops1 = (w1, tr1) ->
  In t (w_threads w1) -> t_uid t = u -> t_call t = None ->
  wrun prof w1 (OPledge u ps v :: ops2) = (w2, tr2) -> (forall ps' v', ~ In (OPledge u ps' v') ops2) ->
  (steps_of u ops2 < steps_needed ps)%nat ->
  (forall ps' v', ~ In (EvReturned u ps' v' (Ok tt)) tr2) /\
  (forall pid tid ps' v', ~ In (EvInstalled u pid tid ps' v') tr2).
Proof. exact LiveProofs.c86_early. Qed.
Print Assumptions C86_pledge_takes_all_its_steps.
Example C86_early_example :
  let w := mkWorld [thread0] 1 in
  let s := OStep 0 (amb0 0%nat) in
  snd (wrun Debug w (OPledge 0 [Tty] Trap :: [s; s; s; s; s])) =
    [EvCall 0 (call_set_nnp (amb0 0%nat)) Proceed] /\
  snd (wrun Debug w (OPledge 0 [Tty] Trap :: [s; s; s; s; s; s])) =
    [EvCall 0 (call_set_nnp (amb0 0%nat)) Proceed; EvCall 0 (call_set_seccomp (amb0 0%nat)) Proceed;
     EvInstalled 0 100 101 [Tty] Trap; EvReturned 0 [Tty] Trap (Ok tt)].
Proof. cbv zeta. split; vm_compute; reflexivity. Qed.

(** C87 *)
Theorem C87_calls_of_a_pledge :
  forall prof w ops1 w1 tr1 u t ps v ops2 w2 tr2,
  fresh_world w -> distinct w -> wrun prof w ops1 = (w1, tr1) ->
  In t (w_threads w1) -> t_uid t = u -> t_call t = None ->
  wrun prof w1 (OPledge u ps v :: ops2) = (w2, tr2) ->
  (forall ps' v', ~ In (OPledge u ps' v') ops2) -> (forall d o, ~ In (OSys u d o) ops2) ->
  (exists later, footprint ps = calls_by u tr2 ++ later) /\
  (In (EvReturned u ps v (Ok tt)) tr2 -> calls_by u tr2 = footprint ps).
Proof. exact LiveProofs.c87. Qed.
Print Assumptions C87_calls_of_a_pledge.
Example C87_example :
  let t2 := mkThread 1 100 102 false false [] None in
  let w := mkWorld [thread0; t2] 2 in
  let ops := OSys 1 (call SYS_fork 0 0 0 0 0) (mkOracle nobody [] false false 300) ::
             repeat (OStep 0 (amb0 0%nat)) 120 in
  let tr := snd (wrun Debug w (OPledge 0 [Tty; StdIO] Trap :: ops)) in
  footprint [Tty; StdIO] = [(39, 0); (186, 0); (157, 38); (157, 22)] /\
  calls_by 0 tr = [(39, 0); (186, 0); (157, 38); (157, 22)] /\
  In (EvReturned 0 [Tty; StdIO] Trap (Ok tt)) tr.
Proof. vm_compute. tauto. Qed.

(** C88 *)
Theorem C88_failed_pledge_leaves_no_trace_refuted :
  forall prof amb t ps v, t_filters t = [] -> t_nnp t = false ->
  4089 < promises_size ps \/ amb_oom (amb 1%nat) = true ->
  exists e, pledge_override prof amb t ps v = (Err (SysErr e), set_nnp t) /\ set_nnp t <> t.
Proof. exact LiveProofs.c88_refuted. Qed.
Print Assumptions C88_failed_pledge_leaves_no_trace_refuted.
Example C88_refuted_example :
  let full := fun _ : nat => mkAmb 1 2 3 4 5 6 7 nobody true 0 in
  pledge_override Debug full thread0 [StdIO] Trap = (Err (SysErr 12), set_nnp thread0) /\
  4089 < promises_size (repeat StdIO 20) /\
  pledge_override Debug amb0 thread0 (repeat StdIO 20) Trap = (Err (SysErr 22), set_nnp thread0).
Proof. vm_compute. repeat split. Qed.

(** C88 *)
Theorem C88_what_a_failed_pledge_leaves_partial :
  forall prof amb t ps v r t',
  pledge_override prof amb t ps v = (r, t') -> r <> Ok tt ->
  (t' = t \/ t' = set_nnp t) /\
  (t_filters t = [] -> t' = set_nnp t).
Proof. exact LiveProofs.c88_partial. Qed.
Print Assumptions C88_what_a_failed_pledge_leaves_partial.
Example C88_partial_example :
  let t := set_filters thread0 [built [StdIO; RPath] (Errno 13); built [Tty; RPath] (Errno 13)] in
  let t1 := set_filters thread0 [built [StdIO] Trap] in
  let full := fun _ : nat => mkAmb 1 2 3 4 5 6 7 nobody true 0 in
  pledge_override Release amb0 t [StdIO] Trap = (Err (SysErr 13), t) /\
  pledge_override Release full t1 [StdIO] Trap = (Err (SysErr 12), set_nnp t1).
Proof. vm_compute. repeat split. Qed.

(** C89 *)
Theorem C89_stale_registers_do_not_matter :
  forall prof l amb amb' t ps v, stack_with prof l (t_filters t) -> (forall n, alike (amb n) (amb' n)) ->
  pledge_override prof amb t ps v = pledge_override prof amb' t ps v.
Proof. exact LiveProofs.c89. Qed.
Print Assumptions C89_stale_registers_do_not_matter.
Example C89_example :
  let amb1 := fun n : nat => mkAmb (N.of_nat n) 22 (2 ^ 63) 0 38 7 (2 ^ 64 - 1) nobody false 0 in
  let t := set_filters thread0 [built [StdIO; Exec] Trap; built [StdIO] (Errno 1)] in
  (forall n, (n < 200)%nat -> alike (amb0 n) (amb1 n)) /\
  stack_with Debug [([StdIO; Exec], Trap); ([StdIO], Errno 1)] (t_filters t) /\
  pledge_override Debug amb0 t [Proc; StdIO] KillThread = pledge_override Debug amb1 t [Proc; StdIO] KillThread /\
  fst (pledge_override Debug amb0 t [Proc; StdIO] KillThread) = Ok tt.
Proof.
  cbv zeta. split.
  - intros n H. unfold alike, wf_amb. cbn [amb0 amb_ip amb_r0 amb_r1 amb_r2 amb_r3 amb_r4 amb_r5 amb_sup amb_oom amb_errno].
    repeat split; try reflexivity. lia.
  - split; [|split; vm_compute; reflexivity].
    repeat constructor; (apply (PledgeProofs.for_with Debug _ 100 101); [vm_compute; reflexivity|exact I]).
Qed.

(** C90 *)
Theorem C90_refusals_are_justified :
  forall prof w ops w' tr tr1 u d e tr2,
  fresh_world w -> (forall t, In t (w_threads w) -> t_filters t = []) ->
  Forall own_filters_none ops -> wrun prof w ops = (w', tr) ->
  tr = tr1 ++ EvCall u d e :: tr2 -> wf_data d -> e <> Proceed ->
  exists tr0 u0 pid tid ps v mid,
    tr1 = tr0 ++ EvInstalled u0 pid tid ps v :: mid /\ In u (descendants [u0] mid) /\
    (sd_arch d <> X86_64 /\ e = Kill DeathProcess \/
     sd_arch d = X86_64 /\ (small_payload v -> consequence v e) /\
     exists p q, answered u0 tr0 SYS_getpid pid p /\ answered u0 tr0 SYS_gettid tid q /\
       ~ granted ps p q d).
Proof. exact JustProofs.c90. Qed.
Print Assumptions C90_refusals_are_justified.
Example C90_example :
  let w := mkWorld [thread0] 1 in
  let amb := amb0 0%nat in
  let fork := call SYS_fork 0 0 0 0 0 in
  let exec := call SYS_execve 0 0 0 0 0 in
  let p1 := EvCall 0 (call_getpid amb) Proceed in let p2 := EvCall 0 (call_gettid amb) Proceed in
  let p3 := EvCall 0 (call_set_nnp amb) Proceed in let p4 := EvCall 0 (call_set_seccomp amb) Proceed in
  let o := mkOracle (mkSup (Some Proceed) None None) [] false false 102 in
  let ops := OPledge 0 [StdIO; Proc] (Errno 1) :: repeat (OStep 0 amb) (pledge_length [StdIO; Proc]) ++
             [OSys 0 fork o; ODie 0; OSys 1 exec o] in
  let mid := [EvReturned 0 [StdIO; Proc] (Errno 1) (Ok tt); EvCall 0 fork Proceed; EvSpawn 0 1] in
  fresh_world w /\ (forall t, In t (w_threads w) -> t_filters t = []) /\ Forall own_filters_none ops /\
  snd (wrun Debug w ops) =
    ([p1; p2; p3; p4] ++ EvInstalled 0 100 101 [StdIO; Proc] (Errno 1) :: mid) ++
    EvCall 1 exec (Fake (-1)) :: [] /\
  wf_data exec /\ In 1%nat (descendants [0%nat] mid) /\ consequence (Errno 1) (Fake (-1)) /\
  ~ granted [StdIO; Proc] 100 101 exec.
Proof.
  cbv zeta. split; [repeat constructor|]. split; [intros t [<-|[]]; reflexivity|].
  split.
  { apply Forall_forall. intros x [<-|I]; [exact Logic.I|]. apply in_app_or in I. destruct I as [I|I].
    - apply repeat_spec in I. subst x. exact Logic.I.
    - cbn [In] in I. destruct I as [<-|[<-|[<-|[]]]]; try exact Logic.I; split; try discriminate;
        intros E; vm_compute in E; discriminate E. }
  split; [vm_compute; reflexivity|]. split; [vm_compute; repeat split; reflexivity|].
  split; [left; reflexivity|]. split; [reflexivity|].
  intros G. PolicyProofs.row SYS_execve R. rewrite R in G by reflexivity. unfold PolicyProofs.promised in G.
  cbn in G. intuition discriminate.
Qed.

(** C90 *)
Theorem C90_unsupervised_refusals_are_justified :
  forall prof w ops w' tr tr1 u d e tr2,
  fresh_world w -> (forall t, In t (w_threads w) -> t_filters t = []) ->
  Forall own_filters_none ops -> Forall unsupervised ops -> wrun prof w ops = (w', tr) ->
  tr = tr1 ++ EvCall u d e :: tr2 -> wf_data d -> e <> Proceed ->
  exists tr0 u0 pid tid ps v mid,
    tr1 = tr0 ++ EvInstalled u0 pid tid ps v :: mid /\ In u (descendants [u0] mid) /\
    (sd_arch d <> X86_64 /\ e = Kill DeathProcess \/
     sd_arch d = X86_64 /\ (small_payload v -> e = fate v) /\
     exists p q, answered u0 tr0 SYS_getpid pid p /\ answered u0 tr0 SYS_gettid tid q /\
       ~ granted ps p q d).
Proof. exact JustProofs.c90_unsupervised. Qed.
Print Assumptions C90_unsupervised_refusals_are_justified.
Example C90_unsupervised_example :
  let w := mkWorld [thread0] 1 in
  let amb := amb0 0%nat in
  let exec := call SYS_execve 0 0 0 0 0 in
  let ops := OPledge 0 [RPath] (Trace 7) :: repeat (OStep 0 amb) (pledge_length [RPath]) ++
             [OSys 0 exec (mkOracle nobody [] false false 0)] in
  fresh_world w /\ Forall own_filters_none ops /\ Forall unsupervised ops /\
  exists tr1 tr2, snd (wrun Debug w ops) = tr1 ++ EvCall 0 exec (Fake (-38)) :: tr2 /\
                  fate (Trace 7) = Fake (-38).
Proof.
  cbv zeta. split; [repeat constructor|].
  split; [|split].
  1,2: apply Forall_forall; intros x [<-|I]; [exact Logic.I|]; apply in_app_or in I; destruct I as [I|I];
    [apply repeat_spec in I; subst x|cbn [In] in I; destruct I as [<-|[]]].
  - exact Logic.I.
  - split; [discriminate|]. intros E. vm_compute in E. discriminate E.
  - reflexivity.
  - reflexivity.
  - eexists [_; _; _; _], []. split; vm_compute; reflexivity.
Qed.

(** C91 *)
Theorem C91_filters_are_the_pledges_of_the_line :
  forall prof w ops w' tr t,
  fresh_world w -> (forall t, In t (w_threads w) -> t_filters t = []) ->
  Forall own_filters_none ops -> wrun prof w ops = (w', tr) -> In t (w_threads w') ->
  stack_with prof (map (fun i => (i_ps i, i_v i)) (line (t_uid t) (rev tr))) (t_filters t) /\
  (honest_ids tr -> stack_of prof (line (t_uid t) (rev tr)) (t_filters t)).
Proof. exact JustProofs.c91. Qed.
Print Assumptions C91_filters_are_the_pledges_of_the_line.
Example C91_example :
  let w := mkWorld [thread0] 1 in
  let amb := amb0 0%nat in
  let fork := call SYS_fork 0 0 0 0 0 in
  let exec := call SYS_execve 0 0 0 0 0 in
  let o := mkOracle nobody [] false false 102 in
  let steps u ps := repeat (OStep u amb) (pledge_length ps) in
  let ops := OPledge 0 [StdIO; Proc; Exec] (Errno 1) :: steps 0%nat [StdIO; Proc; Exec] ++
             OSys 0 fork o :: OPledge 0 [StdIO] KillProcess :: steps 0%nat [StdIO] ++
             OPledge 1 [StdIO; RPath] (Trace 7) :: steps 1%nat [StdIO; RPath] ++ [OSys 1 exec o] in
  let its := [mkInst 102 102 [StdIO; RPath] (Trace 7); mkInst 100 101 [StdIO; Proc; Exec] (Errno 1)] in
  let tr := snd (wrun Debug w ops) in
  fresh_world w /\ (forall t, In t (w_threads w) -> t_filters t = []) /\ Forall own_filters_none ops /\
  map t_uid (w_threads (fst (wrun Debug w ops))) = [1%nat; 0%nat] /\
  map (fun t => length (t_filters t)) (w_threads (fst (wrun Debug w ops))) = [2%nat; 2%nat] /\
  line 1 (rev tr) = its /\
  line 0 (rev tr) = [mkInst 100 101 [StdIO] KillProcess; mkInst 100 101 [StdIO; Proc; Exec] (Errno 1)] /\
  forallb (fun ev => match ev with EvCall _ d (Fake _) => negb ((sd_nr d =? 39) || (sd_nr d =? 186)) | _ => true end) tr
    = true.
Proof.
  cbv zeta. split; [repeat constructor|]. split; [intros t [<-|[]]; reflexivity|].
  split.
  { repeat (apply Forall_cons; [exact I||(split; [intros E; vm_compute in E; discriminate E|discriminate])|]
            || (apply Forall_app; split; [apply Forall_forall; intros x X; apply repeat_spec in X; subst x; exact I|])).
    constructor. }
  split; [vm_compute; reflexivity|]. split; [vm_compute; reflexivity|]. split; [vm_compute; reflexivity|].
  split; [vm_compute; reflexivity|]. vm_compute. reflexivity.
Qed.

(** C91 *)
Theorem C91_fate_of_a_call :
  forall prof w ops w' tr tr1 u d e tr2,
  fresh_world w -> (forall t, In t (w_threads w) -> t_filters t = []) ->
  Forall own_filters_none ops -> Forall unsupervised ops -> wrun prof w ops = (w', tr) ->
  tr = tr1 ++ EvCall u d e :: tr2 -> honest_ids tr1 ->
  Forall (fun i => small_payload (i_v i)) (line u (rev tr1)) -> wf_data d ->
  (line u (rev tr1) = [] -> e = Proceed) /\
  (line u (rev tr1) <> [] -> sd_arch d <> X86_64 -> e = Kill DeathProcess) /\
  (line u (rev tr1) <> [] -> sd_arch d = X86_64 ->
   exists acts, Forall2 (fun i a => verdict_of i d a) (line u (rev tr1)) acts /\
     exists newer a older, acts = newer ++ a :: older /\ e = fate a /\
       Forall (fun b => (severity a < severity b)%nat) newer /\
       Forall (fun b => (severity a <= severity b)%nat) older).
Proof. exact JustProofs.c91_fate. Qed.
Print Assumptions C91_fate_of_a_call.
Example C91_fate_example :
  let w := mkWorld [thread0] 1 in
  let amb := amb0 0%nat in
  let fork := call SYS_fork 0 0 0 0 0 in
  let exec := call SYS_execve 0 0 0 0 0 in
  let o := mkOracle nobody [] false false 102 in
  let steps u ps := repeat (OStep u amb) (pledge_length ps) in
  let ops := OPledge 0 [StdIO; Proc; Exec] (Errno 1) :: steps 0%nat [StdIO; Proc; Exec] ++
             OSys 0 fork o :: OPledge 0 [StdIO] KillProcess :: steps 0%nat [StdIO] ++
             OPledge 1 [StdIO; RPath] (Trace 7) :: steps 1%nat [StdIO; RPath] ++ [OSys 1 exec o] in
  let its := [mkInst 102 102 [StdIO; RPath] (Trace 7); mkInst 100 101 [StdIO; Proc; Exec] (Errno 1)] in
  let tr := snd (wrun Debug w ops) in
  fresh_world w /\ Forall unsupervised ops /\
  tr = removelast tr ++ EvCall 1 exec (Fake (-38)) :: [] /\ line 1 (rev (removelast tr)) = its /\
  Forall (fun i => small_payload (i_v i)) its /\ wf_data exec /\
  fate (Trace 7) = Fake (-38) /\ (severity (Trace 7) < severity Allow)%nat.
Proof.
  cbv zeta. split; [repeat constructor|].
  split.
  { repeat (apply Forall_cons; [exact I||reflexivity|]
            || (apply Forall_app; split; [apply Forall_forall; intros x X; apply repeat_spec in X; subst x; reflexivity|])).
    constructor. }
  split; [vm_compute; reflexivity|]. split; [vm_compute; reflexivity|].
  split; [repeat constructor|]. split; [vm_compute; repeat split; reflexivity|].
  split; [reflexivity|]. vm_compute. lia.
Qed.

(** C92 *)
Theorem C92_as_if_alone :
  forall prof w ops1 w1 tr1 t ps v ops2 w2 tr2 r,
  fresh_world w -> distinct w -> wrun prof w ops1 = (w1, tr1) ->
  In t (w_threads w1) -> t_call t = None ->
  Forall (leaves_alone (t_uid t)) ops2 ->
  wrun prof w1 (OPledge (t_uid t) ps v :: ops2) = (w2, tr2) ->
  In (EvReturned (t_uid t) ps v r) tr2 ->
  exists t', pledge_override prof (in_turn ps (turns (t_uid t) ops2)) t ps v = (r, t') /\
    forall x, In x (w_threads w2) -> t_uid x = t_uid t -> x = t'.
Proof. exact AloneProofs.c92. Qed.
Print Assumptions C92_as_if_alone.
Example C92_example :
  let t2 := mkThread 1 100 102 false false [] None in
  let w := mkWorld [thread0; t2] 2 in
  let s0 := OStep 0 (amb0 0%nat) in let s1 := OStep 1 (amb0 1%nat) in
  let exec := OSys 1 (call SYS_execve 0 0 0 0 0) (mkOracle nobody [] false false 0) in
  let ops := [s0; OPledge 1 [Tty; VmInfo] (Errno 5); s1; s0; s1; s0; s1; s1; s0; s1; s1; s0; s1; exec; s0] in
  let t' := set_filters (set_nnp thread0) [built [Tty] Trap] in
  fresh_world w /\ distinct w /\ t_call thread0 = None /\ Forall (leaves_alone 0) ops /\
  In (EvReturned 0 [Tty] Trap (Ok tt)) (snd (wrun Debug w (OPledge 0 [Tty] Trap :: ops))) /\
  In (EvReturned 1 [Tty; VmInfo] (Errno 5) (Ok tt)) (snd (wrun Debug w (OPledge 0 [Tty] Trap :: ops))) /\
  turns 0 ops = repeat (amb0 0%nat) 6 /\
  pledge_override Debug (in_turn [Tty] (turns 0 ops)) thread0 [Tty] Trap = (Ok tt, t') /\
  In t' (w_threads (fst (wrun Debug w (OPledge 0 [Tty] Trap :: ops)))).
Proof.
  cbv zeta. split; [repeat constructor|]. split; [repeat constructor; cbn; intuition discriminate|].
  split; [reflexivity|].
  split; [repeat (apply Forall_cons; [cbn; try split; exact Logic.I || discriminate|]); constructor|].
  split; [vm_compute; tauto|]. split; [vm_compute; tauto|]. split; [reflexivity|].
  split; [vm_compute; reflexivity|]. vm_compute. tauto.
Qed.
