(** What a passing integration test shows. *)
From Coq Require Import NArith ZArith List Bool Lia.
From Verif Require Import Libc Machine Bpf SeccompRet Vm Promises Filters Kernel World Spec
  FragProofs PolicyProofs PolicyFacts PledgeProofs Helpers HelperSpec.
Import ListNotations.
Local Open Scope N_scope.

(** Under a pledge with KillProcess a call proceeds or kills. *)
Lemma kill_pledge : forall pid tid ps d, wf_data d ->
  (permitted ps pid tid d /\ syscall_entry [pcode pid tid ps KillProcess] d = Proceed) \/
  (~ permitted ps pid tid d /\ syscall_entry [pcode pid tid ps KillProcess] d = Kill DeathProcess).
Proof.
  intros pid tid ps d Hd. rewrite single_entry. unfold kernel_eval. rewrite pcode_run.
  unfold permitted. rewrite <- (fgrant ps pid tid d Hd).
  rewrite lo32_small by apply Hd.
  destruct (N.eqb_spec (sd_arch d) X86_64) as [E|E].
  - destruct (existsb _ _) eqn:X.
    + left. split; [auto|reflexivity].
    + right. split; [intros [_ F]; discriminate|reflexivity].
  - right. split; [tauto|reflexivity].
Qed.

Lemma run_past : forall answer fs c past calls st,
  child_run answer fs past c = (calls, st) -> exists more, calls = past ++ more.
Proof.
  intros answer fs. induction c as [|d k IH|s]; intros past calls st H; cbn [child_run] in H.
  - injection H as <- _. exists []. rewrite app_nil_r. reflexivity.
  - assert (K : forall z, child_run answer fs (past ++ [d]) (k z) = (calls, st) -> exists more, calls = past ++ more).
    { intros z Hz. destruct (IH z _ _ _ Hz) as (m & ->). exists (d :: m). rewrite <- app_assoc. reflexivity. }
    destruct (syscall_entry fs d).
    + destruct (ends_process d); [injection H as <- _; eauto|exact (K _ H)].
    + exact (K _ H).
    + injection H as <- _. eauto.
  - injection H as <- _. exists []. rewrite app_nil_r. reflexivity.
Qed.

(** How a run under a KillProcess pledge ends. *)
Lemma run_cases : forall answer pid tid ps c past calls st, calls_wf c ->
  child_run answer [pcode pid tid ps KillProcess] past c = (calls, st) ->
  exists cs, calls = past ++ cs /\
  ((exists init d, cs = init ++ [d] /\ Forall (permitted ps pid tid) cs /\
      ends_process d = true /\ st = Some (Exited (exit_code d))) \/
   (exists init d, cs = init ++ [d] /\ Forall (permitted ps pid tid) init /\
      ~ permitted ps pid tid d /\ st = Some (Signaled SIGSYS)) \/
   (Forall (permitted ps pid tid) cs /\ st = None /\ ~ never_returns c) \/
   (Forall (permitted ps pid tid) cs /\ Forall (fun d => ends_process d = false) cs /\
    exists s, st = Some (Signaled s) /\ ~ never_raises s c)).
Proof.
  intros answer pid tid ps. induction c as [|d k IH|s]; intros past calls st W H; cbn [child_run] in H.
  - injection H as <- <-. exists []. rewrite app_nil_r. split; [reflexivity|].
    right. right. left. split; [constructor|]. split; [reflexivity|]. cbn. tauto.
  - destruct W as [Wd Wk].
    destruct (kill_pledge pid tid ps d Wd) as [[P E]|[P E]]; rewrite E in H.
    + destruct (ends_process d) eqn:X.
      * injection H as <- <-. exists [d]. split; [reflexivity|]. left. exists [], d. auto.
      * destruct (IH _ _ _ _ (Wk _) H) as (cs & -> & C). exists (d :: cs).
        split; [rewrite <- app_assoc; reflexivity|].
        destruct C as [(i & e & -> & F & Y & S)|[(i & e & -> & F & Y & S)|[(F & S & R)|(F & F2 & s & S & R)]]].
        -- left. exists (d :: i), e. repeat split; auto.
        -- right. left. exists (d :: i), e. repeat split; auto.
        -- right. right. left. split; [constructor; assumption|]. split; [exact S|].
           cbn [never_returns]. unfold ends_process in X. apply orb_false_iff in X.
           rewrite !N.eqb_neq in X. intros [A|[A|A]]; [tauto|tauto|]. exact (R (A _)).
        -- right. right. right. split; [constructor; assumption|]. split; [constructor; assumption|]. exists s. split; [exact S|].
           cbn [never_raises]. intros A. exact (R (A _)).
    + injection H as <- <-. exists [d]. split; [reflexivity|]. right. left. exists [], d. auto.
  - injection H as <- <-. exists []. rewrite app_nil_r. split; [reflexivity|].
    right. right. right. split; [constructor|]. split; [constructor|]. exists s. split; [reflexivity|]. cbn. tauto.
Qed.

Lemma andthen_wf : forall c n, calls_wf c -> calls_wf n -> calls_wf (andthen c n).
Proof. induction c as [|d k IH|s]; intros n W Wn; cbn; [exact Wn| |exact Logic.I].
  destruct W as [Wd Wk]. split; [exact Wd|]. intros z. apply IH; [apply Wk|exact Wn]. Qed.
Lemma andthen_raises : forall s c n, never_raises s c -> never_raises s n -> never_raises s (andthen c n).
Proof. intros s. induction c as [|d k IH|s']; intros n W Wn; cbn; [exact Wn| |exact W].
  intros z. apply IH; [apply W|exact Wn]. Qed.
Lemma andthen_returns : forall c n, never_returns n -> never_returns (andthen c n).
Proof. induction c as [|d k IH|s]; intros n Wn; cbn; [exact Wn| |exact Logic.I].
  right. right. intros z. apply IH. exact Wn. Qed.
Lemma main_wf : calls_wf main_returned.
Proof. cbn. repeat split. Qed.

(** A run of a sequence is the run of its first part unless that returns. *)
Lemma run_first : forall answer fs c n past calls st,
  child_run answer fs past c = (calls, Some st) -> child_run answer fs past (andthen c n) = (calls, Some st).
Proof.
  intros answer fs. induction c as [|d k IH|s]; intros n past calls st H; cbn [child_run andthen] in *.
  - discriminate.
  - destruct (syscall_entry fs d); [destruct (ends_process d)| |]; auto.
  - exact H.
Qed.
Lemma run_second : forall answer fs c n past calls,
  child_run answer fs past c = (calls, None) ->
  child_run answer fs past (andthen c n) = child_run answer fs calls n.
Proof.
  intros answer fs. induction c as [|d k IH|s]; intros n past calls H; cbn [child_run andthen] in *.
  - injection H as <-. reflexivity.
  - destruct (syscall_entry fs d); [destruct (ends_process d)| |]; try discriminate; auto.
  - discriminate.
Qed.

Lemma child_pledged : forall prof amb t ps answer body harness,
  t_filters t = [] -> amb_oom (amb 1%nat) = false -> NoDup ps ->
  child_of_test prof amb t ps KillProcess answer body harness =
  child_run answer [pcode (t_pid t) (t_tid t) ps KillProcess] []
    (andthen body (andthen harness main_returned)).
Proof.
  intros prof amb t ps answer body harness F M Nd. unfold child_of_test.
  rewrite (nodup_installs prof t amb ps KillProcess F M Nd). reflexivity.
Qed.

Lemma ends_iff : forall d, ends_process d = true <-> sd_nr d = SYS_exit \/ sd_nr d = SYS_exit_group.
Proof. intros d. unfold ends_process. rewrite orb_true_iff, !N.eqb_eq. tauto. Qed.
Lemma code_mod : forall d, exit_code d = Z.of_N (sd_a0 d mod 2 ^ 8).
Proof. intros d. unfold exit_code. change 255 with (N.ones 8). rewrite N.land_ones. reflexivity. Qed.

(** * C107 *)
Lemma c107_code : forall prof amb t ps answer body harness calls st e,
  t_filters t = [] -> amb_oom (amb 1%nat) = false -> NoDup ps ->
  calls_wf body -> calls_wf harness ->
  child_of_test prof amb t ps KillProcess answer body harness = (calls, st) ->
  (fork_expect_code e st = Passed <->
   Forall (permitted ps (t_pid t) (t_tid t)) calls /\
   exists init d, calls = init ++ [d] /\
     (sd_nr d = SYS_exit \/ sd_nr d = SYS_exit_group) /\ Z.of_N (sd_a0 d mod 2 ^ 8) = e).
Proof.
  intros prof amb t ps answer body harness calls st e F M Nd Wb Wh H.
  rewrite child_pledged in H by assumption.
  destruct (run_cases answer (t_pid t) (t_tid t) ps _ _ _ _
              (andthen_wf _ _ Wb (andthen_wf _ _ Wh main_wf)) H) as (cs & -> & C). cbn [app].
  assert (Q : forall d, exit_code d = Z.of_N (sd_a0 d mod 2 ^ 8)) by apply code_mod.
  split.
  - intros P. destruct C as [(i & d & -> & G & X & ->)|[(i & d & -> & G & X & ->)|[(G & -> & _)|(G & _ & s & -> & _)]]];
      try discriminate P.
    cbn [fork_expect_code] in P. destruct (Z.eqb_spec (exit_code d) e) as [E|E]; [|discriminate].
    split; [exact G|]. exists i, d. split; [reflexivity|]. split; [apply ends_iff; exact X|]. rewrite <- Q. exact E.
  - intros (A & i & d & E & X & Y). rewrite <- Q in Y. apply ends_iff in X.
    destruct C as [(j & f & E' & _ & _ & ->)|[(j & f & -> & _ & B & _)|[(_ & -> & R)|(_ & B & s & -> & R)]]].
    + rewrite E' in E. apply app_inj_tail in E. destruct E as [_ ->]. cbn. rewrite Y, Z.eqb_refl. reflexivity.
    + exfalso. apply Forall_app in A. destruct A as [_ A]. inversion A. contradiction.
    + exfalso. apply R. apply andthen_returns, andthen_returns. cbn. tauto.
    + exfalso. rewrite E in B. apply Forall_app in B. destruct B as [_ B].
      inversion B. congruence.
Qed.

Lemma c107_sig : forall prof amb t ps answer body harness calls st,
  t_filters t = [] -> amb_oom (amb 1%nat) = false -> NoDup ps ->
  calls_wf body -> calls_wf harness -> never_raises SIGSYS body -> never_raises SIGSYS harness ->
  child_of_test prof amb t ps KillProcess answer body harness = (calls, st) ->
  (fork_expect_sig SIGSYS st = Passed <->
   exists init d, calls = init ++ [d] /\ Forall (permitted ps (t_pid t) (t_tid t)) init /\
     ~ permitted ps (t_pid t) (t_tid t) d) /\
  (never_returns body -> child_of_test prof amb t ps KillProcess answer body Ret = (calls, st)).
Proof.
  intros prof amb t ps answer body harness calls st F M Nd Wb Wh Rb Rh H.
  rewrite child_pledged in H by assumption. split.
  - assert (Rm : never_raises SIGSYS main_returned) by (cbn; discriminate).
    destruct (run_cases answer (t_pid t) (t_tid t) ps _ _ _ _
              (andthen_wf _ _ Wb (andthen_wf _ _ Wh main_wf)) H) as (cs & -> & C). cbn [app].
    split.
    + intros P. destruct C as [(i & d & -> & G & X & ->)|[(i & d & -> & G & X & ->)|[(G & -> & _)|(G & _ & s & -> & R)]]];
        try discriminate P; [eauto|].
      cbn [fork_expect_sig] in P. destruct (N.eqb_spec s SIGSYS) as [->|E]; [|discriminate].
      exfalso. apply R. repeat apply andthen_raises; assumption.
    + intros (i & d & -> & G & X). 
      assert (Y : ~ Forall (permitted ps (t_pid t) (t_tid t)) (i ++ [d])).
      { intros A. apply Forall_app in A. destruct A as [_ A]. inversion A. contradiction. }
      destruct C as [(_ & _ & _ & A & _)|[(_ & _ & _ & _ & _ & ->)|[(A & _)|(A & _)]]];
        try contradiction. reflexivity.
  - intros Nr. rewrite child_pledged by assumption.
    destruct (child_run answer [pcode (t_pid t) (t_tid t) ps KillProcess] [] body) as [cb sb] eqn:B.
    destruct sb as [sb|].
    + rewrite (run_first _ _ _ _ _ _ _ B) in H. rewrite (run_first _ _ _ _ _ _ _ B). exact H.
    + exfalso. destruct (run_cases answer (t_pid t) (t_tid t) ps _ _ _ _ Wb B) as (cs & _ & C).
      destruct C as [(? & ? & ? & ? & ? & ?)|[(? & ? & ? & ? & ? & ?)|[(? & ? & N)|(? & ? & ? & ? & ?)]]];
        try discriminate. contradiction.
Qed.

(** The function under test does nothing wrong and returns; what comes after it is refused. *)
Lemma c107_refuted : forall prof amb t ps answer body prog calls,
  t_filters t = [] -> amb_oom (amb 1%nat) = false -> NoDup ps ->
  filter_for prof (t_pid t) (t_tid t) ps KillProcess prog ->
  child_run answer [prog] [] body = (calls, None) -> calls_wf body ->
  Forall (permitted ps (t_pid t) (t_tid t)) calls /\
  exists harness, fork_expect_sig SIGSYS
    (snd (child_of_test prof amb t ps KillProcess answer body harness)) = Passed.
Proof.
  intros prof amb t ps answer body prog calls F M Nd Hf B W.
  rewrite (filter_for_pcode _ _ _ _ _ _ Hf) in B.
  destruct (run_cases answer (t_pid t) (t_tid t) ps _ _ _ _ W B) as (cs & -> & C). split.
  - destruct C as [(? & ? & ? & ? & ? & ?)|[(? & ? & ? & ? & ? & ?)|[(G & _)|(G & _)]]];
      try discriminate; exact G.
  - exists (Sys (call6 SYS_clone3 0 0 0 0 0 0) (fun _ => Ret)).
    rewrite child_pledged by assumption.
    rewrite (run_second _ _ _ _ _ _ B). cbn [andthen child_run].
    set (d := call6 SYS_clone3 0 0 0 0 0 0).
    assert (Wd : wf_data d) by (repeat split).
    destruct (kill_pledge (t_pid t) (t_tid t) ps d Wd) as [[P E]|[P E]]; rewrite E; [|reflexivity].
    exfalso. destruct P as [_ G].
    rewrite granted_row in G. exact G.
Qed.
