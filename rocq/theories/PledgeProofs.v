(** pledge() on threads and worlds. *)
From Coq Require Import NArith ZArith String List Bool Lia.
From Verif Require Import Libc Machine Bpf SeccompRet Asm Vm Promises Filters Kernel World Spec
  FragProofs PolicyProofs VmProofs KernelVmProofs CodeProofs.
Import ListNotations.
Local Open Scope N_scope.

(** * Filter stacks *)

Lemma action_rank_min : forall c, (- 2 ^ 31 <= action_rank c)%Z.
Proof.
  intros c. unfold action_rank. destruct (Z.ltb_spec (Z.of_N (action_bits c)) (2 ^ 31)); lia.
Qed.

Lemma rank_minimal : forall c, action_rank c = (- 2 ^ 31)%Z -> entry_of c = Kill DeathProcess.
Proof.
  intros c H. unfold action_rank in H.
  destruct (Z.ltb_spec (Z.of_N (action_bits c)) (2 ^ 31)); [lia|].
  assert (E : action_bits c = 0x80000000) by lia. unfold entry_of. rewrite E. reflexivity.
Qed.

Lemma run_min : forall d fs ret,
  (action_rank (run_filters_from ret fs d) <= action_rank ret)%Z /\
  forall f, In f fs -> (action_rank (run_filters_from ret fs d) <= action_rank (kernel_eval f d))%Z.
Proof.
  intros d. induction fs as [|f fs IH]; intros ret; cbn [run_filters_from].
  - split; [lia|contradiction].
  - destruct (IH (if (action_rank (kernel_eval f d) <? action_rank ret)%Z
                  then kernel_eval f d else ret)) as [I1 I2].
    destruct (Z.ltb_spec (action_rank (kernel_eval f d)) (action_rank ret)) as [L|L].
    + split; [lia|]. intros g [<-|Hg]; [exact I1|apply I2; exact Hg].
    + split; [lia|]. intros g [<-|Hg]; [lia|apply I2; exact Hg].
Qed.

Lemma entry_cons : forall f fs d, syscall_entry (f :: fs) d = entry_of (run_filters (f :: fs) d).
Proof. reflexivity. Qed.
Lemma entry_nonempty : forall fs d, fs <> [] -> syscall_entry fs d = entry_of (run_filters fs d).
Proof. intros [|f fs] d H; [congruence|reflexivity]. Qed.

Lemma entry_mid : forall fs1 prog fs2 d,
  syscall_entry (fs1 ++ prog :: fs2) d = entry_of (run_filters (fs1 ++ prog :: fs2) d).
Proof. intros. apply entry_nonempty. intros E. destruct fs1; discriminate. Qed.

(** * Filters seen by one call *)
Lemma for_acts : forall prof pid tid ps v prog d, filter_for prof pid tid ps v prog ->
  acts_as pid tid ps v prog d.
Proof. intros prof pid tid ps v prog d H. rewrite (filter_for_pcode _ _ _ _ _ _ H). reflexivity. Qed.

Lemma verdict_at : forall pid tid ps v prog d, acts_as pid tid ps v prog d -> native d ->
  (granted ps pid tid d -> kernel_eval prog d = 0x7fff0000) /\
  (~ granted ps pid tid d -> kernel_eval prog d = ret_into v).
Proof.
  intros pid tid ps v prog d H N. unfold acts_as in H. rewrite H.
  apply (verdict Release _ _ _ _ _ d (filter_for_exists Release pid tid ps v) N).
Qed.

(** * C16 *)
Lemma c16_at : forall pid tid ps v prog d, acts_as pid tid ps v prog d ->
  wf_data d -> sd_arch d <> X86_64 ->
  kernel_eval prog d = 0x80000000 /\
  forall fs1 fs2, syscall_entry (fs1 ++ prog :: fs2) d = Kill DeathProcess.
Proof.
  intros pid tid ps v prog d H Hd Ha.
  assert (K : kernel_eval prog d = 0x80000000) by (rewrite H; apply foreign_eval; assumption).
  split; [exact K|]. intros fs1 fs2. rewrite entry_mid. apply rank_minimal.
  destruct (run_min d (fs1 ++ prog :: fs2) 0x7fff0000) as [_ M].
  specialize (M prog (in_elt _ _ _)). rewrite K in M.
  change (action_rank 0x80000000) with (- 2 ^ 31)%Z in M.
  pose proof (action_rank_min (run_filters (fs1 ++ prog :: fs2) d)) as B.
  fold run_filters in M. lia.
Qed.
Lemma c16 : forall prof pid tid ps v prog d, filter_for prof pid tid ps v prog ->
  wf_data d -> sd_arch d <> X86_64 ->
  kernel_eval prog d = 0x80000000 /\
  forall fs1 fs2, syscall_entry (fs1 ++ prog :: fs2) d = Kill DeathProcess.
Proof.
  intros prof pid tid ps v prog d H. exact (c16_at _ _ _ _ _ d (for_acts _ _ _ _ _ _ d H)).
Qed.

(** * C43 *)

Definition rank_of (v : SeccompReturn) : Z :=
  match v with
  | KillProcess => - 2 ^ 31 | KillThread => 0 | Trap => 0x30000 | Errno _ => 0x50000
  | Trace _ => 0x7ff00000 | Log => 0x7ffc0000 | Allow => 0x7fff0000
  end.
Lemma action_rank_ret : forall v, small_payload v -> action_rank (ret_into v) = rank_of v.
Proof.
  intros v H. destruct v; try reflexivity; cbn [small_payload] in H; unfold action_rank, ret_into;
    rewrite action_split by (reflexivity || exact H); reflexivity.
Qed.
Lemma rank_severity : forall a b, small_payload a -> small_payload b ->
  (action_rank (ret_into a) <? action_rank (ret_into b))%Z = (severity a <? severity b)%nat.
Proof. intros a b Ha Hb. rewrite !action_rank_ret by assumption. destruct a, b; reflexivity. Qed.

Definition first_min (l : list SeccompReturn) (a : SeccompReturn) : Prop :=
  exists l1 l2, l = l1 ++ a :: l2 /\
    Forall (fun b => (severity a < severity b)%nat) l1 /\
    Forall (fun b => (severity a <= severity b)%nat) l2.

Lemma first_min_step : forall b x l a,
  first_min ((if (severity x <? severity b)%nat then x else b) :: l) a ->
  first_min (b :: x :: l) a.
Proof.
  intros b x l a (l1 & l2 & E & F1 & F2).
  destruct (Nat.ltb_spec (severity x) (severity b)) as [L|L]; destruct l1 as [|y l1];
    cbn [app] in E; injection E as -> ->.
  - exists [b], l2. repeat split; auto.
  - exists (b :: y :: l1), l2. inversion F1; subst.
    repeat split; [|assumption]. constructor; [lia|assumption].
  - exists [], (x :: l2). repeat split; auto.
  - exists (y :: x :: l1), l2. inversion F1; subst.
    repeat split; [|assumption]. constructor; [assumption|]. constructor; [lia|assumption].
Qed.

Lemma run_first_min : forall d fs acts b,
  Forall2 (fun f a => kernel_eval f d = ret_into a /\ small_payload a) fs acts -> small_payload b ->
  exists a, first_min (b :: acts) a /\ small_payload a /\
            run_filters_from (ret_into b) fs d = ret_into a.
Proof.
  intros d fs acts b F. revert b. induction F as [|f x fs acts [E S] F IH]; intros b Hb.
  - exists b. split; [exists [], []; auto|]. split; [exact Hb|reflexivity].
  - cbn [run_filters_from]. rewrite E, rank_severity by assumption.
    destruct (IH (if (severity x <? severity b)%nat then x else b)) as (a & M & Sa & R).
    { destruct (severity x <? severity b)%nat; assumption. }
    exists a. split; [apply first_min_step; exact M|]. split; [exact Sa|].
    rewrite <- R. destruct (severity x <? severity b)%nat; reflexivity.
Qed.

Lemma severity_6 : forall a, (6 <= severity a)%nat -> a = Allow.
Proof. destruct a; cbn; intros; try lia. reflexivity. Qed.

(** A stack that treats [d] like these pledges. *)
Definition stack_at (d : seccomp_data) (is_ : list installed) (fs : list (list sock_filter)) : Prop :=
  Forall2 (fun i f => acts_as (i_pid i) (i_tid i) (i_ps i) (i_v i) f d) is_ fs.
Lemma stack_of_at : forall prof pledges fs d, stack_of prof pledges fs -> stack_at d pledges fs.
Proof.
  intros prof pledges fs d St. induction St as [|i f is_ fs H St IH]; constructor; [|exact IH].
  exact (for_acts _ _ _ _ _ _ d H).
Qed.

Lemma verdict_code : forall i f d,
  acts_as (i_pid i) (i_tid i) (i_ps i) (i_v i) f d -> small_payload (i_v i) -> native d ->
  exists a, verdict_of i d a /\ small_payload a /\ kernel_eval f d = ret_into a.
Proof.
  intros i f d H S N. destruct (verdict_at _ _ _ _ _ _ H N) as [V1 V2].
  destruct (granted_dec (i_ps i) (i_pid i) (i_tid i) d (proj1 N)) as [G|G].
  - exists Allow. split; [left; auto|]. split; [exact I|]. rewrite V1 by exact G. reflexivity.
  - exists (i_v i). split; [right; auto|]. split; [exact S|]. apply V2. exact G.
Qed.

Lemma c43_at : forall pledges fs d,
  stack_at d pledges fs -> pledges <> [] -> Forall (fun i => small_payload (i_v i)) pledges ->
  native d ->
  exists acts, Forall2 (fun i a => verdict_of i d a) pledges acts /\
    exists newer a older, acts = newer ++ a :: older /\
      syscall_entry fs d = fate a /\
      Forall (fun b => (severity a < severity b)%nat) newer /\
      Forall (fun b => (severity a <= severity b)%nat) older.
Proof.
  intros pledges fs d St Ne Sm N.
  assert (A : exists acts, Forall2 (fun i a => verdict_of i d a) pledges acts /\
            Forall2 (fun f a => kernel_eval f d = ret_into a /\ small_payload a) fs acts).
  { clear Ne. induction St as [|i f is_ fs H St IH]; [exists []; auto|].
    inversion Sm; subst. destruct (IH H3) as (acts & A1 & A2).
    destruct (verdict_code i f d H H2 N) as (a & V & S & K).
    exists (a :: acts). split; constructor; auto. }
  destruct A as (acts & A1 & A2). exists acts. split; [exact A1|].
  destruct (run_first_min d fs acts Allow A2 I) as (a & (l1 & l2 & E & F1 & F2) & Sa & R).
  assert (NF : fs <> []) by (destruct St; congruence).
  assert (EN : syscall_entry fs d = fate a).
  { rewrite entry_nonempty by exact NF. unfold run_filters.
    change 0x7fff0000 with (ret_into Allow). rewrite R. apply entry_of_ret. exact Sa. }
  destruct l1 as [|b l1]; cbn [app] in E; injection E as <- E.
  - (* all allow *)
    destruct acts as [|x acts]; [inversion A1; subst; congruence|]. subst l2.
    inversion F2; subst. assert (x = Allow) by (apply severity_6; exact H1). subst x.
    exists [], Allow, acts. repeat split; auto.
  - inversion F1; subst. exists l1, a, l2. repeat split; auto.
Qed.
Lemma c43 : forall prof pledges fs d,
  stack_of prof pledges fs -> pledges <> [] -> Forall (fun i => small_payload (i_v i)) pledges ->
  native d ->
  exists acts, Forall2 (fun i a => verdict_of i d a) pledges acts /\
    exists newer a older, acts = newer ++ a :: older /\
      syscall_entry fs d = fate a /\
      Forall (fun b => (severity a < severity b)%nat) newer /\
      Forall (fun b => (severity a <= severity b)%nat) older.
Proof.
  intros prof pledges fs d St. exact (c43_at pledges fs d (stack_of_at _ _ _ d St)).
Qed.

Lemma fate_proceed : forall a, fate a = Proceed <-> (5 <= severity a)%nat.
Proof. destruct a; cbn; split; intros; try lia; congruence. Qed.

Lemma c43_proceeds_at : forall pledges fs d,
  stack_at d pledges fs -> Forall (fun i => small_payload (i_v i)) pledges -> native d ->
  (syscall_entry fs d = Proceed <-> Forall (fun f => proceeds f d) fs).
Proof.
  intros pledges fs d St Sm N. destruct pledges as [|i0 is0].
  { inversion St; subst. split; [constructor|reflexivity]. }
  destruct (c43_at _ fs d St ltac:(discriminate) Sm N) as (acts & A1 & nw & a & old & E & En & F1 & F2).
  assert (P : Forall2 (fun f a => proceeds f d <-> (5 <= severity a)%nat) fs acts).
  { clear - St Sm N A1. revert acts A1. induction St as [|i f is_ fs H St IH]; intros acts A1;
      inversion A1; subst; constructor.
    - inversion Sm; subst. destruct (verdict_code i f d H H3 N) as (b & V & S & K).
      assert (b = y). { destruct V as [[G ->]|[G ->]], H2 as [[G' ->]|[G' ->]]; congruence || contradiction. }
      subst b. unfold proceeds. rewrite single_entry, K, entry_of_ret by exact S. apply fate_proceed.
    - inversion Sm; subst. apply IH; assumption. }
  rewrite En, fate_proceed. split.
  - intros L. subst acts. clear - P F1 F2 L.
    assert (Q : Forall (fun b => (5 <= severity b)%nat) (nw ++ a :: old)).
    { apply Forall_app. split; [|constructor; [exact L|]];
        eapply Forall_impl; try eassumption; intros; cbn in *; lia. }
    clear - P Q. induction P; constructor; inversion Q; subst; tauto.
  - intros Q. assert (In a acts) by (subst acts; apply in_elt).
    clear - P Q H. induction P; [contradiction|]. inversion Q; subst.
    destruct H as [<-|H]; [tauto|auto].
Qed.
Lemma c43_proceeds : forall prof pledges fs d,
  stack_of prof pledges fs -> Forall (fun i => small_payload (i_v i)) pledges -> native d ->
  (syscall_entry fs d = Proceed <-> Forall (fun f => proceeds f d) fs).
Proof.
  intros prof pledges fs d St. exact (c43_proceeds_at pledges fs d (stack_of_at _ _ _ d St)).
Qed.

(** * One pledge filter inside any stack *)

(** A call that proceeds is let through by each pledge of the stack. *)
Lemma stack_grants_at : forall pid tid ps v prog fs1 fs2 d,
  acts_as pid tid ps v prog d -> enforcing v -> wf_data d ->
  syscall_entry (fs1 ++ prog :: fs2) d = Proceed ->
  sd_arch d = X86_64 /\ granted ps pid tid d.
Proof.
  intros pid tid ps v prog fs1 fs2 d H Hv Hd P.
  destruct (N.eq_dec (sd_arch d) X86_64) as [Ha|Ha].
  2:{ destruct (c16_at pid tid ps v prog d H Hd Ha) as [_ K]. rewrite K in P. discriminate. }
  split; [exact Ha|].
  destruct (granted_dec ps pid tid d Hd) as [G|G]; [exact G|exfalso].
  assert (N : native d) by (split; assumption).
  destruct (verdict_at _ _ _ _ _ _ H N) as [_ V]. specialize (V G).
  destruct (run_min d (fs1 ++ prog :: fs2) 0x7fff0000) as [_ M].
  specialize (M prog (in_elt _ _ _)). rewrite V in M.
  destruct Hv as (Sv & NA & NL). rewrite action_rank_ret in M by exact Sv.
  rewrite entry_mid in P. fold run_filters in M.
  set (r := run_filters (fs1 ++ prog :: fs2) d) in *.
  assert (R : (rank_of v < 0x7ffc0000)%Z) by (destruct v; cbn; try lia; congruence).
  assert (X : (action_rank r < 0x7ffc0000)%Z) by lia.
  unfold entry_of in P. unfold action_rank in X.
  destruct (N.eq_dec (action_bits r) 0x7fff0000) as [E|E]; [rewrite E in X; cbn in X; lia|].
  destruct (N.eq_dec (action_bits r) 0x7ffc0000) as [F|F]; [rewrite F in X; cbn in X; lia|].
  revert P E F. generalize (action_bits r). intros b P E F.
  repeat match type of P with
  | (match ?c with _ => _ end) = _ => is_var c; destruct c
  end; try discriminate; congruence.
Qed.
Lemma stack_grants : forall prof pid tid ps v prog fs1 fs2 d,
  filter_for prof pid tid ps v prog -> enforcing v -> wf_data d ->
  syscall_entry (fs1 ++ prog :: fs2) d = Proceed ->
  sd_arch d = X86_64 /\ granted ps pid tid d.
Proof.
  intros prof pid tid ps v prog fs1 fs2 d H.
  exact (stack_grants_at _ _ _ _ _ fs1 fs2 d (for_acts _ _ _ _ _ _ d H)).
Qed.

(** A refused call under KillProcess kills the process in any stack. *)
Lemma stack_kills_at : forall pid tid ps prog fs1 fs2 d,
  acts_as pid tid ps KillProcess prog d -> native d -> ~ granted ps pid tid d ->
  syscall_entry (fs1 ++ prog :: fs2) d = Kill DeathProcess.
Proof.
  intros pid tid ps prog fs1 fs2 d H N G.
  destruct (verdict_at _ _ _ _ _ _ H N) as [_ V]. specialize (V G).
  rewrite entry_mid. apply rank_minimal.
  destruct (run_min d (fs1 ++ prog :: fs2) 0x7fff0000) as [_ M].
  specialize (M prog (in_elt _ _ _)). rewrite V in M.
  change (action_rank (ret_into KillProcess)) with (- 2 ^ 31)%Z in M. fold run_filters in M.
  pose proof (action_rank_min (run_filters (fs1 ++ prog :: fs2) d)). lia.
Qed.
Lemma stack_kills : forall prof pid tid ps prog fs1 fs2 d,
  filter_for prof pid tid ps KillProcess prog -> native d -> ~ granted ps pid tid d ->
  syscall_entry (fs1 ++ prog :: fs2) d = Kill DeathProcess.
Proof.
  intros prof pid tid ps prog fs1 fs2 d H.
  exact (stack_kills_at _ _ _ _ fs1 fs2 d (for_acts _ _ _ _ _ _ d H)).
Qed.

(** * Supervised calls *)

Lemma entry_under_nobody : forall ret, entry_under nobody ret = entry_of ret.
Proof.
  intros ret. unfold entry_under. cbn [nobody s_trace s_notif s_trap].
  repeat match goal with |- match ?c with _ => _ end = _ => destruct c end; reflexivity.
Qed.
Lemma supervised_nobody : forall fs d, supervised_entry nobody fs d = syscall_entry fs d.
Proof. intros [|f fs] d; [reflexivity|]. apply entry_under_nobody. Qed.
Lemma fate_of_quiet : forall t amb d, amb_sup amb = nobody ->
  fate_of t amb d = syscall_entry (t_filters t) d.
Proof. intros t amb d H. unfold fate_of. rewrite H. apply supervised_nobody. Qed.
Lemma fate_of_empty : forall t amb d, t_filters t = [] -> fate_of t amb d = Proceed.
Proof. intros t amb d H. unfold fate_of. rewrite H. reflexivity. Qed.
Lemma supervised_nonempty : forall s fs d, fs <> [] ->
  supervised_entry s fs d = entry_under s (run_filters fs d).
Proof. intros s [|f fs] d H; [congruence|reflexivity]. Qed.

(** No supervisor changes the fate of a call whose action is below TRACE, except that a trapped
    call may be skipped. *)
Lemma below_trace : forall s ret, (action_rank ret < 0x7fc00000)%Z -> entry_under s ret <> Proceed.
Proof.
  intros s ret X P. unfold entry_under in P.
  assert (Q : entry_of ret = Proceed).
  { unfold action_rank in X.
    destruct (N.eq_dec (action_bits ret) 0x7ff00000) as [E|E]; [rewrite E in X; cbn in X; lia|].
    destruct (N.eq_dec (action_bits ret) 0x7fc00000) as [F|F]; [rewrite F in X; cbn in X; lia|].
    revert P E F. generalize (action_bits ret). intros b P E F.
    repeat match type of P with
    | (match ?c with _ => _ end) = _ => is_var c; destruct c; try exact P; try congruence
    end; destruct (s_trap s); (exact P || discriminate). }
  unfold entry_of in Q. unfold action_rank in X.
  destruct (N.eq_dec (action_bits ret) 0x7fff0000) as [E|E]; [rewrite E in X; cbn in X; lia|].
  destruct (N.eq_dec (action_bits ret) 0x7ffc0000) as [F|F]; [rewrite F in X; cbn in X; lia|].
  revert Q E F. generalize (action_bits ret). intros b Q E F.
  repeat match type of Q with
  | (match ?c with _ => _ end) = _ => is_var c; destruct c
  end; try discriminate; congruence.
Qed.

(** A call that proceeds under any supervisor is let through by each [hard] pledge. *)
Lemma hard_grants_at : forall pid tid ps v prog fs s d,
  acts_as pid tid ps v prog d -> hard v -> wf_data d -> In prog fs ->
  supervised_entry s fs d = Proceed ->
  sd_arch d = X86_64 /\ granted ps pid tid d.
Proof.
  intros pid tid ps v prog fs s d H Hv Hd I P.
  rewrite supervised_nonempty in P by (intros ->; exact I).
  destruct (run_min d fs 0x7fff0000) as [_ M]. specialize (M prog I). fold run_filters in M.
  destruct (N.eq_dec (sd_arch d) X86_64) as [Ha|Ha].
  2:{ destruct (c16_at pid tid ps v prog d H Hd Ha) as [K _]. rewrite K in M.
      change (action_rank 0x80000000) with (- 2 ^ 31)%Z in M.
      exfalso. apply (below_trace s (run_filters fs d)); [lia|exact P]. }
  split; [exact Ha|].
  destruct (granted_dec ps pid tid d Hd) as [G|G]; [exact G|exfalso].
  assert (N : native d) by (split; assumption).
  destruct (verdict_at _ _ _ _ _ _ H N) as [_ V]. specialize (V G). rewrite V in M.
  assert (Sv : small_payload v) by (clear - Hv; destruct v; cbn in *; tauto).
  rewrite action_rank_ret in M by exact Sv.
  apply (below_trace s (run_filters fs d)); [|exact P].
  destruct v; cbn [rank_of hard] in *; try contradiction; lia.
Qed.
Lemma hard_grants : forall prof pid tid ps v prog fs s d,
  filter_for prof pid tid ps v prog -> hard v -> wf_data d -> In prog fs ->
  supervised_entry s fs d = Proceed ->
  sd_arch d = X86_64 /\ granted ps pid tid d.
Proof.
  intros prof pid tid ps v prog fs s d H.
  exact (hard_grants_at _ _ _ _ _ fs s d (for_acts _ _ _ _ _ _ d H)).
Qed.

(** * pledge_override, unfolded *)

(** The result of prctl as the code sees it. *)
Definition ret_zero (r : Z) : bool := (r mod 2 ^ 32 =? 0)%Z.
Definition ret_errno (amb : ambient) (r : Z) : N :=
  if ((-4095 <=? r) && (r <=? -1))%Z then Z.to_N (- r) else amb_errno amb.

Lemma ret_errno_err : forall amb e, 0 < e <= 4095 ->
  ret_zero (- Z.of_N e) = false /\ ret_errno amb (- Z.of_N e) = e.
Proof.
  intros amb e H. unfold ret_zero, ret_errno. split.
  - apply Z.eqb_neq. intros E. apply Z.mod_divide in E; [|discriminate].
    destruct E as [k E]. lia.
  - destruct (Z.leb_spec (-4095) (- Z.of_N e)); [|lia].
    destruct (Z.leb_spec (- Z.of_N e) (-1)); [|lia]. cbn [andb]. lia.
Qed.

Definition load_step (prof : profile) (amb : ambient) (t : thread) (prog : list sock_filter)
  : res pledge_error unit * thread :=
  match fate_of t amb (call_set_seccomp amb) with
  | Proceed =>
      match attach_filter (amb_oom amb) (t_nnp t || t_cap t) (t_filters t) (fprog_of prog) with
      | inl e => (Err (SysErr e), t)
      | inr fs => (Ok tt, set_filters t fs)
      end
  | Fake r => (if ret_zero r then Ok tt else Err (SysErr (ret_errno amb r)), t)
  | Kill d => (Died d, t)
  end.

Lemma attach_errno : forall oom priv fs prog e, attach_filter oom priv fs prog = inl e ->
  e = 22 \/ e = 13 \/ e = 12.
Proof.
  intros oom priv fs prog e A. unfold attach_filter in A.
  destruct (_ || _); [injection A as <-; auto|].
  destruct (negb _); [injection A as <-; auto|].
  destruct oom; [injection A as <-; auto|].
  destruct (negb _); [injection A as <-; auto|].
  destruct (_ <? _); [injection A as <-; auto|discriminate].
Qed.

(** The two calls do what they are for. *)
Lemma prctl_nnp : forall oom t amb prog, kernel_prctl oom t (call_set_nnp amb) prog = (0%Z, set_nnp t).
Proof. reflexivity. Qed.
Lemma prctl_load : forall oom t amb prog, kernel_prctl oom t (call_set_seccomp amb) prog =
  match attach_filter oom (t_nnp t || t_cap t) (t_filters t) prog with
  | inl e => ((- Z.of_N e)%Z, t)
  | inr fs => (0%Z, set_filters t fs)
  end.
Proof. reflexivity. Qed.

(** The compiled rules of a call; the ambient of a rule is numbered by the rules after it. *)
Fixpoint build_parts (prof : profile) (amb : nat -> ambient) (t : thread) (todo : list Filtered)
  : res pledge_error (list (list sock_filter)) :=
  match todo with
  | [] => Ok []
  | f :: rest =>
      part <- filter_to_bpf prof (thread_env t (amb (4 + length rest)%nat)) f ;;
      parts <- build_parts prof amb t rest ;;
      Ok (part :: parts)
  end.
Definition built (prof : profile) (amb : nat -> ambient) (t : thread) (ps : list Promise)
  (v : SeccompReturn) : res pledge_error (list sock_filter) :=
  parts <- build_parts prof amb t (all_filters ps) ;; assemble_parts prof parts v.

Lemma load_steps : forall prof amb t ps v prog,
  pledge_steps 1 prof amb t (PLoad ps v prog) =
  (inr (fst (load_step prof (amb 1%nat) t prog)), snd (load_step prof (amb 1%nat) t prog)).
Proof.
  intros. cbn [pledge_steps pledge_step]. unfold load_step.
  destruct (fate_of t (amb 1%nat) (call_set_seccomp (amb 1%nat))) as [|r|d].
  - rewrite prctl_load. destruct (attach_filter _ _ _ _) as [e|fs] eqn:A; [|reflexivity].
    apply attach_errno in A. destruct A as [->|[->| ->]]; reflexivity.
  - unfold check_ret. fold (ret_zero r). destruct (ret_zero r); reflexivity.
  - reflexivity.
Qed.

Definition prctl_steps (prof : profile) (amb : nat -> ambient) (t : thread) (prog : list sock_filter)
  : res pledge_error unit * thread :=
  match fate_of t (amb 2%nat) (call_set_nnp (amb 2%nat)) with
  | Proceed => load_step prof (amb 1%nat) (set_nnp t) prog
  | Fake r => if ret_zero r then load_step prof (amb 1%nat) t prog
              else (Err (SysErr (ret_errno (amb 2%nat) r)), t)
  | Kill d => (Died d, t)
  end.
Lemma nnp_steps : forall prof amb t ps v prog,
  pledge_steps 2 prof amb t (PNnp ps v prog) =
  (inr (fst (prctl_steps prof amb t prog)), snd (prctl_steps prof amb t prog)).
Proof.
  intros. change (pledge_steps 2 prof amb t (PNnp ps v prog)) with
    (match pledge_step prof (amb 2%nat) t (PNnp ps v prog) with
     | (Continue ph', t') => pledge_steps 1 prof amb t' ph'
     | (Return_ r, t') => (inr r, t')
     end).
  cbn [pledge_step]. unfold prctl_steps.
  destruct (fate_of t (amb 2%nat) (call_set_nnp (amb 2%nat))) as [|r|d]; [| |reflexivity].
  - rewrite prctl_nnp. change (check_ret (amb 2%nat) 0 ?k) with k. apply load_steps.
  - unfold check_ret. fold (ret_zero r). destruct (ret_zero r); [|reflexivity]. apply load_steps.
Qed.

Definition stopped {A} (r : res pledge_error A) (k : A -> res pledge_error unit * thread)
  (t : thread) : res pledge_error unit * thread :=
  match r with
  | Ok a => k a
  | Err e => (Err e, t)
  | Panic => (Panic, t)
  | Died d => (Died d, t)
  end.
Lemma build_steps : forall prof amb t ps v todo done,
  pledge_steps (3 + length todo) prof amb t (PBuild ps v done todo) =
  let q := stopped (parts <- build_parts prof amb t todo ;; assemble_parts prof (done ++ parts) v)
                   (prctl_steps prof amb t) t in (inr (fst q), snd q).
Proof.
  intros prof amb t ps v. cbv zeta. induction todo as [|f rest IH]; intros done.
  - cbn [length Nat.add build_parts bind]. rewrite app_nil_r.
    change (pledge_steps 3 prof amb t (PBuild ps v done [])) with
      (match proceed (assemble_parts prof done v) (fun prog => PNnp ps v prog) with
       | Continue ph' => pledge_steps 2 prof amb t ph'
       | Return_ r => (inr r, t)
       end).
    destruct (assemble_parts prof done v) as [prog|e| |d]; try reflexivity. apply nnp_steps.
  - change (3 + length (f :: rest))%nat with (S (3 + length rest)).
    change (pledge_steps (S (3 + length rest)) prof amb t (PBuild ps v done (f :: rest))) with
      (match proceed (filter_to_bpf prof (thread_env t (amb (S (3 + length rest)))) f)
                     (fun frag => PBuild ps v (done ++ [frag]) rest) with
       | Continue ph' => pledge_steps (3 + length rest) prof amb t ph'
       | Return_ r => (inr r, t)
       end).
    cbn [build_parts]. change (4 + length rest)%nat with (S (3 + length rest)).
    destruct (filter_to_bpf _ _ f) as [part|e| |d]; try reflexivity. cbn [proceed bind].
    rewrite IH. destruct (build_parts prof amb t rest) as [parts|e| |d]; cbn [bind]; try reflexivity.
    rewrite <- app_assoc. reflexivity.
Qed.

(** The call comes to an end. *)
Lemma pledge_finishes : forall prof amb t ps v,
  let q := stopped (built prof amb t ps v) (prctl_steps prof amb t) t in
  pledge_steps (pledge_length ps) prof amb t (PStart ps v) = (inr (fst q), snd q) /\
  pledge_override prof amb t ps v = q.
Proof.
  intros prof amb t ps v. cbv zeta.
  assert (X : pledge_steps (pledge_length ps) prof amb t (PStart ps v) =
    (inr (fst (stopped (built prof amb t ps v) (prctl_steps prof amb t) t)),
     snd (stopped (built prof amb t ps v) (prctl_steps prof amb t) t))).
  { unfold pledge_length. rewrite promises_to_filters_ok.
    change (4 + length (all_filters ps))%nat with (S (3 + length (all_filters ps))).
    change (pledge_steps (S (3 + length (all_filters ps))) prof amb t (PStart ps v)) with
      (match proceed (promises_to_filters ps) (fun fs => PBuild ps v [] fs) with
       | Continue ph' => pledge_steps (3 + length (all_filters ps)) prof amb t ph'
       | Return_ r => (inr r, t)
       end).
    rewrite promises_to_filters_ok. cbn [proceed]. rewrite build_steps. reflexivity. }
  split; [exact X|]. unfold pledge_override. rewrite X. destruct (stopped _ _ _); reflexivity.
Qed.

Lemma pledge_unfold : forall prof amb t ps v,
  pledge_override prof amb t ps v = stopped (built prof amb t ps v) (prctl_steps prof amb t) t.
Proof. intros. apply pledge_finishes. Qed.

(** * Building *)

(** The answers a rule needs. *)
Lemma rule_built : forall prof e f,
  filter_to_bpf prof e f =
  match f with
  | KillSelf => pid <- env_getpid e ;; Ok (frag pid 0 KillSelf)
  | TkillSelf => tid <- env_gettid e ;; Ok (frag 0 tid TkillSelf)
  | _ => Ok (frag 0 0 f)
  end.
Proof.
  intros prof [gp gt] f. destruct f; destruct prof; reflexivity.
Qed.

(** [r] is a rule with ids that are answers in [E]. *)
Definition told (E : sysenv -> Prop) (r : Filtered * (N * N)) : Prop :=
  (fst r = KillSelf -> exists e, E e /\ env_getpid e = Ok (fst (snd r))) /\
  (fst r = TkillSelf -> exists e, E e /\ env_gettid e = Ok (snd (snd r))).

Lemma rule_told : forall prof (E : sysenv -> Prop) e f part, E e -> filter_to_bpf prof e f = Ok part ->
  exists r, part = rfrag r /\ fst r = f /\ told E r.
Proof.
  intros prof E e f part He B. rewrite rule_built in B.
  destruct (is_kill f) eqn:K; [destruct f; try discriminate|
    destruct (is_tkill f) eqn:T; [destruct f; try discriminate|]].
  - destruct (env_getpid e) as [x|er| |d] eqn:X; try discriminate. injection B as <-.
    exists (KillSelf, (x, 0)). repeat split; [|discriminate]. intros _. exists e. auto.
  - destruct (env_gettid e) as [x|er| |d] eqn:X; try discriminate. injection B as <-.
    exists (TkillSelf, (0, x)). repeat split; [discriminate|]. intros _. exists e. auto.
  - exists (f, (0, 0)). split; [destruct f; try discriminate; injection B as <-; reflexivity|].
    split; [reflexivity|]. split; cbn [fst]; intros ->; discriminate.
Qed.

Lemma parts_told : forall prof (E : sysenv -> Prop) fs parts,
  Forall2 (fun f part => exists e, E e /\ filter_to_bpf prof e f = Ok part) fs parts ->
  exists rs, parts = map rfrag rs /\ map fst rs = fs /\ Forall (told E) rs.
Proof.
  intros prof E fs parts F. induction F as [|f part fs parts (e & He & B) F (rs & -> & <- & T)].
  - exists []. repeat split. constructor.
  - destruct (rule_told prof E e f part He B) as (r & -> & <- & Tr). exists (r :: rs).
    repeat split. constructor; assumption.
Qed.

Lemma with_gcode : forall prof E ps v prog, filter_with prof E ps v prog ->
  exists rs, prog = gcode rs v /\ map fst rs = all_filters ps /\ Forall (told E) rs.
Proof.
  intros prof E ps v prog (fs & parts & A & F & B). rewrite promises_to_filters_ok in A.
  injection A as <-. destruct (parts_told _ _ _ _ F) as (rs & -> & M & T).
  rewrite assemble_ok in B. injection B as <-. exists rs. auto.
Qed.

Lemma with_mono : forall prof (E E' : sysenv -> Prop) ps v prog, (forall e, E e -> E' e) ->
  filter_with prof E ps v prog -> filter_with prof E' ps v prog.
Proof.
  intros prof E E' ps v prog M (fs & parts & A & F & B). exists fs, parts. split; [exact A|].
  split; [|exact B]. clear A B. induction F as [|f part fs parts (e & He & X) F IH]; constructor; eauto.
Qed.

(** With a single answer this is the filter of the other theorems. *)
Lemma c38_one : forall prof (E : sysenv -> Prop) pid tid ps v prog, filter_with prof E ps v prog ->
  (forall e x, E e -> env_getpid e = Ok x -> x = pid) ->
  (forall e x, E e -> env_gettid e = Ok x -> x = tid) ->
  filter_for prof pid tid ps v prog.
Proof.
  intros prof E pid tid ps v prog W P T. destruct (with_gcode _ _ _ _ _ W) as (rs & -> & M & Tr).
  rewrite Forall_forall in Tr. rewrite (unmixed pid tid rs ps v M).
  - apply filter_for_exists.
  - intros p I. destruct (Tr _ I) as [X _]. destruct (X eq_refl) as (e & He & Y). exact (P e _ He Y).
  - intros p I. destruct (Tr _ I) as [_ X]. destruct (X eq_refl) as (e & He & Y). exact (T e _ He Y).
Qed.

Lemma for_with : forall prof (E : sysenv -> Prop) pid tid ps v prog, filter_for prof pid tid ps v prog ->
  E (mkEnv (Ok pid) (Ok tid)) -> filter_with prof E ps v prog.
Proof.
  intros prof E pid tid ps v prog F He. rewrite (filter_for_pcode _ _ _ _ _ _ F).
  exists (all_filters ps), (map rfrag (map (with_same pid tid) (all_filters ps))).
  split; [apply promises_to_filters_ok|]. split.
  - induction (all_filters ps) as [|f fs IH]; constructor; [|exact IH].
    exists (mkEnv (Ok pid) (Ok tid)). split; [exact He|]. rewrite rule_built. destruct f; reflexivity.
  - rewrite assemble_ok, pcode_gcode. reflexivity.
Qed.

Lemma with_acts : forall prof E ps v prog d, filter_with prof E ps v prog ->
  exists pid tid, acts_as pid tid ps v prog d.
Proof.
  intros prof E ps v prog d W. destruct (with_gcode _ _ _ _ _ W) as (rs & -> & M & _).
  destruct (mixed 0 0 rs ps v d M) as (pid & tid & _ & _ & A). eauto.
Qed.

(** Every call is treated as by a filter with ids among the answers. *)
Lemma c38_like : forall prof (E : sysenv -> Prop) ps v prog, filter_with prof E ps v prog ->
  forall d, exists pid tid,
  (In StdIO ps -> (exists e, E e /\ env_getpid e = Ok pid) /\ (exists e, E e /\ env_gettid e = Ok tid)) /\
  forall prog', filter_for prof pid tid ps v prog' -> kernel_eval prog d = kernel_eval prog' d.
Proof.
  intros prof E ps v prog W d. destruct (with_gcode _ _ _ _ _ W) as (rs & -> & M & Tr).
  rewrite Forall_forall in Tr.
  destruct (mixed 0 0 rs ps v d M) as (pid & tid & Ip & It & A). exists pid, tid. split.
  - intros I.
    assert (K : In KillSelf (map fst rs) /\ In TkillSelf (map fst rs)).
    { rewrite M. unfold all_filters. cbn [map List.concat]. split; apply in_or_app; right;
        apply in_concat; exists (pfilters StdIO); (split; [apply in_map; exact I|]); cbn; tauto. }
    destruct K as [K1 K2]. apply in_fst in K1, K2. destruct K1 as (k1 & K1), K2 as (k2 & K2). split.
    + apply pids_in in Ip. destruct Ip as [(p & Ip & <-)|(_ & N)]; [|destruct (N _ K1)].
      exact (proj1 (Tr _ Ip) eq_refl).
    + apply tids_in in It. destruct It as [(p & It & <-)|(_ & N)]; [|destruct (N _ K2)].
      exact (proj2 (Tr _ It) eq_refl).
  - intros prog' F. rewrite (filter_for_pcode _ _ _ _ _ _ F). exact A.
Qed.

(** The answers [t] may get in these steps. *)
Definition answers (t : thread) (amb : nat -> ambient) (e : sysenv) : Prop :=
  exists n, e = thread_env t (amb n).

Lemma read_call_cases : forall t amb d,
  (exists x, read_call t amb d = Ok x) \/ (exists k, read_call t amb d = Died k).
Proof. intros. unfold read_call. destruct (fate_of _ _ _); eauto. Qed.

Lemma rule_thread : forall prof t a f,
  (exists part, filter_to_bpf prof (thread_env t a) f = Ok part) \/
  (exists d, filter_to_bpf prof (thread_env t a) f = Died d /\
     (f = KillSelf /\ read_call t a (call_getpid a) = Died d \/
      f = TkillSelf /\ read_call t a (call_gettid a) = Died d)).
Proof.
  intros prof t a f. rewrite rule_built. unfold thread_env. cbn [env_getpid env_gettid].
  destruct f; try (left; eexists; reflexivity).
  - destruct (read_call_cases t a (call_getpid a)) as [(x & E)|(k & E)]; rewrite E;
      [left; eexists; reflexivity|right; exists k; auto].
  - destruct (read_call_cases t a (call_gettid a)) as [(x & E)|(k & E)]; rewrite E;
      [left; eexists; reflexivity|right; exists k; auto].
Qed.

Lemma parts_thread : forall prof amb t fs,
  (exists parts, build_parts prof amb t fs = Ok parts /\
     Forall2 (fun f part => exists e, answers t amb e /\ filter_to_bpf prof e f = Ok part) fs parts) \/
  (exists d n, build_parts prof amb t fs = Died d /\
     (read_call t (amb n) (call_getpid (amb n)) = Died d \/
      read_call t (amb n) (call_gettid (amb n)) = Died d)).
Proof.
  intros prof amb t. induction fs as [|f fs IH].
  - left. exists []. split; [reflexivity|constructor].
  - cbn [build_parts]. set (n := (4 + length fs)%nat).
    destruct (rule_thread prof t (amb n) f) as [(part & B)|(d & B & D)]; rewrite B; cbn [bind].
    + destruct IH as [(parts & Bs & F)|(d & m & Bs & D)]; rewrite Bs; cbn [bind].
      * left. eexists. split; [reflexivity|]. constructor; [|exact F].
        exists (thread_env t (amb n)). split; [exists n; reflexivity|exact B].
      * right. exists d, m. auto.
    + right. exists d, n. split; [reflexivity|]. tauto.
Qed.

Lemma build_thread : forall prof t amb ps v,
  (exists rs, built prof amb t ps v = Ok (gcode rs v) /\ map fst rs = all_filters ps /\
     filter_with prof (answers t amb) ps v (gcode rs v)) \/
  (exists d n, built prof amb t ps v = Died d /\
     (read_call t (amb n) (call_getpid (amb n)) = Died d \/
      read_call t (amb n) (call_gettid (amb n)) = Died d)).
Proof.
  intros prof t amb ps v. unfold built.
  destruct (parts_thread prof amb t (all_filters ps)) as [(parts & -> & F)|(d & n & -> & D)].
  - left. cbn [bind]. destruct (parts_told _ _ _ _ F) as (rs & -> & M & T). exists rs.
    rewrite assemble_ok. split; [reflexivity|]. split; [exact M|].
    exists (all_filters ps), (map rfrag rs).
    split; [apply promises_to_filters_ok|]. split; [exact F|apply assemble_ok].
  - right. exists d, n. auto.
Qed.

Lemma built_real : forall prof t amb ps v,
  (forall n, fate_of t (amb n) (call_getpid (amb n)) = Proceed) ->
  (forall n, fate_of t (amb n) (call_gettid (amb n)) = Proceed) ->
  built prof amb t ps v = Ok (pcode (t_pid t) (t_tid t) ps v).
Proof.
  intros prof t amb ps v P T.
  destruct (build_thread prof t amb ps v) as [(rs & B & M & W)|(d & n & B & [D|D])].
  - rewrite B. f_equal. apply (filter_for_pcode prof). apply (c38_one prof (answers t amb)); [exact W| |].
    + intros e x (n & ->) X. cbn [thread_env env_getpid] in X. unfold read_call in X.
      rewrite P in X. injection X as <-. reflexivity.
    + intros e x (n & ->) X. cbn [thread_env env_gettid] in X. unfold read_call in X.
      rewrite T in X. injection X as <-. reflexivity.
  - unfold read_call in D. rewrite P in D. discriminate.
  - unfold read_call in D. rewrite T in D. discriminate.
Qed.

Definition os_result (r : res pledge_error unit) : Prop :=
  match r with
  | Ok _ => True
  | Err (SysErr _) => True
  | Died _ => True
  | _ => False
  end.

Lemma load_step_os : forall prof amb t prog, os_result (fst (load_step prof amb t prog)).
Proof.
  intros. unfold load_step. destruct (fate_of _ _ _) as [|r|d].
  - destruct (attach_filter _ _ _ _) as [e|fs]; exact I.
  - cbn. destruct (ret_zero r); exact I.
  - exact I.
Qed.

Lemma c14_pledge : forall prof amb t ps v, 
  match fst (pledge_override prof amb t ps v) with
  | Ok _ | Died _ | Err (SysErr _) => True
  | Panic | Err (UndefinedPromise _) | Err (BPFErr _) => False
  end.
Proof.
  intros. assert (O : os_result (fst (pledge_override prof amb t ps v))).
  { rewrite pledge_unfold.
    destruct (build_thread prof t amb ps v) as [(rs & -> & _)|(d & n & -> & _)]; [|exact I].
    cbn [stopped]. unfold prctl_steps. destruct (fate_of t (amb 2%nat) (call_set_nnp (amb 2%nat))) as [|r|d]; [| |exact I].
    - apply load_step_os.
    - destruct (ret_zero r); [apply load_step_os|exact I]. }
  destruct (fst (pledge_override prof amb t ps v)) as [u|[p|e|e]| |d]; exact O.
Qed.

(** * The program handed to the kernel *)

Lemma firstn_length_all : forall A (l : list A) n, length (firstn n l) = length l -> firstn n l = l.
Proof.
  intros A l n H. apply firstn_all2. rewrite firstn_length in H. lia.
Qed.

Lemma fprog_accepted : forall rs v,
  kernel_accepts (fprog_of (gcode rs v)) = true ->
  fprog_of (gcode rs v) = gcode rs v /\ N.of_nat (length (gcode rs v)) <= 4096.
Proof.
  intros rs v K. unfold fprog_of in *.
  set (n := N.to_nat (as_u16 (N.of_nat (length (gcode rs v))))) in *.
  destruct (Nat.lt_ge_cases n (length (gcode rs v))) as [L|L].
  - rewrite (gprefix_refused rs v n L) in K. discriminate.
  - rewrite firstn_all2 in * by exact L. split; [reflexivity|].
    rewrite gcode_accepts in K. apply N.leb_le in K. exact K.
Qed.

Lemma attach_accepted : forall oom priv fs prog fs', attach_filter oom priv fs prog = inr fs' ->
  kernel_accepts prog = true /\ fs' = prog :: fs /\ priv = true.
Proof.
  intros oom priv fs prog fs' H. unfold attach_filter in H.
  destruct (_ || _); [discriminate|]. destruct priv; [|discriminate]. cbn [negb] in H.
  destruct oom; [discriminate|].
  destruct (kernel_accepts prog); [|discriminate]. cbn [negb] in H.
  destruct (_ <? _); [discriminate|]. injection H as <-. auto.
Qed.

Lemma load_step_filters : forall prof amb t rs v r t',
  load_step prof amb t (gcode rs v) = (r, t') ->
  t' = t \/
  (r = Ok tt /\ fate_of t amb (call_set_seccomp amb) = Proceed /\
   t' = set_filters t (gcode rs v :: t_filters t) /\ t_nnp t || t_cap t = true /\
   N.of_nat (length (gcode rs v)) <= 4096).
Proof.
  intros prof amb t rs v r t' H. unfold load_step in H.
  destruct (fate_of t amb (call_set_seccomp amb)) as [|z|d].
  - destruct (attach_filter _ _ _ _) as [e|fs] eqn:A; injection H as <- <-; [left; reflexivity|].
    right. apply attach_accepted in A. destruct A as (K & -> & P).
    apply fprog_accepted in K. destruct K as [-> L]. auto.
  - injection H as <- <-. left; reflexivity.
  - injection H as <- <-. left; reflexivity.
Qed.

(** Everything about the final thread state of a pledge. *)
Lemma pledge_effect : forall prof amb t ps v r t',
  pledge_override prof amb t ps v = (r, t') ->
  t_uid t' = t_uid t /\ t_pid t' = t_pid t /\ t_tid t' = t_tid t /\ t_cap t' = t_cap t /\
  t_call t' = t_call t /\ (t_nnp t = true -> t_nnp t' = true) /\
  (t_filters t' = t_filters t \/
   exists prog, r = Ok tt /\ filter_with prof (answers t amb) ps v prog /\
     t_filters t' = prog :: t_filters t /\ (t_nnp t' || t_cap t' = true) /\
     N.of_nat (length prog) <= 4096 /\
     (fate_of t (amb 2%nat) (call_set_nnp (amb 2%nat)) = Proceed -> t_nnp t' = true)).
Proof.
  intros prof amb t ps v r t' H. rewrite pledge_unfold in H.
  destruct (build_thread prof t amb ps v) as [(rs & B & M & W)|(d & n & B & _)]; rewrite B in H.
  2:{ injection H as <- <-. repeat split; auto. }
  cbn [stopped] in H. unfold prctl_steps in H.
  destruct (fate_of t (amb 2%nat) (call_set_nnp (amb 2%nat))) as [|z|d] eqn:E.
  - apply load_step_filters in H.
    destruct H as [->|(-> & _ & -> & P & L)]; cbn [set_nnp set_filters t_uid t_pid t_tid t_cap t_call t_nnp t_filters] in *.
    + repeat split; auto.
    + repeat split; auto. right. exists (gcode rs v). repeat split; auto.
  - destruct (ret_zero z).
    + apply load_step_filters in H.
      destruct H as [->|(-> & _ & -> & P & L)]; cbn [set_filters t_uid t_pid t_tid t_cap t_call t_nnp t_filters] in *.
      * repeat split; auto.
      * repeat split; auto. right. exists (gcode rs v). repeat split; auto. discriminate.
    + injection H as <- <-. repeat split; auto.
  - injection H as <- <-. repeat split; auto.
Qed.

(** * C37 *)

Lemma c37_prefix : forall prof pid tid ps v prog n, filter_for prof pid tid ps v prog ->
  (n < length prog)%nat -> kernel_accepts (firstn n prog) = false.
Proof.
  intros prof pid tid ps v prog n H. rewrite (filter_for_pcode _ _ _ _ _ _ H). apply prefix_refused.
Qed.

Lemma attach_long : forall fs rs v, 4096 < N.of_nat (length (gcode rs v)) ->
  attach_filter false true fs (fprog_of (gcode rs v)) = inl EINVAL.
Proof.
  intros fs rs v L. unfold attach_filter.
  destruct (_ || _); [reflexivity|]. cbn [negb].
  destruct (kernel_accepts (fprog_of (gcode rs v))) eqn:K; [|reflexivity].
  apply fprog_accepted in K. lia.
Qed.

Lemma c37_pledge : forall prof amb t ps v pid tid prog r t',
  filter_for prof pid tid ps v prog -> 4096 < N.of_nat (length prog) ->
  pledge_override prof amb t ps v = (r, t') ->
  t_filters t' = t_filters t /\
  (t_filters t = [] -> amb_oom (amb 1%nat) = false -> r = Err (SysErr 22)).
Proof.
  intros prof amb t ps v pid tid prog r t' F L H.
  rewrite (filter_for_pcode _ _ _ _ _ _ F), pcode_length in L.
  split.
  - pose proof (pledge_effect _ _ _ _ _ _ _ H) as (_ & _ & _ & _ & _ & _ & E).
    destruct E as [E|(p & _ & B & _ & _ & L' & _)]; [exact E|].
    destruct (with_gcode _ _ _ _ _ B) as (rs & -> & M & _). rewrite (gcode_length rs ps v M) in L'. lia.
  - intros NF Mem. rewrite pledge_unfold in H.
    rewrite built_real in H by (intros; apply fate_of_empty; exact NF).
    cbn [stopped] in H. unfold prctl_steps in H. rewrite fate_of_empty in H by exact NF.
    unfold load_step in H. rewrite fate_of_empty in H by exact NF.
    cbn [set_nnp t_filters t_nnp t_cap orb] in H. rewrite Mem in H. rewrite pcode_gcode in H.
    rewrite attach_long in H by (rewrite <- pcode_gcode, pcode_length; exact L).
    injection H as <- _. reflexivity.
Qed.

(** * C38 *)

Lemma step_continue : forall prof a t ph ph' t', pledge_step prof a t ph = (Continue ph', t') ->
  t_filters t' = t_filters t.
Proof.
  intros prof a t ph ph' t' H.
  destruct ph as [ps v|ps v done todo|ps v prog|ps v prog]; cbn [pledge_step] in H.
  - injection H as _ <-. reflexivity.
  - destruct todo; injection H as _ <-; reflexivity.
  - destruct (fate_of _ _ _) as [|r|d].
    + rewrite prctl_nnp in H. injection H as _ <-. reflexivity.
    + injection H as _ <-. reflexivity.
    + discriminate.
  - destruct (fate_of _ _ _) as [|r|d].
    + rewrite prctl_load in H. unfold check_ret in H. destruct (attach_filter _ _ _ _); [|discriminate H].
      destruct (_ =? _)%Z in H; discriminate.
    + unfold check_ret in H. destruct (_ =? _)%Z in H; discriminate.
    + discriminate.
Qed.

(** Stopped before its last step: no filter has been added. *)
Lemma c38_interrupted : forall prof amb t ps v n ph t',
  pledge_steps n prof amb t (PStart ps v) = (inl ph, t') -> t_filters t' = t_filters t.
Proof.
  intros prof amb t ps v n. generalize (PStart ps v) as ph0. revert t.
  induction n as [|n IH]; intros t ph0 ph t' H; cbn [pledge_steps] in H.
  - injection H as _ <-. reflexivity.
  - destruct (pledge_step prof (amb (S n)) t ph0) as [[ph1|r] t1] eqn:S; [|discriminate].
    rewrite (IH _ _ _ _ H). exact (step_continue _ _ _ _ _ _ S).
Qed.

Lemma c38 : forall prof amb t ps v r t',
  pledge_override prof amb t ps v = (r, t') ->
  (r <> Ok tt -> t_filters t' = t_filters t) /\
  (t_filters t' <> t_filters t ->
   r = Ok tt /\ exists prog,
     filter_with prof (fun e => exists n, e = thread_env t (amb n)) ps v prog /\
     t_filters t' = prog :: t_filters t /\
     (fate_of t (amb 2%nat) (call_set_nnp (amb 2%nat)) = Proceed -> t_nnp t' = true)) /\
  (t_uid t' = t_uid t /\ t_pid t' = t_pid t /\ t_tid t' = t_tid t /\ t_cap t' = t_cap t) /\
  (t_nnp t = true -> t_nnp t' = true).
Proof.
  intros prof amb t ps v r t' H.
  destruct (pledge_effect _ _ _ _ _ _ _ H) as (U & P & T & C & _ & Nn & E).
  repeat split; auto.
  - intros Hr. destruct E as [E|(p & -> & _)]; [exact E|congruence].
  - destruct E as [E|(p & -> & _)]; [contradiction|reflexivity].
  - destruct E as [E|(p & _ & B & F & _ & _ & X)]; [contradiction|]. exists p. auto.
Qed.

(** * Threads whose filters are pledges *)

Lemma wf_call_nnp : forall a, wf_amb a -> native (call_set_nnp a).
Proof. intros a (? & ? & ? & ? & ? & ? & ?). repeat split; cbn; try assumption. Qed.
Lemma wf_call_seccomp : forall a, wf_amb a -> native (call_set_seccomp a).
Proof. intros a (? & ? & ? & ? & ? & ? & ?). repeat split; cbn; try assumption. Qed.
Lemma wf_call_getpid : forall a, wf_amb a -> native (call_getpid a).
Proof. intros a (? & ? & ? & ? & ? & ? & ?). repeat split; cbn; try assumption. Qed.
Lemma wf_call_gettid : forall a, wf_amb a -> native (call_gettid a).
Proof. intros a (? & ? & ? & ? & ? & ? & ?). repeat split; cbn; try assumption. Qed.

Lemma grants_nnp : forall ps pid tid a, granted ps pid tid (call_set_nnp a) <-> In StdIO ps.
Proof.
  intros. row SYS_prctl R. rewrite (R ps pid tid (call_set_nnp a) eq_refl). unfold promised.
  cbn. intuition (try discriminate; eauto).
Qed.
Lemma grants_seccomp : forall ps pid tid a, granted ps pid tid (call_set_seccomp a) <-> In StdIO ps.
Proof.
  intros. row SYS_prctl R. rewrite (R ps pid tid (call_set_seccomp a) eq_refl). unfold promised.
  cbn. intuition (try discriminate; eauto).
Qed.
Lemma grants_getpid : forall ps pid tid a, granted ps pid tid (call_getpid a) <-> In StdIO ps.
Proof.
  intros. row SYS_getpid R. rewrite (R ps pid tid (call_getpid a) eq_refl). unfold promised.
  cbn. intuition (try discriminate; eauto).
Qed.
Lemma grants_gettid : forall ps pid tid a, granted ps pid tid (call_gettid a) <-> In StdIO ps.
Proof.
  intros. row SYS_gettid R. rewrite (R ps pid tid (call_gettid a) eq_refl). unfold promised.
  cbn. intuition (try discriminate; eauto).
Qed.

Lemma proceeds_case_at : forall pid tid ps v prog d,
  acts_as pid tid ps v prog d -> small_payload v -> native d ->
  (proceeds prog d <-> granted ps pid tid d \/ v = Allow \/ v = Log).
Proof.
  intros pid tid ps v prog d H S N. unfold proceeds. rewrite single_entry.
  destruct (verdict_at _ _ _ _ _ _ H N) as [V1 V2].
  destruct (granted_dec ps pid tid d (proj1 N)) as [G|G].
  - rewrite (V1 G). split; [left; exact G|reflexivity].
  - rewrite (V2 G), entry_of_ret by exact S. split.
    + intros F. right. destruct v; try discriminate; auto.
    + intros [F|[->| ->]]; [contradiction|reflexivity|reflexivity].
Qed.
Lemma proceeds_case : forall prof pid tid ps v prog d,
  filter_for prof pid tid ps v prog -> small_payload v -> native d ->
  (proceeds prog d <-> granted ps pid tid d \/ v = Allow \/ v = Log).
Proof.
  intros prof pid tid ps v prog d H.
  exact (proceeds_case_at _ _ _ _ _ d (for_acts _ _ _ _ _ _ d H)).
Qed.

Lemma stack_with_at : forall prof l fs d, stack_with prof l fs ->
  exists pledges, stack_at d pledges fs /\ map (fun i => (i_ps i, i_v i)) pledges = l.
Proof.
  intros prof l fs d St. induction St as [|[ps v] f l fs H St (is_ & A & M)].
  - exists []. split; [constructor|reflexivity].
  - destruct (with_acts prof _ ps v f d H) as (pid & tid & X).
    exists (mkInst pid tid ps v :: is_). split; [constructor; assumption|]. cbn [map i_ps i_v].
    rewrite M. reflexivity.
Qed.
Lemma stack_of_with : forall prof pledges fs, stack_of prof pledges fs ->
  stack_with prof (map (fun i => (i_ps i, i_v i)) pledges) fs.
Proof.
  intros prof pledges fs St. induction St as [|i f is_ fs H St IH]; [constructor|].
  constructor; [|exact IH]. exact (for_with _ _ _ _ _ _ _ H I).
Qed.
Lemma small_at : forall pledges l, map (fun i => (i_ps i, i_v i)) pledges = l ->
  Forall (fun pv => small_payload (snd pv)) l -> Forall (fun i => small_payload (i_v i)) pledges.
Proof. intros pledges l <- F. rewrite Forall_map in F. exact F. Qed.

(** A stack lets [d'] through if it lets [d] through and every pledge granting [d] grants [d']. *)
Lemma proceed_transfer : forall prof l fs d d',
  stack_with prof l fs -> Forall (fun pv => small_payload (snd pv)) l ->
  native d -> native d' ->
  (forall ps pid tid pid' tid', granted ps pid tid d -> granted ps pid' tid' d') ->
  syscall_entry fs d = Proceed -> syscall_entry fs d' = Proceed.
Proof.
  intros prof l fs d d' St Sm N N' T P.
  destruct (stack_with_at prof l fs d St) as (is1 & A1 & M1).
  destruct (stack_with_at prof l fs d' St) as (is2 & A2 & M2).
  apply (c43_proceeds_at is2 fs d' A2 (small_at _ _ M2 Sm) N').
  apply (c43_proceeds_at is1 fs d A1 (small_at _ _ M1 Sm) N) in P.
  clear A1 A2 M1 M2. induction St as [|[ps v] f l fs H St IH]; [constructor|].
  inversion Sm; subst. inversion P; subst. constructor; [|apply IH; assumption].
  cbn [fst snd] in *.
  destruct (with_acts prof _ ps v f d H) as (p1 & t1 & X1).
  destruct (with_acts prof _ ps v f d' H) as (p2 & t2 & X2).
  apply (proceeds_case_at _ _ _ _ _ d X1 H2 N) in H4.
  apply (proceeds_case_at _ _ _ _ _ d' X2 H2 N').
  destruct H4 as [G|G]; [left; exact (T _ _ _ _ _ G)|right; exact G].
Qed.

(** A faked success comes from an [Errno 0] pledge. *)
Lemma fake_zero : forall pledges fs d z,
  stack_at d pledges fs -> Forall (fun i => small_payload (i_v i)) pledges -> native d ->
  syscall_entry fs d = Fake z -> ret_zero z = true -> exists i, In i pledges /\ i_v i = Errno 0.
Proof.
  intros pledges fs d z St Sm N F Z0. destruct pledges as [|i0 is0].
  { inversion St; subst. discriminate. }
  destruct (c43_at _ fs d St ltac:(discriminate) Sm N) as (acts & A & nw & a & old & E & En & _).
  rewrite F in En.
  assert (a = Errno 0).
  { destruct a as [| | |x| | |]; try discriminate; cbn [fate] in En; injection En as ->.
    - destruct (N.eq_dec x 0) as [->|X]; [reflexivity|exfalso].
      destruct (ret_errno_err (mkAmb 0 0 0 0 0 0 0 nobody false 0) (N.min x 4095)) as [Y _]; [lia|].
      congruence.
    - vm_compute in Z0. discriminate. }
  assert (I : In a acts) by (subst acts; apply in_elt). subst a.
  clear - A I. induction A as [|i b is_ acts V A IH]; [contradiction|].
  destruct I as [->|I].
  - exists i. split; [left; reflexivity|]. destruct V as [[_ V]|[_ V]]; congruence.
  - destruct (IH I) as (j & J & K). exists j. split; [right; exact J|exact K].
Qed.

(** ** Success means installed, for the real ids *)
Lemma stack_success : forall prof pledges t amb ps v t',
  stack_with prof pledges (t_filters t) ->
  Forall (fun pv => small_payload (snd pv) /\ snd pv <> Errno 0) pledges ->
  (forall n, calm (amb n)) ->
  pledge_override prof amb t ps v = (Ok tt, t') ->
  exists prog, filter_for prof (t_pid t) (t_tid t) ps v prog /\
    t_filters t' = prog :: t_filters t /\ t_nnp t' = true.
Proof.
  intros prof pledges t amb ps v t' St Sm Calm H.
  assert (W : forall n, wf_amb (amb n)) by (intros n; apply Calm).
  assert (Q : forall n, amb_sup (amb n) = nobody) by (intros n; apply Calm).
  assert (Sm' : Forall (fun pv => small_payload (snd pv)) pledges)
    by (eapply Forall_impl; [|exact Sm]; intros i [? _]; assumption).
  assert (NZ : forall d z, native d -> syscall_entry (t_filters t) d = Fake z -> ret_zero z = false).
  { intros d z N F. destruct (ret_zero z) eqn:Z0; [|reflexivity]. exfalso.
    destruct (stack_with_at prof pledges _ d St) as (is_ & A & M).
    destruct (fake_zero is_ _ d z A (small_at _ _ M Sm') N F Z0) as (i & I & E).
    rewrite Forall_forall in Sm. apply (Sm (i_ps i, i_v i)); [|exact E].
    rewrite <- M. apply in_map_iff. exists i. auto. }
  rewrite pledge_unfold in H.
  assert (K : forall t1 prog, t_filters t1 = t_filters t ->
    load_step prof (amb 1%nat) t1 prog = (Ok tt, t') ->
    syscall_entry (t_filters t) (call_set_seccomp (amb 1%nat)) = Proceed /\
    t_filters t' = fprog_of prog :: t_filters t /\ t_nnp t' = t_nnp t1 /\ kernel_accepts (fprog_of prog) = true).
  { intros t1 prog F L. unfold load_step in L. rewrite fate_of_quiet in L by apply Q. rewrite F in L.
    destruct (syscall_entry (t_filters t) (call_set_seccomp (amb 1%nat))) as [|z|d] eqn:E.
    - destruct (attach_filter _ _ _ _) as [e|fs] eqn:A.
      + discriminate.
      + injection L as <-. apply attach_accepted in A. destruct A as (Ka & -> & _). auto.
    - rewrite (NZ (call_set_seccomp (amb 1%nat)) z (wf_call_seccomp _ (W _)) E) in L. discriminate.
    - discriminate. }
  destruct (build_thread prof t amb ps v) as [(rs & B & M & B')|(d & n & B & _)]; rewrite B in H; [|discriminate].
  cbn [stopped] in H. unfold prctl_steps in H.
  destruct (fate_of t (amb 2%nat) (call_set_nnp (amb 2%nat))) as [|z|d] eqn:E.
  - apply K in H; [|reflexivity]. destruct H as (P & F & Nn & A).
    apply fprog_accepted in A. destruct A as [A _]. rewrite A in F.
    exists (gcode rs v). split; [|split; [exact F|exact Nn]].
    assert (X : built prof amb t ps v = Ok (pcode (t_pid t) (t_tid t) ps v)).
    { apply built_real; intros n; rewrite fate_of_quiet by apply Q.
      - refine (proceed_transfer prof pledges _ _ _ St Sm' (wf_call_seccomp _ (W _)) (wf_call_getpid _ (W _)) _ P).
        intros ps' p1 t1 p2 t2. rewrite grants_seccomp, grants_getpid. exact (fun x => x).
      - refine (proceed_transfer prof pledges _ _ _ St Sm' (wf_call_seccomp _ (W _)) (wf_call_gettid _ (W _)) _ P).
        intros ps' p1 t1 p2 t2. rewrite grants_seccomp, grants_gettid. exact (fun x => x). }
    assert (Y : gcode rs v = pcode (t_pid t) (t_tid t) ps v) by congruence.
    rewrite Y. apply filter_for_exists.
  - rewrite fate_of_quiet in E by apply Q.
    rewrite (NZ (call_set_nnp (amb 2%nat)) z (wf_call_nnp _ (W _)) E) in H. discriminate.
  - discriminate.
Qed.

(** Histories of pledges leave stacks of pledges. *)
Lemma history_stack : forall prof t0 hist t is0, pledged prof t0 hist t ->
  stack_with prof is0 (t_filters t0) ->
  exists pledges, stack_with prof (pledges ++ is0) (t_filters t) /\
    Forall (fun pv => In pv hist) pledges.
Proof.
  intros prof t0 hist t is0 H. revert is0.
  induction H as [t|t amb ps v r t1 hist t2 W P H IH]; intros is0 St.
  - exists []. split; [exact St|constructor].
  - destruct (pledge_effect _ _ _ _ _ _ _ P) as (_ & _ & _ & _ & _ & _ & E).
    destruct E as [E|(prog & _ & B & E & _)].
    + destruct (IH is0) as (l & L & A); [rewrite E; exact St|].
      exists l. split; [exact L|]. eapply Forall_impl; [|exact A]. intros i I. right. exact I.
    + destruct (IH ((ps, v) :: is0)) as (l & L & A).
      { rewrite E. constructor; [|exact St]. exact (with_mono _ _ _ _ _ _ (fun _ _ => I) B). }
      exists (l ++ [(ps, v)]). rewrite <- app_assoc. split; [exact L|].
      apply Forall_app. split; [|repeat constructor].
      eapply Forall_impl; [|exact A]. intros i I. right. exact I.
Qed.

(** * C39 *)
Lemma c39_partial : forall prof t0 hist t amb ps v t',
  t_filters t0 = [] -> pledged prof t0 hist t ->
  (forall ps0 v0, In (ps0, v0) hist -> small_payload v0 /\ v0 <> Errno 0) ->
  (forall n, calm (amb n)) ->
  pledge_override prof amb t ps v = (Ok tt, t') ->
  exists prog, filter_for prof (t_pid t) (t_tid t) ps v prog /\
    t_filters t' = prog :: t_filters t /\ t_nnp t' = true.
Proof.
  intros prof t0 hist t amb ps v t' F0 H Hh W P.
  destruct (history_stack prof t0 hist t [] H) as (l & L & A); [rewrite F0; constructor|].
  rewrite app_nil_r in L. apply (stack_success prof l t amb ps v t' L); [|exact W|exact P].
  eapply Forall_impl; [|exact A]. intros [ps0 v0] I. exact (Hh _ _ I).
Qed.

(** ** Pledging a thread whose pledges all let the pledge calls through *)
Lemma open_pledge : forall prof t amb ps v,
  (forall n d, In d [call_getpid (amb n); call_gettid (amb n); call_set_nnp (amb n);
                     call_set_seccomp (amb n)] ->
   fate_of t (amb n) d = Proceed) -> amb_oom (amb 1%nat) = false ->
  let prog := pcode (t_pid t) (t_tid t) ps v in
  pledge_override prof amb t ps v =
  if 4096 <? N.of_nat (length prog) then (Err (SysErr 22), set_nnp t)
  else if 32768 <? prog_cost prog + stack_cost (t_filters t)
  then (Err (SysErr 12), set_nnp t)
  else (Ok tt, set_filters (set_nnp t) (prog :: t_filters t)).
Proof.
  intros prof t amb ps v P Mem prog. rewrite pledge_unfold.
  rewrite built_real by (intros; apply P; cbn [In]; tauto).
  fold prog. cbn [stopped]. unfold prctl_steps.
  rewrite (P 2%nat (call_set_nnp _)) by (cbn [In]; tauto).
  unfold load_step. change (fate_of (set_nnp t)) with (fate_of t).
  cbn [set_nnp t_filters t_nnp t_cap orb].
  rewrite (P 1%nat (call_set_seccomp _)) by (cbn [In]; tauto). rewrite Mem.
  destruct (N.ltb_spec 4096 (N.of_nat (length prog))) as [L|L].
  - unfold prog in *. rewrite pcode_gcode in *. rewrite attach_long by exact L. reflexivity.
  - assert (LP : (5 <= length prog)%nat) by (unfold prog; rewrite pcode_length; lia).
    assert (FP : fprog_of prog = prog).
    { unfold fprog_of, as_u16. apply firstn_all2. rewrite N.mod_small; [lia|]. apply (N.le_lt_trans _ 4096); [exact L|reflexivity]. }
    rewrite FP. unfold attach_filter, BPF_MAXINSNS, MAX_INSNS_PER_PATH.
    assert (E0 : N.of_nat (length prog) =? 0 = false) by (apply N.eqb_neq; lia).
    assert (E1 : 4096 <? N.of_nat (length prog) = false) by (apply N.ltb_ge; lia).
    assert (E2 : kernel_accepts prog = true) by (unfold prog; rewrite pcode_accepts; apply N.leb_le; exact L).
    rewrite E0, E1, E2. cbn [orb negb].
    destruct (32768 <? prog_cost prog + stack_cost (t_filters t)); reflexivity.
Qed.

Lemma insn_cost_le : forall f, insn_cost f <= 5.
Proof.
  intros f. unfold insn_cost. destruct (kdecode (sf_code f)) as [[]|]; try lia;
    [destruct op, x; lia|].
  destruct (negb x && (2 ^ 31 <=? sf_k f)), (sf_jf f =? 0), (sf_jt f =? 0), c; cbn [andb]; lia.
Qed.
Lemma prog_cost_le : forall prog, prog_cost prog <= 3 + 5 * N.of_nat (length prog).
Proof.
  intros prog. unfold prog_cost. induction prog as [|f prog IH]; [cbn; lia|].
  cbn [fold_right length]. pose proof (insn_cost_le f). lia.
Qed.

Lemma nodup_installs : forall prof t amb ps v, t_filters t = [] ->
  amb_oom (amb 1%nat) = false -> NoDup ps ->
  pledge_override prof amb t ps v =
  (Ok tt, set_filters (set_nnp t) [pcode (t_pid t) (t_tid t) ps v]).
Proof.
  intros prof t amb ps v F Mem Nd. rewrite open_pledge by (intros; (apply fate_of_empty; exact F) || exact Mem).
  pose proof (nodup_small (t_pid t) (t_tid t) ps v Nd) as L. rewrite F.
  change (stack_cost []) with 0. pose proof (prog_cost_le (pcode (t_pid t) (t_tid t) ps v)).
  destruct (N.ltb_spec 4096 (N.of_nat (length (pcode (t_pid t) (t_tid t) ps v)))); [lia|].
  destruct (N.ltb_spec 32768 (prog_cost (pcode (t_pid t) (t_tid t) ps v) + 0)); [lia|].
  reflexivity.
Qed.

Lemma c39_errno0 : forall prof amb amb' t ps ps' v',
  (forall n, quiet (amb n)) -> (forall n, calm (amb' n)) -> t_filters t = [] -> NoDup ps -> ~ In StdIO ps ->
  exists t1, pledge_override prof amb t ps (Errno 0) = (Ok tt, t1) /\
             pledge_override prof amb' t1 ps' v' = (Ok tt, t1).
Proof.
  intros prof amb amb' t ps ps' v' Quiet Calm F Nd Ns.
  assert (W : forall n, wf_amb (amb' n)) by (intros n; apply Calm).
  assert (Q : forall n, amb_sup (amb' n) = nobody) by (intros n; apply Calm).
  rewrite nodup_installs by (assumption || apply Quiet).
  eexists. split; [reflexivity|].
  set (t1 := set_filters (set_nnp t) [pcode (t_pid t) (t_tid t) ps (Errno 0)]).
  assert (R : forall d, native d -> (forall pid tid, granted ps pid tid d <-> In StdIO ps) ->
            syscall_entry (t_filters t1) d = Fake 0).
  { intros d N G. cbn [t1 set_filters t_filters]. rewrite single_entry.
    destruct (verdict prof _ _ _ _ _ d (filter_for_exists prof (t_pid t) (t_tid t) ps (Errno 0)) N) as [_ V].
    rewrite V; [reflexivity|]. rewrite G. exact Ns. }
  rewrite pledge_unfold.
  destruct (build_thread prof t1 amb' ps' v') as [(rs & -> & _)|(d & n & B & D)].
  - cbn [stopped]. unfold prctl_steps.
    rewrite fate_of_quiet by apply Q. rewrite (R (call_set_nnp _)) by (apply wf_call_nnp, W || (intros; apply grants_nnp)).
    change (ret_zero 0) with true. cbv iota. unfold load_step. rewrite fate_of_quiet by apply Q.
    rewrite (R (call_set_seccomp _)) by (apply wf_call_seccomp, W || (intros; apply grants_seccomp)).
    reflexivity.
  - exfalso. unfold read_call in D. rewrite !fate_of_quiet in D by apply Q.
    rewrite (R (call_getpid _)) in D by (apply wf_call_getpid, W || (intros; apply grants_getpid)).
    rewrite (R (call_gettid _)) in D by (apply wf_call_gettid, W || (intros; apply grants_gettid)).
    destruct D; discriminate.
Qed.

Lemma c39_refuted : forall prof, exists t0 amb t1 t2,
  t_filters t0 = [] /\ (forall n, quiet (amb n)) /\
  pledge_override prof amb t0 [RPath] (Errno 0) = (Ok tt, t1) /\
  pledge_override prof amb t1 [StdIO] KillProcess = (Ok tt, t2) /\
  forall pid tid prog, filter_for prof pid tid [StdIO] KillProcess prog -> ~ In prog (t_filters t2).
Proof.
  intros prof.
  set (t0 := mkThread 0 100 100 false false [] None).
  set (amb := fun _ : nat => mkAmb 0 0 0 0 0 0 0 nobody false 0).
  assert (W : forall n, quiet (amb n)) by (intros n; repeat split; reflexivity).
  destruct (c39_errno0 prof amb amb t0 [RPath] [StdIO] KillProcess W (fun n => proj1 (W n)) eq_refl) as (t1 & P1 & P2).
  - repeat constructor; cbn; tauto.
  - cbn. intuition discriminate.
  - exists t0, amb, t1, t1. split; [reflexivity|]. split; [exact W|]. split; [exact P1|].
    split; [exact P2|]. intros pid tid prog F I. rewrite (filter_for_pcode _ _ _ _ _ _ F) in I.
    rewrite nodup_installs in P1; [|reflexivity|reflexivity|repeat constructor; cbn; tauto].
    injection P1 as <-. cbn [set_filters t_filters In] in I. destruct I as [I|[]].
    apply (f_equal (@length _)) in I. rewrite !pcode_length in I. vm_compute in I. discriminate.
Qed.

(** * C42 *)
Lemma c42_never : forall prof ids ps0 v0 prog fs1 fs2 amb t ps v r t',
  filter_with prof ids ps0 v0 prog -> enforcing v0 ->
  (hard v0 \/ forall n, amb_sup (amb n) = nobody) -> ~ In StdIO ps0 ->
  t_filters t = fs1 ++ prog :: fs2 -> (forall n, wf_amb (amb n)) ->
  pledge_override prof amb t ps v = (r, t') -> t_filters t' = t_filters t.
Proof.
  intros prof E0 ps0 v0 prog fs1 fs2 amb t ps v r t' F E Hs Ns Ft W H.
  assert (NP : forall t1, t_filters t1 = t_filters t ->
           fate_of t1 (amb 1%nat) (call_set_seccomp (amb 1%nat)) <> Proceed).
  { intros t1 F1 P. unfold fate_of in P. rewrite F1, Ft in P.
    destruct (with_acts _ _ _ _ _ (call_set_seccomp (amb 1%nat)) F) as (pid & tid & A).
    assert (G : granted ps0 pid tid (call_set_seccomp (amb 1%nat))).
    { destruct Hs as [Hs|Hs].
      - apply (hard_grants_at pid tid ps0 v0 prog _ _ _ A Hs (proj1 (wf_call_seccomp _ (W 1%nat))) (in_elt _ _ _) P).
      - rewrite Hs, supervised_nobody in P.
        apply (stack_grants_at pid tid ps0 v0 prog fs1 fs2 _ A E (proj1 (wf_call_seccomp _ (W 1%nat))) P). }
    apply grants_seccomp in G. contradiction. }
  rewrite pledge_unfold in H.
  destruct (build_thread prof t amb ps v) as [(rs & B & _)|(d & n & B & _)]; rewrite B in H.
  2:{ injection H as _ <-. reflexivity. }
  cbn [stopped] in H. unfold prctl_steps in H.
  destruct (fate_of t (amb 2%nat) (call_set_nnp (amb 2%nat))) as [|z|d].
  - apply load_step_filters in H. destruct H as [->|(_ & P & _)]; [reflexivity|].
    exfalso. refine (NP _ _ P). reflexivity.
  - destruct (ret_zero z).
    + apply load_step_filters in H. destruct H as [->|(_ & P & _)]; [reflexivity|].
      exfalso. refine (NP _ _ P). reflexivity.
    + injection H as _ <-. reflexivity.
  - injection H as _ <-. reflexivity.
Qed.

(** ... and the very first call a later pledge makes gets the earlier violation. *)
Lemma c42_first_call : forall prof ids ps0 v0 prog a d,
  filter_with prof ids ps0 v0 prog -> small_payload v0 -> ~ In StdIO ps0 -> wf_amb a ->
  In d [call_getpid a; call_gettid a; call_set_nnp a; call_set_seccomp a] ->
  syscall_entry [prog] d = fate v0.
Proof.
  intros prof E0 ps0 v0 prog a d F S Ns W I.
  destruct (with_acts _ _ _ _ _ d F) as (pid & tid & A).
  assert (X : native d /\ ~ granted ps0 pid tid d).
  { cbn [In] in I. destruct I as [<-|[<-|[<-|[<-|[]]]]].
    - split; [apply wf_call_getpid, W|rewrite grants_getpid; exact Ns].
    - split; [apply wf_call_gettid, W|rewrite grants_gettid; exact Ns].
    - split; [apply wf_call_nnp, W|rewrite grants_nnp; exact Ns].
    - split; [apply wf_call_seccomp, W|rewrite grants_seccomp; exact Ns]. }
  destruct X as [N G]. destruct (verdict_at _ _ _ _ _ _ A N) as [_ V].
  rewrite single_entry, (V G). apply entry_of_ret. exact S.
Qed.

Lemma c42_fails : forall prof pledges amb t ps v r t',
  stack_with prof pledges (t_filters t) ->
  Forall (fun pv => small_payload (snd pv) /\ snd pv <> Errno 0) pledges ->
  (exists ps0 v0, In (ps0, v0) pledges /\ enforcing v0 /\ ~ In StdIO ps0) ->
  (forall n, calm (amb n)) ->
  pledge_override prof amb t ps v = (r, t') -> r <> Ok tt /\ t_filters t' = t_filters t.
Proof.
  intros prof pledges amb t ps v r t' St Sm (ps0 & v0 & I & E & Ns) W H.
  assert (U : t_filters t' = t_filters t).
  { destruct (in_split _ _ I) as (l1 & l2 & ->).
    unfold stack_with in St. apply Forall2_app_inv_l in St. destruct St as (f1 & f2 & _ & S2 & Ef).
    inversion S2; subst. eapply c42_never; eauto; [right|]; intros n; apply W. }
  split; [|exact U]. intros ->.
  destruct (stack_success prof pledges t amb ps v t' St Sm W H) as (prog & _ & F & _).
  rewrite F in U. apply (f_equal (@length _)) in U. cbn [length] in U. lia.
Qed.

Lemma c42_succeeds : forall prof pledges amb t ps v,
  stack_with prof pledges (t_filters t) ->
  Forall (fun pv => small_payload (snd pv) /\ In StdIO (fst pv)) pledges ->
  (forall n, quiet (amb n)) ->
  exists prog, filter_for prof (t_pid t) (t_tid t) ps v prog /\
  forall r t', pledge_override prof amb t ps v = (r, t') ->
    let fits := N.of_nat (length prog) <= 4096 /\
                prog_cost prog + stack_cost (t_filters t) <= 32768 in
    (fits -> r = Ok tt /\ t_filters t' = prog :: t_filters t /\ t_nnp t' = true) /\
    (~ fits -> r = Err (SysErr (if 4096 <? N.of_nat (length prog) then EINVAL else ENOMEM)) /\
               t_filters t' = t_filters t).
Proof.
  intros prof pledges amb t ps v St Sm Quiet.
  assert (W : forall n, wf_amb (amb n)) by (intros n; apply Quiet).
  exists (pcode (t_pid t) (t_tid t) ps v). split; [apply filter_for_exists|].
  intros r t' H. cbv zeta. rewrite open_pledge in H.
  - cbv zeta in H. set (prog := pcode (t_pid t) (t_tid t) ps v) in *.
    destruct (N.ltb_spec 4096 (N.of_nat (length prog))) as [L|L].
    + injection H as <- <-. split; [lia|]. intros _. split; reflexivity.
    + destruct (N.ltb_spec 32768 (prog_cost prog + stack_cost (t_filters t))) as [L'|L'].
      * injection H as <- <-. split; [lia|]. intros _. split; reflexivity.
      * injection H as <- <-. split; [|lia]. intros _. repeat split; reflexivity.
  - assert (Sm' : Forall (fun pv => small_payload (snd pv)) pledges)
      by (eapply Forall_impl; [|exact Sm]; intros i [? _]; assumption).
    intros n d I. rewrite fate_of_quiet by apply Quiet.
    assert (X : native d /\ forall ps' pid tid, In StdIO ps' -> granted ps' pid tid d).
    { cbn [In] in I. destruct I as [<-|[<-|[<-|[<-|[]]]]].
      - split; [apply wf_call_getpid, W|intros; apply grants_getpid; assumption].
      - split; [apply wf_call_gettid, W|intros; apply grants_gettid; assumption].
      - split; [apply wf_call_nnp, W|intros; apply grants_nnp; assumption].
      - split; [apply wf_call_seccomp, W|intros; apply grants_seccomp; assumption]. }
    destruct X as [N G]. destruct (stack_with_at prof pledges _ d St) as (is_ & A & M).
    apply (c43_proceeds_at is_ _ d A (small_at _ _ M Sm') N).
    clear - St Sm N G. induction St as [|[ps0 v0] f l fs H St IH]; [constructor|].
    inversion Sm; subst. destruct H2 as [S I]. constructor; [|apply IH; assumption].
    destruct (with_acts _ _ _ _ _ d H) as (pid & tid & A).
    apply (proceeds_case_at _ _ _ _ _ d A S N). left. apply G. exact I.
  - apply Quiet.
Qed.

(** * C44 *)
Lemma c44 : forall prof pid tid ps v prog d, filter_for prof pid tid ps v prog ->
  small_payload v -> native d ->
  (granted ps pid tid d -> syscall_entry [prog] d = Proceed) /\
  (~ granted ps pid tid d -> syscall_entry [prog] d = fate v) /\
  (v = Allow \/ v = Log -> proceeds prog d) /\
  (v <> Allow -> v <> Log -> (proceeds prog d <-> granted ps pid tid d)).
Proof.
  intros prof pid tid ps v prog d F S N.
  destruct (verdict _ _ _ _ _ _ _ F N) as [V1 V2]. split; [|split; [|split]].
  - intros G. rewrite single_entry, (V1 G). reflexivity.
  - intros G. rewrite single_entry, (V2 G). apply entry_of_ret. exact S.
  - intros E. apply (proceeds_case _ _ _ _ _ _ _ F S N). tauto.
  - intros A L. rewrite (proceeds_case _ _ _ _ _ _ _ F S N). intuition congruence.
Qed.

Lemma c44_refuted : exists v, v <> Allow /\ v <> Log /\ payload_u32 v /\
  forall prof pid tid ps prog d, filter_for prof pid tid ps v prog -> native d -> proceeds prog d.
Proof.
  exists (Errno 0x7ffa0000). split; [discriminate|]. split; [discriminate|]. split; [reflexivity|].
  intros prof pid tid ps prog d F N. unfold proceeds. rewrite single_entry.
  destruct (verdict _ _ _ _ _ _ _ F N) as [V1 V2].
  destruct (granted_dec ps pid tid d (proj1 N)) as [G|G]; [rewrite (V1 G)|rewrite (V2 G)]; reflexivity.
Qed.

(** * C45 *)
Lemma c45 : forall prof amb t ps,
  pledge prof amb t ps = pledge_override prof amb t ps KillProcess /\
  forall r t', pledge prof amb t ps = (r, t') -> t_filters t' <> t_filters t ->
  (forall d, native d -> (forall pid tid, ~ granted ps pid tid d) ->
     syscall_entry (t_filters t') d = Kill DeathProcess) /\
  (forall pid tid,
     (forall n x, read_call t (amb n) (call_getpid (amb n)) = Ok x -> x = pid) ->
     (forall n x, read_call t (amb n) (call_gettid (amb n)) = Ok x -> x = tid) ->
     filter_for prof pid tid ps KillProcess (hd [] (t_filters t')) /\
     forall d, native d -> ~ granted ps pid tid d -> syscall_entry (t_filters t') d = Kill DeathProcess).
Proof.
  intros prof amb t ps. split; [reflexivity|]. intros r t' H D.
  destruct (pledge_effect _ _ _ _ _ _ _ H) as (_ & _ & _ & _ & _ & _ & [E|(prog & _ & B & E & _)]);
    [contradiction|]. rewrite E. split.
  - intros d N G. destruct (with_acts _ _ _ _ _ d B) as (pid & tid & A).
    apply (stack_kills_at pid tid ps _ [] (t_filters t) d A N (G pid tid)).
  - intros pid tid P T. cbn [hd].
    assert (F : filter_for prof pid tid ps KillProcess prog).
    { apply (c38_one prof (answers t amb)); [exact B| |].
      - intros e x (n & ->) X. exact (P n x X).
      - intros e x (n & ->) X. exact (T n x X). }
    split; [exact F|]. intros d N G. apply (stack_kills prof pid tid ps _ [] (t_filters t) d F N G).
Qed.
