(** Pledges on kernels before 4.14 (C112). *)
From Coq Require Import NArith ZArith List Bool Lia.
From Verif Require Import Libc Machine Bpf SeccompRet Asm Vm Promises Filters Kernel World OldKernel Spec
  AsmProofs FragProofs PolicyProofs PolicyFacts PledgeProofs.
Import ListNotations.
Local Open Scope N_scope.

Definition old_rank (v : SeccompReturn) : N :=
  match v with
  | KillProcess | KillThread => 0 | Trap => 0x30000 | Errno _ => 0x50000
  | Trace _ => 0x7ff00000 | Log => 0x7ffc0000 | Allow => 0x7fff0000
  end.
Definition old_fate (v : SeccompReturn) : entry :=
  match v with
  | KillProcess | KillThread | Log => Kill DeathThread
  | _ => fate v
  end.

Lemma old_split : forall a p, N.land a 0x7fff0000 = a -> p < 2 ^ 16 -> old_action (N.lor a p) = a.
Proof.
  intros a p Ha Hp. unfold old_action. rewrite N.land_lor_distr_l, Ha.
  replace (N.land p 0x7fff0000) with 0; [apply N.lor_0_r|]. symmetry.
  change 0x7fff0000 with (N.land 0xffff0000 0x7fff0000). rewrite N.land_assoc, high_clear by exact Hp. reflexivity.
Qed.
Lemma old_action_ret : forall v, small_payload v -> old_action (ret_into v) = old_rank v.
Proof.
  intros v H. destruct v; try reflexivity; cbn [small_payload] in H; unfold ret_into;
    rewrite old_split by (reflexivity || exact H); reflexivity.
Qed.
Lemma old_entry_ret : forall v, small_payload v -> old_entry_of (ret_into v) = old_fate v.
Proof.
  intros v H. unfold old_entry_of. rewrite old_action_ret by exact H.
  destruct v; try reflexivity. cbn [small_payload] in H. cbn [old_rank old_fate fate ret_into].
  unfold SECCOMP_RET_ERRNO. rewrite ret_split by (reflexivity || exact H). reflexivity.
Qed.

(** The values kept by the new and by the old kernel. *)
Definition kept (a b : SeccompReturn) : Prop := a = b \/ a = KillProcess /\ b = KillThread.

Lemma old_run : forall d fs acts a b,
  Forall2 (fun f a => kernel_eval f d = ret_into a /\ small_payload a) fs acts ->
  small_payload a -> small_payload b -> kept a b ->
  exists a' b', kept a' b' /\ small_payload a' /\ small_payload b' /\
    run_filters_from (ret_into a) fs d = ret_into a' /\ old_run_from (ret_into b) fs d = ret_into b' /\
    (a' = a \/ In a' acts) /\ Forall (fun c => (severity a' <= severity c)%nat) (a :: acts).
Proof.
  intros d fs acts a b F. revert a b. induction F as [|f x fs acts [E S] F IH]; intros a b Ha Hb K.
  - exists a, b. cbn. refine (conj K (conj Ha (conj Hb (conj eq_refl (conj eq_refl (conj _ _)))))); [auto|].
    constructor; [lia|constructor].
  - cbn [run_filters_from old_run_from]. rewrite E, rank_severity by assumption.
    rewrite !old_action_ret by assumption.
    set (a1 := if (severity x <? severity a)%nat then x else a).
    set (b1 := if old_rank x <? old_rank b then x else b).
    assert (A1 : small_payload a1) by (subst a1; destruct (_ <? _)%nat; assumption).
    assert (B1 : small_payload b1) by (subst b1; destruct (_ <? _); assumption).
    assert (K1 : kept a1 b1).
    { subst a1 b1. unfold kept in *. destruct K as [<-|[-> ->]]; destruct x; try (destruct a; cbn; auto).
      all: cbn; auto. }
    destruct (IH a1 b1 A1 B1 K1) as (a' & b' & P1 & P2 & P3 & P4 & P5 & P6 & P7).
    exists a', b'. refine (conj P1 (conj P2 (conj P3 (conj _ (conj _ (conj _ _)))))).
    + rewrite <- P4. subst a1. destruct (_ <? _)%nat; reflexivity.
    + rewrite <- P5. subst b1. destruct (_ <? _); reflexivity.
    + clear - P6. subst a1. cbn [In]. destruct (_ <? _)%nat; intuition congruence.
    + inversion P7 as [|? ? L1 L2]. subst. constructor; [|constructor; [|exact L2]];
        subst a1; destruct (Nat.ltb_spec (severity x) (severity a)); lia.
Qed.

Lemma c112 : forall prof pledges fs d,
  stack_of prof pledges fs -> Forall (fun i => small_payload (i_v i)) pledges -> native d ->
  (forall e, syscall_entry fs d = e -> e <> Proceed ->
     old_syscall_entry fs d = match e with Kill DeathProcess => Kill DeathThread | _ => e end) /\
  (syscall_entry fs d = Proceed ->
     Forall (fun i => granted (i_ps i) (i_pid i) (i_tid i) d \/ i_v i = Allow) pledges /\
       old_syscall_entry fs d = Proceed \/
     Exists (fun i => ~ granted (i_ps i) (i_pid i) (i_tid i) d /\ i_v i = Log) pledges /\
       old_syscall_entry fs d = Kill DeathThread).
Proof.
  intros prof pledges fs d St Sm N.
  assert (A : exists acts, Forall2 (fun i a => verdict_of i d a) pledges acts /\
            Forall2 (fun f a => kernel_eval f d = ret_into a /\ small_payload a) fs acts).
  { unfold stack_of in St. induction St as [|i f is_ fs H St IH]; [exists []; auto|].
    inversion Sm; subst. destruct (IH H3) as (acts & A1 & A2).
    destruct (verdict_code i f d (for_acts _ _ _ _ _ _ d H) H2 N) as (a & V & S & K).
    exists (a :: acts). split; constructor; auto. }
  destruct A as (acts & A1 & A2).
  destruct (old_run d fs acts Allow Allow A2 I I (or_introl eq_refl)) as (a & b & K & Sa & Sb & Ra & Rb & O & L).
  assert (En : syscall_entry fs d = fate a).
  { destruct fs as [|f fs]; [inversion A2; subst; destruct O as [->|[]]; reflexivity|].
    rewrite entry_nonempty by discriminate. unfold run_filters.
    change 0x7fff0000 with (ret_into Allow). rewrite Ra. apply entry_of_ret. exact Sa. }
  assert (Eo : old_syscall_entry fs d = old_fate b).
  { destruct fs as [|f fs]; [inversion A2; subst; destruct O as [->|[]]; destruct K as [<-|[? _]]; [reflexivity|discriminate]|].
    unfold old_syscall_entry. change 0x7fff0000 with (ret_into Allow). rewrite Rb. apply old_entry_ret. exact Sb. }
  rewrite En, Eo. split.
  - intros e <- Ne. destruct K as [<-|[-> ->]]; [|reflexivity]. destruct a; try reflexivity. elim Ne. reflexivity.
  - intros P. destruct K as [<-|[-> ->]]; [|discriminate P].
    destruct a; try discriminate P.
    + (* Log *) right. split; [|reflexivity]. destruct O as [O|O]; [discriminate O|].
      clear - A1 O. induction A1 as [|i a is_ acts V A1 IH]; [destruct O|].
      destruct O as [->|O]; [|right; auto]. left. destruct V as [[_ V]|[V1 V2]]; [discriminate V|auto].
    + left. split; [|reflexivity]. inversion L as [|? ? _ L']. subst. clear - A1 L'.
      induction A1 as [|i a is_ acts V A1 IH]; constructor; inversion L'; subst; [|auto].
      destruct V as [[V _]|[_ V]]; [left; exact V|right]. rewrite <- V. apply severity_6. exact H1.
Qed.

Lemma old_min : forall d fs f r, In f fs -> old_action (kernel_eval f d) = 0 ->
  old_action (old_run_from r fs d) = 0.
Proof.
  assert (Z : forall d fs r, old_action r = 0 -> old_action (old_run_from r fs d) = 0).
  { induction fs as [|f fs IH]; intros r E; [exact E|]. cbn [old_run_from]. apply IH. rewrite E.
    destruct (N.ltb_spec (old_action (kernel_eval f d)) 0); [lia|exact E]. }
  intros d fs f. induction fs as [|g fs IH]; intros r I E; [destruct I|].
  destruct I as [->|H]; cbn [old_run_from].
  - apply Z. rewrite E. destruct (N.ltb_spec 0 (old_action r)); [exact E|lia].
  - apply IH; assumption.
Qed.
Lemma c112_foreign : forall prof pid tid ps v prog fs d,
  filter_for prof pid tid ps v prog -> In prog fs -> wf_data d -> sd_arch d <> X86_64 ->
  old_syscall_entry fs d = Kill DeathThread.
Proof.
  intros prof pid tid ps v prog fs d H Hi W Ha.
  destruct (c16 _ _ _ _ _ _ _ H W Ha) as [K _].
  assert (Z : old_action (old_run_from 0x7fff0000 fs d) = 0)
    by (apply (old_min d fs prog _ Hi); rewrite K; reflexivity).
  destruct fs as [|f fs]; [destruct Hi|]. unfold old_syscall_entry, old_entry_of. rewrite Z. reflexivity.
Qed.
