(** Histories: supervisors, growth of stacks, what a return value says, isolation (C72-C76). *)
From Coq Require Import NArith ZArith String List Bool Lia.
From Verif Require Import Libc Machine Bpf SeccompRet Asm Vm Promises Filters Kernel World Spec
  FragProofs PolicyProofs PolicyFacts VmProofs KernelVmProofs CodeProofs PledgeProofs WorldProofs.
Import ListNotations.
Local Open Scope N_scope.

(** * C72 *)
Lemma c72 : forall prof pid tid ps v prog fs s d,
  filter_for prof pid tid ps v prog -> hard v -> wf_data d -> In prog fs ->
  ~ (sd_arch d = X86_64 /\ granted ps pid tid d) -> supervised_entry s fs d <> Proceed.
Proof.
  intros prof pid tid ps v prog fs s d H Hv W I G P. apply G.
  exact (hard_grants prof pid tid ps v prog fs s d H Hv W I P).
Qed.

Lemma small_trace_bits : forall t, t < 2 ^ 16 -> action_bits (ret_into (Trace t)) = 0x7ff00000.
Proof.
  intros t H. unfold action_bits. cbn [ret_into]. unfold SECCOMP_RET_TRACE.
  rewrite N.land_lor_distr_l. change (N.land 0x7ff00000 0xffff0000) with 0x7ff00000.
  assert (E : N.land t 0xffff0000 = 0).
  { assert (T : t = N.land t (N.ones 16)) by (rewrite N.land_ones, N.mod_small; [reflexivity|exact H]).
    rewrite T, <- N.land_assoc. change (N.land (N.ones 16) 0xffff0000) with 0. apply N.land_0_r. }
  rewrite E, N.lor_0_r. reflexivity.
Qed.

Lemma c72_refuted : forall prof pid tid ps t prog d,
  filter_for prof pid tid ps (Trace t) prog -> t < 2 ^ 16 -> native d ->
  supervised_entry (mkSup (Some Proceed) None None) [prog] d = Proceed.
Proof.
  intros prof pid tid ps t prog d H Ht N.
  rewrite supervised_nonempty by discriminate. unfold run_filters. cbn [run_filters_from].
  destruct (granted_dec ps pid tid d (proj1 N)) as [G|G];
    destruct (verdict _ _ _ _ _ _ _ H N) as [V1 V2].
  - rewrite (V1 G). reflexivity.
  - rewrite (V2 G), action_rank_ret by exact Ht. change (rank_of (Trace t) <? action_rank 0x7fff0000)%Z with true.
    cbn iota. unfold entry_under. rewrite small_trace_bits by exact Ht. reflexivity.
Qed.

(** A trapped call whose handler resumes the program returns what the handler chooses. *)
Lemma c39_handler : forall prof amb amb' t ps ps' v' z,
  (forall n, quiet (amb n)) -> (forall n, wf_amb (amb' n)) ->
  (forall n, s_trap (amb_sup (amb' n)) = Some z) -> (z mod 2 ^ 32 = 0)%Z ->
  t_filters t = [] -> NoDup ps -> ~ In StdIO ps ->
  exists t1, pledge_override prof amb t ps Trap = (Ok tt, t1) /\
             pledge_override prof amb' t1 ps' v' = (Ok tt, t1).
Proof.
  intros prof amb amb' t ps ps' v' z Quiet W Hz Z0 F Nd Ns.
  assert (Z : ret_zero z = true) by (apply Z.eqb_eq; exact Z0).
  rewrite nodup_installs by (assumption || apply Quiet).
  eexists. split; [reflexivity|].
  set (t1 := set_filters (set_nnp t) [pcode (t_pid t) (t_tid t) ps Trap]).
  assert (R : forall n d, native d -> (forall pid tid, granted ps pid tid d <-> In StdIO ps) ->
            fate_of t1 (amb' n) d = Fake z).
  { intros n d N G. unfold fate_of. cbn [t1 set_filters t_filters].
    rewrite supervised_nonempty by discriminate. unfold run_filters. cbn [run_filters_from].
    destruct (verdict prof _ _ _ _ _ d (filter_for_exists prof (t_pid t) (t_tid t) ps Trap) N) as [_ V].
    rewrite V by (rewrite G; exact Ns).
    change (action_rank (ret_into Trap) <? action_rank 0x7fff0000)%Z with true. cbn iota.
    unfold entry_under. change (action_bits (ret_into Trap)) with 0x30000. cbn iota. rewrite Hz. reflexivity. }
  rewrite pledge_unfold.
  destruct (build_thread prof t1 amb' ps' v') as [(rs & -> & _)|(d & n & B & D)].
  - cbn [stopped]. unfold prctl_steps. rewrite (R _ (call_set_nnp _)) by (apply wf_call_nnp, W || (intros; apply grants_nnp)).
    rewrite Z. unfold load_step.
    rewrite (R _ (call_set_seccomp _)) by (apply wf_call_seccomp, W || (intros; apply grants_seccomp)).
    rewrite Z. reflexivity.
  - exfalso. unfold read_call in D.
    rewrite (R _ (call_getpid _)) in D by (apply wf_call_getpid, W || (intros; apply grants_getpid)).
    rewrite (R _ (call_gettid _)) in D by (apply wf_call_gettid, W || (intros; apply grants_gettid)).
    destruct D; discriminate.
Qed.

(** * C73 *)

(** [Q] holds of the tasks [us] and is not lost by installing filters or setting no_new_privs. *)
Definition keeps (Q : list (list sock_filter) -> bool -> Prop) (us : list nat) (w : world) : Prop :=
  (forall t, In t (w_threads w) -> (t_uid t < w_next w)%nat) /\
  (forall u, In u us -> (u < w_next w)%nat) /\
  (forall t, In t (w_threads w) -> In (t_uid t) us -> Q (t_filters t) (t_nnp t)).
Definition stable (Q : list (list sock_filter) -> bool -> Prop) : Prop :=
  forall fs b fs' b', Q fs b -> (exists l, fs' = l ++ fs) -> (b = true -> b' = true) -> Q fs' b'.

Lemma keeps_put : forall Q us w t, keeps Q us w -> (t_uid t < w_next w)%nat ->
  (In (t_uid t) us -> Q (t_filters t) (t_nnp t)) -> keeps Q us (put_thread w t).
Proof.
  intros Q us w t (A & B & C) U H. split; [|split].
  - intros x I. apply put_thread_in in I. destruct I as [[-> _]|[I _]]; [exact U|apply A; exact I].
  - exact B.
  - intros x I Ix. apply put_thread_in in I. destruct I as [[-> _]|[I _]]; [apply H; exact Ix|apply C; assumption].
Qed.
Lemma keeps_filter : forall Q us w f, keeps Q us w -> keeps Q us (mkWorld (filter f (w_threads w)) (w_next w)).
Proof.
  intros Q us w f (A & B & C). split; [|split]; cbn [w_threads w_next].
  - intros x I. apply filter_In in I. apply A, I.
  - exact B.
  - intros x I. apply filter_In in I. apply C, I.
Qed.
Lemma keeps_death : forall Q us w t d, keeps Q us w -> keeps Q us (apply_death w t d).
Proof. intros Q us w t [| |] H; apply keeps_filter; exact H. Qed.

Lemma sys_effect_keeps : forall Q us w t d o w' evs, stable Q -> keeps Q us w -> In t (w_threads w) ->
  sys_effect w t d o = (w', evs) -> keeps Q (descendants us evs) w'.
Proof.
  intros Q us w t d o w' evs St K It H. pose proof K as (A & B & C).
  assert (Same : (w, []) = (w', evs) -> keeps Q (descendants us evs) w').
  { intros E. injection E as <- <-. exact K. }
  assert (New : forall b : bool,
     (if o_refuse o then (w, [])
      else (spawn w t (if b then t_pid t else o_newid o) (o_newid o), [EvSpawn (t_uid t) (w_next w)])) = (w', evs) ->
     keeps Q (descendants us evs) w').
  { intros b E. destruct (o_refuse o); [exact (Same E)|]. injection E as <- <-.
    cbn [descendants]. unfold spawn. split; [|split]; cbn [w_threads w_next].
    - intros x [<-|I]; [cbn; lia|]. specialize (A x I). lia.
    - intros u I. destruct (existsb _ us); [destruct I as [<-|I]; [lia|]|]; specialize (B u I); lia.
    - intros x [<-|I] Ix; cbn [t_uid t_filters t_nnp] in *.
      + destruct (existsb (Nat.eqb (t_uid t)) us) eqn:X.
        * apply existsb_exists in X. destruct X as (y & Y & Z). apply Nat.eqb_eq in Z. subst y.
          apply C; assumption.
        * specialize (B _ Ix). lia.
      + apply C; [exact I|]. destruct (existsb (Nat.eqb (t_uid t)) us); [|exact Ix].
        destruct Ix as [Ix|Ix]; [|exact Ix]. specialize (A x I). lia. }
  assert (Put : forall t', t_uid t' = t_uid t -> (exists l, t_filters t' = l ++ t_filters t) ->
     (t_nnp t = true -> t_nnp t' = true) -> keeps Q us (put_thread w t')).
  { intros t' U L Nn. apply keeps_put; [exact K|rewrite U; exact (A t It)|].
    rewrite U. intros Ix. apply (St _ _ _ _ (C t It Ix)); assumption. }
  unfold sys_effect in H.
  destruct (_ || _); [exact (New false H)|].
  destruct (_ =? _); [exact (New _ H)|].
  destruct (_ =? _); [exact (New _ H)|].
  destruct (_ =? _).
  { injection H as <- <-. cbn [descendants].
    destruct (prctl_cases (o_refuse o) t d (o_payload o)) as [->|[->|[->| ->]]]; apply Put;
      try reflexivity; auto; try (exists []; reflexivity); [exists [o_payload o]|exists [strict_mode]]; reflexivity. }
  destruct (_ && (_ && _ && _)).
  { injection H as <- <-. cbn [descendants]. destruct (strict_cases t) as [->| ->]; apply Put;
      try reflexivity; auto; [exists []|exists [strict_mode]]; reflexivity. }
  destruct (_ && _).
  2:{ destruct (_ && _).
      2:{ destruct (_ =? _); [injection H as <- <-; exact (keeps_death Q us w t DeathThread K)|].
          destruct (_ =? _); [injection H as <- <-; exact (keeps_death Q us w t DeathProcess K)|]. exact (Same H). }
      injection H as <- <-. cbn [descendants].
      split; [|split; [exact B|]].
      - intros x I. apply run_program_in in I. destruct I as [->|(I & _)]; [exact (A t It)|exact (A x I)].
      - intros x I Ix. apply run_program_in in I. destruct I as [->|(I & _)]; [exact (C t It Ix)|exact (C x I Ix)]. }
  destruct (attach_filter _ _ _ _) as [x|fs] eqn:At; [exact (Same H)|].
  apply attach_accepted in At. destruct At as (_ & -> & _). destruct (N.testbit _ _).
  - destruct (can_sync w t) eqn:Cs; [|exact (Same H)]. injection H as <- <-. cbn [descendants].
    split; [|split].
    + intros x I. apply sync_in in I. destruct I as (y & Iy & X). specialize (A y Iy).
      destruct X as [->|[_ [->| ->]]]; exact A.
    + exact B.
    + intros x I Ix. apply sync_in in I. destruct I as (y & Iy & X).
      destruct X as [->|[P X]]; [apply C; assumption|].
      destruct (can_sync_spec w t y Cs Iy P) as (l & L).
      assert (Ux : t_uid x = t_uid y) by (destruct X as [->| ->]; reflexivity).
      rewrite Ux in Ix. specialize (C y Iy Ix).
      assert (Fx : t_filters x = (o_payload o :: l) ++ t_filters y)
        by (destruct X as [->| ->]; cbn; rewrite L; reflexivity).
      apply (St _ _ _ _ C); [eauto|]. intros Hn. destruct X as [->| ->]; [exact Hn|reflexivity].
  - injection H as <- <-. cbn [descendants]. apply Put; [reflexivity|exists [o_payload o]; reflexivity|auto].
Qed.

(** What one step does to the thread that pledges. *)
(** The same task later: same ids, more filters on top, no_new_privs not lost. *)
Definition grown (t t' : thread) : Prop :=
  t_uid t' = t_uid t /\ t_pid t' = t_pid t /\ t_tid t' = t_tid t /\
  (exists fs, t_filters t' = fs ++ t_filters t) /\ (t_nnp t = true -> t_nnp t' = true).

Lemma pledge_step_grown : forall prof amb t ph s t', pledge_step prof amb t ph = (s, t') -> grown t t'.
Proof.
  intros prof amb t ph s t' H. unfold grown.
  destruct ph as [ps v|ps v done todo|ps v prog|ps v prog]; cbn [pledge_step] in H.
  - injection H as _ <-. repeat (split; [reflexivity|]). split; [exists []; reflexivity|auto].
  - destruct todo; injection H as _ <-; repeat (split; [reflexivity|]);
      (split; [exists []; reflexivity|auto]).
  - rewrite prctl_nnp in H. destruct (fate_of t amb (call_set_nnp amb)); injection H as _ <-;
      repeat (split; [reflexivity|]); (split; [exists []; reflexivity|auto]).
  - rewrite prctl_load in H. destruct (fate_of t amb (call_set_seccomp amb));
      [destruct (attach_filter _ _ _ _) as [e|fs] eqn:A|..]; injection H as _ <-;
      repeat (split; [reflexivity|]); try (split; [exists []; reflexivity|auto]).
    apply attach_accepted in A. destruct A as (_ & -> & _).
    split; [eexists [_]; reflexivity|auto].
Qed.

Lemma calls_descend : forall us t amb ph, descendants us (step_calls t amb ph) = us.
Proof.
  intros us t amb ph. pose proof (step_calls_form t amb ph) as F.
  induction F as [|ev tr (d & ->) F IH]; [reflexivity|exact IH].
Qed.

Lemma wstep_keeps : forall Q prof us w o w' evs, stable Q -> keeps Q us w ->
  wstep prof w o = (w', evs) -> keeps Q (descendants us evs) w'.
Proof.
  intros Q prof us w o w' evs St K H. pose proof K as (A & B & C).
  assert (Same : (w, []) = (w', evs) -> keeps Q (descendants us evs) w').
  { intros E. injection E as <- <-. exact K. }
  destruct o as [u ps v|u amb|u d o|u b|u]; cbn [wstep] in H.
  - destruct (find_thread w u) as [t|] eqn:F; [|exact (Same H)].
    apply find_thread_spec in F. destruct F as [It Ut].
    destruct (t_call t); [exact (Same H)|]. injection H as <- <-.
    cbn [descendants]. apply keeps_put; [exact K|exact (A t It)|exact (C t It)].
  - destruct (find_thread w u) as [t|] eqn:F; [|exact (Same H)].
    apply find_thread_spec in F. destruct F as [It Ut].
    destruct (t_call t) as [ph|]; [|exact (Same H)].
    destruct (pledge_step prof amb t ph) as [s t'] eqn:P.
    apply pledge_step_grown in P. destruct P as (U & _ & _ & G1 & G2).
    assert (Put : forall c, keeps Q us (put_thread w (set_call t' c))).
    { intros c. apply keeps_put; [exact K|cbn; rewrite U; exact (A t It)|].
      cbn [set_call t_uid t_filters t_nnp]. rewrite U. intros Ix.
      apply (St _ _ _ _ (C t It Ix)); assumption. }
    destruct s as [ph'|[x|e| |k]]; injection H as <- <-; rewrite ?descendants_app, ?calls_descend;
      try apply Put; try (apply keeps_death; exact K);
      destruct (Nat.eqb _ _); cbn [descendants]; apply Put.
  - destruct (find_thread w u) as [t|] eqn:F; [|exact (Same H)].
    apply find_thread_spec in F. destruct F as [It Ut].
    destruct (supervised_entry (o_sup o) (t_filters t) d) as [|z|k].
    + destruct (sys_effect w t d o) as [w1 e1] eqn:S. injection H as <- <-. cbn [descendants].
      apply (sys_effect_keeps Q us w t d o w1 e1 St K It S).
    + injection H as <- <-. exact K.
    + injection H as <- <-. apply keeps_death. exact K.
  - destruct (find_thread w u) as [t|] eqn:F; [|exact (Same H)].
    apply find_thread_spec in F. destruct F as [It Ut]. injection H as <- <-.
    cbn [descendants]. apply keeps_put; [exact K|exact (A t It)|exact (C t It)].
  - injection H as <- <-. apply keeps_filter. exact K.
Qed.

Lemma wrun_keeps : forall Q prof ops us w w' tr, stable Q -> keeps Q us w ->
  wrun prof w ops = (w', tr) -> keeps Q (descendants us tr) w'.
Proof.
  intros Q prof. induction ops as [|o ops IH]; intros us w w' tr St K H; cbn [wrun] in H.
  - injection H as <- <-. exact K.
  - destruct (wstep prof w o) as [w1 e1] eqn:S1. destruct (wrun prof w1 ops) as [w2 e2] eqn:S2.
    injection H as <- <-. rewrite descendants_app.
    apply (IH _ w1 w2 e2 St); [|exact S2]. apply (wstep_keeps Q prof us w o); assumption.
Qed.

Lemma nodup_same : forall w t t', distinct w -> In t (w_threads w) -> In t' (w_threads w) ->
  t_uid t' = t_uid t -> t' = t.
Proof.
  intros w t t' D. unfold distinct in D. induction (w_threads w) as [|x l IH]; [contradiction|].
  inversion D; subst. intros [->|I] [->|I'] E; auto.
  - exfalso. apply H1. rewrite <- E. apply in_map. exact I'.
  - exfalso. apply H1. rewrite E. apply in_map. exact I.
Qed.

Lemma c73 : forall prof w ops w' tr t t',
  distinct w -> Forall (fun t => (t_uid t < w_next w)%nat) (w_threads w) ->
  wrun prof w ops = (w', tr) -> In t (w_threads w) -> In t' (w_threads w') ->
  In (t_uid t') (descendants [t_uid t] tr) ->
  (exists fs, t_filters t' = fs ++ t_filters t) /\ (t_nnp t = true -> t_nnp t' = true).
Proof.
  intros prof w ops w' tr t t' D U R I I' De. rewrite Forall_forall in U.
  set (Q := fun fs b => (exists l, fs = l ++ t_filters t) /\ (t_nnp t = true -> b = true)).
  assert (St : stable Q).
  { intros fs b fs' b' [(l & ->) X] (l' & ->) Y. split; [|auto].
    exists (l' ++ l). apply app_assoc. }
  assert (K : keeps Q [t_uid t] w).
  { split; [exact U|]. split; [intros u [<-|[]]; apply U; exact I|].
    intros x Ix [Ux|[]]. rewrite (nodup_same w t x D I Ix (eq_sym Ux)).
    split; [exists []; reflexivity|auto]. }
  apply (wrun_keeps Q prof ops _ w w' tr St K R); assumption.
Qed.

(** * C74 *)
Lemma step_cases : forall prof w o w' evs,
  wstep prof w o = (w', evs) ->
  (forall u ps v r, ~ In (EvReturned u ps v r) evs) /\
  (forall u pid tid ps v, ~ In (EvInstalled u pid tid ps v) evs) \/
  (exists u ps v r calls ins, evs = calls ++ ins ++ [EvReturned u ps v r] /\
    (forall u ps v r, ~ In (EvReturned u ps v r) calls) /\
    (forall u pid tid ps v, ~ In (EvInstalled u pid tid ps v) calls) /\
    ((ins = [] /\ (r = Ok tt -> exists cs d z, calls = cs ++ [EvCall u d (Fake z)] /\
        sd_nr d = SYS_prctl /\ sd_a0 d = PR_SET_SECCOMP /\ sd_a1 d = 2 /\ (z mod 2 ^ 32 = 0)%Z)) \/
     (r = Ok tt /\ exists pid tid, ins = [EvInstalled u pid tid ps v]))).
Proof.
  intros prof w o w' evs H.
  assert (None_ : forall l : list event, (forall ev, In ev l -> exists u d e, ev = EvCall u d e \/
             exists c, ev = EvSpawn u c) ->
     (forall u ps v r, ~ In (EvReturned u ps v r) l) /\ (forall u pid tid ps v, ~ In (EvInstalled u pid tid ps v) l)).
  { intros l Hl. split; intros; intros X; destruct (Hl _ X) as (? & ? & ? & [Z|(? & Z)]); discriminate. }
  destruct o as [u ps v|u amb|u d o|u b|u]; cbn [wstep] in H.
  - left. destruct (find_thread w u) as [t|]; injection H as _ <-; apply None_; intros ? [].
  - destruct (find_thread w u) as [t|] eqn:F; [|left; injection H as _ <-; apply None_; intros ? []].
    apply find_thread_spec in F. destruct F as [It Ut].
    destruct (t_call t) as [ph|]; [|left; injection H as _ <-; apply None_; intros ? []].
    assert (Cs : (forall u ps v r, ~ In (EvReturned u ps v r) (step_calls t amb ph)) /\
                 (forall u pid tid ps v, ~ In (EvInstalled u pid tid ps v) (step_calls t amb ph))).
    { apply None_. intros ev I. pose proof (step_calls_form t amb ph) as Sf. rewrite Forall_forall in Sf.
      destruct (Sf ev I) as (d & ->). eauto. }
    assert (Ret : forall t' r,
      (forall x, r = Ok x -> t_filters t' = t_filters t -> exists cs d z, step_calls t amb ph = cs ++ [EvCall u d (Fake z)] /\
        sd_nr d = SYS_prctl /\ sd_a0 d = PR_SET_SECCOMP /\ sd_a1 d = 2 /\ (z mod 2 ^ 32 = 0)%Z) ->
      (t_filters t' = t_filters t \/ r = Ok tt /\ length (t_filters t') <> length (t_filters t)) ->
      exists u0 ps v r0 calls ins,
        step_calls t amb ph ++
        (if Nat.eqb (length (t_filters t')) (length (t_filters t)) then []
          else [EvInstalled u (t_pid t) (t_tid t) (ph_promises ph) (ph_violation ph)]) ++
         [EvReturned u (ph_promises ph) (ph_violation ph) r] = calls ++ ins ++ [EvReturned u0 ps v r0] /\
        (forall u ps v r, ~ In (EvReturned u ps v r) calls) /\
        (forall u pid tid ps v, ~ In (EvInstalled u pid tid ps v) calls) /\
        ((ins = [] /\ (r0 = Ok tt -> exists cs d z, calls = cs ++ [EvCall u0 d (Fake z)] /\
            sd_nr d = SYS_prctl /\ sd_a0 d = PR_SET_SECCOMP /\ sd_a1 d = 2 /\ (z mod 2 ^ 32 = 0)%Z)) \/
         (r0 = Ok tt /\ exists pid tid, ins = [EvInstalled u0 pid tid ps v]))).
    { intros t' r Hr Hf. do 6 eexists. split; [reflexivity|]. split; [apply Cs|]. split; [apply Cs|].
      destruct Hf as [Hf|[-> Hf]].
      - left. split; [rewrite Hf, Nat.eqb_refl; reflexivity|]. intros E. apply (Hr tt E Hf).
      - right. split; [reflexivity|]. apply Nat.eqb_neq in Hf. rewrite Hf. eauto. }
    destruct ph as [ps v|ps v done todo|ps v prog|ps v prog]; cbn [pledge_step] in H.
    + destruct (promises_to_filters ps) as [fs|e| |k]; injection H as <- <-.
      * left. exact Cs.
      * right. apply (Ret t (Err e)); [discriminate|left; reflexivity].
      * right. apply (Ret t Panic); [discriminate|left; reflexivity].
      * left. exact Cs.
    + destruct todo as [|f todo].
      * destruct (assemble_parts prof done v) as [prog|e| |k]; injection H as <- <-.
        -- left. exact Cs.
        -- right. apply (Ret t (Err e)); [discriminate|left; reflexivity].
        -- right. apply (Ret t Panic); [discriminate|left; reflexivity].
        -- left. exact Cs.
      * destruct (filter_to_bpf prof (thread_env t amb) f) as [part|e| |k]; injection H as <- <-.
        -- left. exact Cs.
        -- right. apply (Ret t (Err e)); [discriminate|left; reflexivity].
        -- right. apply (Ret t Panic); [discriminate|left; reflexivity].
        -- left. exact Cs.
    + rewrite prctl_nnp in H. destruct (fate_of t amb (call_set_nnp amb)) as [|z|k].
      * left. change (check_ret amb 0 ?k) with k in H. injection H as <- <-. exact Cs.
      * unfold check_ret in H. destruct (_ =? 0)%Z; injection H as <- <-.
        -- left. exact Cs.
        -- right. eapply (Ret t); [discriminate|left; reflexivity].
      * left. injection H as <- <-. exact Cs.
    + destruct (fate_of t amb (call_set_seccomp amb)) as [|z|k] eqn:Fa.
      * rewrite prctl_load in H. destruct (attach_filter _ _ _ _) as [e|fs] eqn:A.
        -- unfold check_ret in H. destruct (_ =? 0)%Z eqn:E0.
           ++ exfalso. apply attach_errno in A. apply Z.eqb_eq in E0.
              destruct A as [->|[->| ->]]; discriminate E0.
           ++ injection H as <- <-. right. eapply (Ret t); [discriminate|left; reflexivity].
        -- change (check_ret amb 0 ?k) with k in H. injection H as <- <-. right.
           apply attach_accepted in A. destruct A as (_ & -> & _).
           apply (Ret (set_filters t (fprog_of prog :: t_filters t)) (Ok tt)).
           ++ intros x _ E. apply (f_equal (@length _)) in E. cbn in E. lia.
           ++ right. split; [reflexivity|]. cbn. lia.
      * unfold check_ret in H. destruct (_ =? 0)%Z eqn:E0; injection H as <- <-; right.
        -- apply (Ret t (Ok tt)); [|left; reflexivity]. intros x _ _.
           exists [], (call_set_seccomp amb), z. cbn [step_calls]. rewrite Fa, Ut.
           split; [reflexivity|]. split; [reflexivity|]. split; [reflexivity|]. split; [reflexivity|].
           apply Z.eqb_eq. exact E0.
        -- eapply (Ret t); [discriminate|left; reflexivity].
      * left. injection H as <- <-. exact Cs.
  - left. destruct (find_thread w u) as [t|]; [|injection H as _ <-; apply None_; intros ? []].
    destruct (supervised_entry (o_sup o) (t_filters t) d) as [|z|k];
      try (injection H as _ <-; apply None_; intros ? [<-|[]]; eauto).
    destruct (sys_effect w t d o) as [w1 e1] eqn:S. injection H as _ <-.
    apply sys_effect_events in S. apply None_. intros ev [<-|I]; [eauto|].
    destruct S as [->| ->]; [destruct I|]. destruct I as [<-|[]].
    exists (t_uid t), d, Proceed. right. eauto.
  - left. destruct (find_thread w u) as [t|]; injection H as _ <-; apply None_; intros ? [].
  - left. injection H as _ <-. apply None_; intros ? [].
Qed.

Lemma tail_of : forall A (a b c d : list A) x y, a ++ [x] = c ++ y :: d -> ~ In y a -> c = a /\ y = x /\ d = [].
Proof.
  intros A. induction a as [|z a IH]; intros b c d x y E N.
  - destruct c as [|q [|q' c]]; [injection E as -> <-; auto|discriminate|discriminate].
  - destruct c as [|q c]; [injection E as -> _; exfalso; apply N; left; reflexivity|].
    injection E as <- E. destruct (IH b c d x y E) as (-> & -> & ->); [|auto].
    intros I. apply N. right. exact I.
Qed.

Lemma wrun_split : forall prof ops w w' tr tr1 ev tr2,
  wrun prof w ops = (w', tr) -> tr = tr1 ++ ev :: tr2 ->
  exists w1 o w2 evs a b c d, In o ops /\ wstep prof w1 o = (w2, evs) /\ evs = a ++ ev :: b /\
    tr1 = c ++ a /\ tr2 = b ++ d.
Proof.
  intros prof. induction ops as [|o ops IH]; intros w w' tr tr1 ev tr2 H E; cbn [wrun] in H.
  - injection H as _ <-. destruct tr1; discriminate.
  - destruct (wstep prof w o) as [w1 e1] eqn:S1. destruct (wrun prof w1 ops) as [w2 e2] eqn:S2.
    injection H as <- <-. destruct (app_split _ _ _ _ _ E) as (l & [[E1 E2]|[E1 E2]]).
    + destruct l as [|y l].
      * cbn [app] in E2. rewrite app_nil_r in E1.
        destruct (IH w1 w2 e2 [] ev tr2 S2 (eq_sym E2)) as (v1 & o' & v2 & evs & a & b & c & d & X0 & X1 & X2 & X3 & X4).
        exists v1, o', v2, evs, a, b, (tr1 ++ c), d. split; [right; exact X0|]. repeat split; auto.
        rewrite <- app_assoc, <- X3, app_nil_r. reflexivity.
      * injection E2 as <- ->. exists w, o, w1, e1, tr1, l, [], e2. split; [left; reflexivity|]. auto.
    + destruct (IH w1 w2 e2 l ev tr2 S2 E2) as (v1 & o' & v2 & evs & a & b & c & d & X0 & X1 & X2 & X3 & X4).
      exists v1, o', v2, evs, a, b, (e1 ++ c), d. split; [right; exact X0|]. repeat split; auto.
      rewrite <- app_assoc, <- X3. exact E1.
Qed.

Lemma c74 : forall prof w ops w' tr tr1 u ps v tr2,
  wrun prof w ops = (w', tr) -> tr = tr1 ++ EvReturned u ps v (Ok tt) :: tr2 ->
  exists tr0 ev, tr1 = tr0 ++ [ev] /\
   ((exists pid tid, ev = EvInstalled u pid tid ps v) \/
    (exists d z, ev = EvCall u d (Fake z) /\ sd_nr d = SYS_prctl /\ sd_a0 d = PR_SET_SECCOMP /\
                 sd_a1 d = 2 /\ (z mod 2 ^ 32 = 0)%Z)).
Proof.
  intros prof w ops w' tr tr1 u ps v tr2 R E.
  destruct (wrun_split _ _ _ _ _ _ _ _ R E) as (w1 & o & w2 & evs & a & b & c & d & _ & S & Ev & -> & ->).
  destruct (step_cases _ _ _ _ _ S) as [[N _]|(u' & ps' & v' & r & calls & ins & Ee & N1 & N2 & Cs)].
  - exfalso. apply (N u ps v (Ok tt)). rewrite Ev. apply in_elt.
  - rewrite Ev in Ee. rewrite app_assoc in Ee. symmetry in Ee. apply tail_of in Ee; [|exact []|].
    + destruct Ee as (-> & Er & ->). injection Er as <- <- <- <-.
      destruct Cs as [[-> X]|[_ (pid & tid & ->)]].
      * destruct (X eq_refl) as (cs & d' & z & -> & Y). rewrite app_nil_r.
        exists (c ++ cs), (EvCall u d' (Fake z)). split; [apply app_assoc|]. right. eauto.
      * exists (c ++ calls), (EvInstalled u pid tid ps v). split; [apply app_assoc|]. left. eauto.
    + intros I. apply in_app_or in I. destruct I as [I|I]; [exact (N1 _ _ _ _ I)|].
      destruct Cs as [[-> _]|[_ (pid & tid & ->)]]; [exact I|]. destruct I as [I|[]]; discriminate.
Qed.

Lemma c74_converse : forall prof w ops w' tr tr1 u pid tid ps v tr2,
  wrun prof w ops = (w', tr) -> tr = tr1 ++ EvInstalled u pid tid ps v :: tr2 ->
  exists tr3, tr2 = EvReturned u ps v (Ok tt) :: tr3.
Proof.
  intros prof w ops w' tr tr1 u pid tid ps v tr2 R E.
  destruct (wrun_split _ _ _ _ _ _ _ _ R E) as (w1 & o & w2 & evs & a & b & c & d & _ & S & Ev & -> & ->).
  destruct (step_cases _ _ _ _ _ S) as [[_ N]|(u' & ps' & v' & r & calls & ins & Ee & N1 & N2 & Cs)].
  - exfalso. apply (N u pid tid ps v). rewrite Ev. apply in_elt.
  - assert (In' : In (EvInstalled u pid tid ps v) (calls ++ ins ++ [EvReturned u' ps' v' r]))
      by (rewrite <- Ee, Ev; apply in_elt).
    apply in_app_or in In'. destruct In' as [I|I]; [exfalso; exact (N2 _ _ _ _ _ I)|].
    destruct Cs as [[-> _]|[-> (pid' & tid' & ->)]].
    + destruct I as [I|[]]; discriminate.
    + rewrite Ev in Ee. clear Ev E S R I.
      revert a Ee. induction calls as [|x calls IH]; intros a Ee; cbn [app] in Ee.
      * destruct a as [|y [|y' [|y'' a]]]; try discriminate.
        injection Ee as -> -> -> -> -> ->. exists d. reflexivity.
      * destruct a as [|y a].
        -- exfalso. injection Ee as <- _. eapply N2. left. reflexivity.
        -- injection Ee as _ Ee. apply (IH (fun u ps v r I => N1 u ps v r (or_intror I))
             (fun u pid tid ps v I => N2 u pid tid ps v (or_intror I)) a Ee).
Qed.

(** * C75 *)
(** * C42 in histories *)

Lemma installed_call : forall prof w o w' evs u pid tid ps v,
  wstep prof w o = (w', evs) -> In (EvInstalled u pid tid ps v) evs ->
  exists amb, o = OStep u amb /\
    evs = [EvCall u (call_set_seccomp amb) Proceed; EvInstalled u pid tid ps v; EvReturned u ps v (Ok tt)].
Proof.
  intros prof w o w' evs u pid tid ps v H I.
  destruct o as [u0 ps0 v0|u0 amb|u0 d o|u0 b|u0]; cbn [wstep] in H;
    try (exfalso; destruct (find_thread w u0); injection H as _ <-; destruct I).
  - destruct (find_thread w u0) as [t|] eqn:F; [|injection H as _ <-; destruct I].
    apply find_thread_spec in F. destruct F as [_ Ut].
    destruct (t_call t) as [ph|]; [|injection H as _ <-; destruct I].
    destruct (pledge_step prof amb t ph) as [s t'] eqn:P.
    assert (Nc : ~ In (EvInstalled u pid tid ps v) (step_calls t amb ph)).
    { intros X. pose proof (step_calls_form t amb ph) as Fm. rewrite Forall_forall in Fm.
      destruct (Fm _ X) as (d & E). discriminate. }
    destruct s as [ph'|r]; [injection H as _ <-; contradiction|].
    assert (Cases : t_filters t' = t_filters t \/
      (exists ps1 v1 prog, ph = PLoad ps1 v1 prog /\ r = Ok tt /\
       fate_of t amb (call_set_seccomp amb) = Proceed /\
       t_filters t' = fprog_of prog :: t_filters t)).
    { destruct ph as [ps1 v1|ps1 v1 done todo|ps1 v1 prog|ps1 v1 prog]; cbn [pledge_step] in P.
      - injection P as _ <-. left. reflexivity.
      - destruct todo; injection P as _ <-; left; reflexivity.
      - left. destruct (fate_of t amb (call_set_nnp amb)).
        + assert (K : kernel_prctl (amb_oom amb) t (call_set_nnp amb) [] = (0%Z, set_nnp t)) by reflexivity.
          rewrite K in P. injection P as _ <-. reflexivity.
        + injection P as _ <-. reflexivity.
        + injection P as _ <-. reflexivity.
      - destruct (fate_of t amb (call_set_seccomp amb)) eqn:Ft.
        + unfold kernel_prctl, call_set_seccomp in P. cbn [sd_a0 sd_a1] in P.
          change (lo32 PR_SET_SECCOMP =? PR_SET_SECCOMP) with true in P. cbv iota in P.
          change (2 =? 2) with true in P. cbv iota in P.
          destruct (attach_filter _ _ _ _) as [e|fs] eqn:A; [injection P as _ <-; left; reflexivity|].
          apply attach_accepted in A. destruct A as (_ & -> & _). injection P as P <-. right.
          exists ps1, v1, prog. assert (r = Ok tt) by congruence. auto.
        + injection P as _ <-. left. reflexivity.
        + injection P as _ <-. left. reflexivity. }
    destruct Cases as [Same|(ps1 & v1 & prog & -> & -> & Pr & Fl)].
    + exfalso. destruct r as [x|e| |k]; injection H as _ <-; try contradiction;
        rewrite Same, Nat.eqb_refl in I; apply in_app_or in I; destruct I as [I|I]; try contradiction;
        destruct I as [I|[]]; discriminate.
    + injection H as _ <-. rewrite Fl in I |- *.
      assert (Z : Nat.eqb (length (fprog_of prog :: t_filters t)) (length (t_filters t)) = false)
        by (apply Nat.eqb_neq; cbn; lia).
      rewrite Z in I |- *. cbn [step_calls ph_promises ph_violation app] in *. rewrite Pr in *.
      destruct I as [I|[I|[I|[]]]]; try discriminate. injection I as -> <- <- <- <-.
      exists amb. rewrite Ut. auto.
  - exfalso. destruct (find_thread w u0) as [t|]; [|injection H as _ <-; destruct I].
    destruct (supervised_entry (o_sup o) (t_filters t) d) as [|z|k];
      try (injection H as _ <-; destruct I as [I|[]]; discriminate).
    destruct (sys_effect w t d o) as [w1 e1] eqn:S. injection H as _ <-. destruct I as [I|I]; [discriminate|].
    apply sys_effect_events in S. destruct S as [->| ->]; [destruct I|]. destruct I as [I|[]]. discriminate.
Qed.

Lemma descendants_call : forall us tr u d e, descendants us (tr ++ [EvCall u d e]) = descendants us tr.
Proof. intros. rewrite descendants_app. reflexivity. Qed.

Lemma c42_history : forall prof w ops w' tr tr1 u pid tid ps v tr2 tr3 u' pid' tid' ps' v' tr4,
  fresh_world w -> Forall real_calls ops -> wrun prof w ops = (w', tr) ->
  tr = tr1 ++ EvInstalled u pid tid ps v :: tr2 ->
  hard v \/ (enforcing v /\ Forall unsupervised ops) -> ~ In StdIO ps ->
  tr2 = tr3 ++ EvInstalled u' pid' tid' ps' v' :: tr4 -> ~ In u' (descendants [u] tr3).
Proof.
  intros prof w ops w' tr tr1 u pid tid ps v tr2 tr3 u' pid' tid' ps' v' tr4 Fw Rc R E Hv Ns E2 D.
  destruct (c40 _ _ _ _ _ _ _ _ _ _ _ _ Fw R E Hv) as (pids & tids & _ & _ & _ & _ & G).
  assert (E3 : tr = (tr1 ++ EvInstalled u pid tid ps v :: tr3) ++ EvInstalled u' pid' tid' ps' v' :: tr4)
    by (rewrite E, E2, <- app_assoc; reflexivity).
  destruct (wrun_split _ _ _ _ _ _ _ _ R E3) as (w1 & o & w2 & evs & a & b & c & d & Io & S & Ev & X & Y).
  assert (I : In (EvInstalled u' pid' tid' ps' v') evs) by (rewrite Ev; apply in_elt).
  destruct (installed_call _ _ _ _ _ _ _ _ _ _ S I) as (amb & -> & Ee).
  assert (A : a = [EvCall u' (call_set_seccomp amb) Proceed]).
  { rewrite Ee in Ev. destruct a as [|x a]; [discriminate|]. injection Ev as <- Ev.
    destruct a as [|y a]; [reflexivity|exfalso]. injection Ev as <- Ev.
    destruct a as [|y a]; [discriminate|]. injection Ev as _ Ev. destruct a; discriminate. }
  subst a.
  assert (T : exists tr3', tr3 = tr3' ++ [EvCall u' (call_set_seccomp amb) Proceed]).
  { destruct (exists_last (l := EvInstalled u pid tid ps v :: tr3) ltac:(discriminate)) as (l & x & L).
    rewrite L, app_assoc in X. apply app_inj_tail in X. destruct X as [_ ->].
    destruct l as [|y l]; [discriminate|]. injection L as _ L. exists l. exact L. }
  destruct T as (tr3' & ->). rewrite descendants_call in D.
  rewrite <- app_assoc in E2. cbn [app] in E2.
  rewrite Forall_forall in Rc. specialize (Rc _ Io). cbn [real_calls] in Rc.
  destruct (G tr3' u' _ _ E2 D (proj1 (wf_call_seccomp _ Rc))) as (_ & p & q & _ & _ & Gr).
  apply grants_seccomp in Gr. contradiction.
Qed.

(** * C39 in histories *)

Definition good_violation (v : SeccompReturn) : Prop := small_payload v /\ v <> Errno 0.
Definition frank_thread (t : thread) : Prop :=
  Forall frank (t_filters t) /\
  match t_call t with Some ph => good_violation (ph_violation ph) | None => True end.
Definition frank_world (w : world) : Prop := Forall frank_thread (w_threads w).

Lemma strict_frank : frank strict_mode.
Proof.
  intros d. unfold kernel_eval, kernel_eval_mem, strict_mode.
  cbn -[N.eqb].
  repeat match goal with |- context [if ?c then _ else _] => destruct c end; vm_compute; discriminate.
Qed.

Lemma gcode_frank : forall rs v, good_violation v -> frank (gcode rs v).
Proof.
  intros rs v [Sm E0] d. unfold kernel_eval. rewrite gcode_run.
  destruct (_ =? _); [|vm_compute; discriminate].
  destruct (existsb _ _); [vm_compute; discriminate|].
  rewrite (entry_of_ret v Sm). destruct v as [| | |x| | |]; try discriminate.
  cbn [fate]. intros H. injection H as H.
  assert (N.min x 4095 = 0) by lia. assert (x = 0) by lia. congruence.
Qed.

Lemma entry_fake : forall r z, entry_of r = Fake z -> (z mod 2 ^ 32 = 0)%Z -> z = 0%Z.
Proof.
  intros r z H M.
  assert (R : (-4095 <= z <= 0)%Z).
  { unfold entry_of in H.
    repeat match type of H with context [match ?x with _ => _ end] => destruct x end;
      try discriminate; injection H as <-; unfold MAX_ERRNO, ENOSYS; lia. }
  destruct (Z.eq_dec z 0) as [E|E]; [exact E|exfalso].
  pose proof (Z.mod_unique_pos z (2 ^ 32) (-1) (z + 2 ^ 32)). lia.
Qed.

Lemma run_in : forall fs d r, run_filters_from r fs d = r \/
  exists f, In f fs /\ run_filters_from r fs d = kernel_eval f d.
Proof.
  induction fs as [|f fs IH]; intros d r; cbn [run_filters_from]; [left; reflexivity|].
  set (r1 := if (_ <? _)%Z then _ else _). destruct (IH d r1) as [E|(g & G & E)].
  - rewrite E. subst r1. destruct (_ <? _)%Z; [right; exists f; split; [left|]; reflexivity|left; reflexivity].
  - right. exists g. split; [right; exact G|exact E].
Qed.

Lemma frank_entry : forall fs d z, Forall frank fs -> supervised_entry nobody fs d = Fake z ->
  (z mod 2 ^ 32 <> 0)%Z.
Proof.
  intros fs d z F H M. rewrite supervised_nobody in H. unfold syscall_entry in H.
  destruct fs as [|f fs]; [discriminate|].
  pose proof (entry_fake _ _ H M) as ->. unfold run_filters in H.
  destruct (run_in (f :: fs) d 0x7fff0000) as [E|(g & G & E)]; rewrite E in H.
  - vm_compute in H. discriminate.
  - rewrite Forall_forall in F. exact (F g G d H).
Qed.

Lemma frank_put : forall w t, frank_world w -> frank_thread t -> frank_world (put_thread w t).
Proof.
  intros w t H T. apply Forall_forall. intros x I. apply put_thread_in in I.
  destruct I as [[-> _]|[I _]]; [exact T|]. unfold frank_world in H. rewrite Forall_forall in H. auto.
Qed.
Lemma frank_filter : forall w f, frank_world w -> frank_world (mkWorld (filter f (w_threads w)) (w_next w)).
Proof.
  intros w f H. apply Forall_forall. intros x I. cbn [w_threads] in I. apply filter_In in I.
  unfold frank_world in H. rewrite Forall_forall in H. apply H. tauto.
Qed.
Lemma frank_death : forall w t d, frank_world w -> frank_world (apply_death w t d).
Proof. intros w t [| |] H; apply frank_filter; exact H. Qed.

Lemma sys_effect_frank : forall w t d o w' evs, frank_world w -> In t (w_threads w) ->
  frank (o_payload o) -> sys_effect w t d o = (w', evs) -> frank_world w'.
Proof.
  intros w t d o w' evs Hw It Fp H.
  assert (Hw' := Hw). unfold frank_world in Hw'. rewrite Forall_forall in Hw'.
  destruct (Hw' t It) as [Ft Ct].
  assert (New : forall b : bool,
     (if o_refuse o then (w, [])
      else (spawn w t (if b then t_pid t else o_newid o) (o_newid o), [EvSpawn (t_uid t) (w_next w)])) = (w', evs) ->
     frank_world w').
  { intros b E. destruct (o_refuse o); injection E as <- <-; [exact Hw|].
    constructor; [split; [exact Ft|exact I]|exact Hw]. }
  unfold sys_effect in H.
  destruct (_ || _); [exact (New false H)|].
  destruct (_ =? _); [exact (New _ H)|].
  destruct (_ =? _); [exact (New _ H)|].
  destruct (_ =? _).
  { injection H as <- <-. apply frank_put; [exact Hw|].
    destruct (prctl_cases (o_refuse o) t d (o_payload o)) as [->|[->|[->| ->]]]; split;
      try exact Ct; try exact Ft; constructor; try assumption. exact strict_frank. }
  destruct (_ && (_ && _ && _)).
  { injection H as <- <-. apply frank_put; [exact Hw|]. destruct (strict_cases t) as [->| ->]; split;
      try exact Ct; try exact Ft. constructor; [exact strict_frank|assumption]. }
  destruct (_ && _).
  2:{ destruct (_ && _); [injection H as <- <-|repeat destruct (_ =? _); injection H as <- <-;
        [exact (frank_death w t DeathThread Hw)|exact (frank_death w t DeathProcess Hw)|exact Hw]].
      apply Forall_forall. intros x Ix. apply run_program_in in Ix.
      destruct Ix as [->|(Ix & _)]; [split; [exact Ft|exact I]|exact (Hw' x Ix)]. }
  destruct (attach_filter _ _ _ _) as [x|fs] eqn:A; [injection H as <- <-; exact Hw|].
  apply attach_accepted in A. destruct A as (_ & -> & _). destruct (N.testbit _ _).
  - destruct (can_sync w t); injection H as <- <-; [|exact Hw].
    apply Forall_forall. intros x Ix. apply sync_in in Ix. destruct Ix as (y & Iy & X).
    destruct (Hw' y Iy) as [Fy Cy].
    destruct X as [->|[_ [->| ->]]]; split; try assumption; constructor; assumption.
  - injection H as <- <-. apply frank_put; [exact Hw|]. split; [constructor; assumption|exact Ct].
Qed.

Lemma wstep_frank : forall prof w o w' evs past, inv past w -> frank_world w -> frank_op o ->
  wstep prof w o = (w', evs) ->
  frank_world w' /\ forall u d z, In (EvCall u d (Fake z)) evs -> (z mod 2 ^ 32 <> 0)%Z.
Proof.
  intros prof w o w' evs past Hi Hw [Su Fo] H.
  assert (Hw' := Hw). unfold frank_world in Hw'. rewrite Forall_forall in Hw'.
  assert (Hi' := Hi). unfold inv in Hi'. rewrite Forall_forall in Hi'.
  assert (Same : (w, @nil event) = (w', evs) -> frank_world w' /\
     forall u d z, In (EvCall u d (Fake z)) evs -> (z mod 2 ^ 32 <> 0)%Z).
  { intros E. injection E as <- <-. split; [exact Hw|]. intros u d z []. }
  destruct o as [u0 ps0 v0|u0 amb|u0 d o|u0 b|u0]; cbn [wstep] in H.
  - destruct (find_thread w u0) as [t|] eqn:F; [|exact (Same H)]. apply find_thread_spec in F.
    destruct F as [It _]. destruct (t_call t); [exact (Same H)|]. injection H as <- <-.
    split; [|intros u d z []]. apply frank_put; [exact Hw|]. split; [apply (Hw' t It)|exact Fo].
  - destruct (find_thread w u0) as [t|] eqn:F; [|exact (Same H)]. apply find_thread_spec in F.
    destruct F as [It Ut]. destruct (t_call t) as [ph|] eqn:Cl; [|exact (Same H)].
    destruct (Hw' t It) as [Ft Ct]. rewrite Cl in Ct. cbn [unsupervised] in Su.
    assert (Cs : forall u d z, In (EvCall u d (Fake z)) (step_calls t amb ph) -> (z mod 2 ^ 32 <> 0)%Z).
    { intros u d z I. pose proof (step_calls_form t amb ph) as Fm. rewrite Forall_forall in Fm.
      destruct (Fm _ I) as (d' & E). injection E as -> -> E. rewrite Su in E. symmetry in E.
      exact (frank_entry _ _ _ Ft E). }
    assert (Ck : call_ok past (set_call t (Some ph))).
    { destruct (Hi' t It) as [X _]. unfold call_ok in *. rewrite Cl in X. exact X. }
    destruct (pledge_step prof amb t ph) as [s t'] eqn:P.
    destruct (pledge_step_facts prof amb t ph s t' past Ck P) as (_ & _ & _ & _ & Co & F').
    assert (Ft' : Forall frank (t_filters t')).
    { destruct F' as [->|(_ & _ & rs & -> & _)]; [exact Ft|]. constructor; [|exact Ft].
      apply gcode_frank. exact Ct. }
    destruct s as [ph'|r].
    + injection H as <- <-. split; [|exact Cs]. apply frank_put; [exact Hw|].
      split; [exact Ft'|]. cbn [set_call t_call]. destruct (Co ph' eq_refl) as (_ & _ & ->). exact Ct.
    + assert (Rest : forall ins u d z,
        In (EvCall u d (Fake z)) (step_calls t amb ph ++
          (if Nat.eqb (length (t_filters t')) (length (t_filters t)) then []
           else [EvInstalled u0 (t_pid t) (t_tid t) (ph_promises ph) (ph_violation ph)]) ++
          [EvReturned u0 (ph_promises ph) (ph_violation ph) ins]) -> (z mod 2 ^ 32 <> 0)%Z).
      { intros ins u d z I. apply in_app_or in I. destruct I as [I|I]; [exact (Cs _ _ _ I)|].
        apply in_app_or in I. destruct I as [I|[I|[]]]; [|discriminate].
        destruct (Nat.eqb _ _); [destruct I|]. destruct I as [I|[]]. discriminate. }
      destruct r as [x|e| |k]; injection H as <- <-;
        (split; [|first [exact (Rest _) | exact Cs]]);
        try (apply frank_put; [exact Hw|]; split; [exact Ft'|exact I]).
      apply frank_death. exact Hw.
  - destruct (find_thread w u0) as [t|] eqn:F; [|exact (Same H)]. apply find_thread_spec in F.
    destruct F as [It Ut]. destruct (Hw' t It) as [Ft _]. cbn [unsupervised] in Su.
    assert (Ev : forall u d' z, EvCall u0 d (supervised_entry (o_sup o) (t_filters t) d) = EvCall u d' (Fake z) ->
      (z mod 2 ^ 32 <> 0)%Z).
    { intros u d' z E. injection E as _ _ E. rewrite Su in E. exact (frank_entry _ _ _ Ft E). }
    destruct (supervised_entry (o_sup o) (t_filters t) d) as [|z|k].
    + destruct (sys_effect w t d o) as [w1 e1] eqn:S. injection H as <- <-.
      split; [exact (sys_effect_frank _ _ _ _ _ _ Hw It Fo S)|].
      intros u d' z [I|I]; [discriminate|]. apply sys_effect_events in S.
      destruct S as [->| ->]; [destruct I|]. destruct I as [I|[]]. discriminate.
    + injection H as <- <-. split; [exact Hw|]. intros u d' z' [I|[]]. exact (Ev _ _ _ I).
    + injection H as <- <-. split; [apply frank_death; exact Hw|]. intros u d' z' [I|[]]. discriminate.
  - destruct (find_thread w u0) as [t|] eqn:F; [|exact (Same H)]. apply find_thread_spec in F.
    destruct F as [It _]. injection H as <- <-. split; [|intros u d z []].
    apply frank_put; [exact Hw|]. exact (Hw' t It).
  - injection H as <- <-. split; [|intros u d z []]. apply frank_filter. exact Hw.
Qed.

Lemma wrun_frank : forall prof ops w w' tr past, inv past w -> frank_world w -> Forall frank_op ops ->
  wrun prof w ops = (w', tr) -> forall u d z, In (EvCall u d (Fake z)) tr -> (z mod 2 ^ 32 <> 0)%Z.
Proof.
  intros prof. induction ops as [|o ops IH]; intros w w' tr past Hi Hw F H u d z I; cbn [wrun] in H.
  - injection H as _ <-. destruct I.
  - destruct (wstep prof w o) as [w1 e1] eqn:S1. destruct (wrun prof w1 ops) as [w2 e2] eqn:S2.
    injection H as <- <-. inversion F; subst.
    destruct (wstep_frank _ _ _ _ _ _ Hi Hw H1 S1) as [W1 E1].
    apply in_app_or in I. destruct I as [I|I]; [exact (E1 _ _ _ I)|].
    exact (IH _ _ _ _ (wstep_inv _ _ _ _ _ past Hi S1) W1 H2 S2 _ _ _ I).
Qed.

Lemma c39_history : forall prof w ops w' tr, fresh_world w ->
  Forall (fun t => Forall frank (t_filters t)) (w_threads w) -> Forall frank_op ops ->
  wrun prof w ops = (w', tr) ->
  (forall u d z, In (EvCall u d (Fake z)) tr -> (z mod 2 ^ 32 <> 0)%Z) /\
  (forall tr1 u ps v tr2, tr = tr1 ++ EvReturned u ps v (Ok tt) :: tr2 ->
     exists tr0 pid tid, tr1 = tr0 ++ [EvInstalled u pid tid ps v]).
Proof.
  intros prof w ops w' tr Fw Ff Fo H.
  assert (W : frank_world w).
  { unfold fresh_world in Fw. unfold frank_world, frank_thread. rewrite Forall_forall in Fw, Ff |- *.
    intros t I. split; [apply Ff; exact I|]. destruct (Fw t I) as [-> _]. exact Logic.I. }
  assert (A := wrun_frank prof ops w w' tr [] (fresh_inv _ _ Fw) W Fo H). split; [exact A|].
  intros tr1 u ps v tr2 E. destruct (c74 _ _ _ _ _ _ _ _ _ _ H E) as (tr0 & ev & E1 & [(pid & tid & ->)|X]).
  - eauto.
  - exfalso. destruct X as (d & z & -> & _ & _ & _ & Z0). subst.
    apply (A u d z); [|exact Z0]. apply in_or_app. left. apply in_elt.
Qed.

Lemma put_other : forall w t x, t_uid x <> t_uid t -> In x (w_threads w) -> In x (w_threads (put_thread w t)).
Proof.
  intros w t x N I. cbn [put_thread w_threads]. apply in_map_iff. exists x. split; [|exact I].
  apply Nat.eqb_neq in N. rewrite N. reflexivity.
Qed.

Lemma died_event : forall prof amb t ph k t', pledge_step prof amb t ph = (Return_ (Died k), t') ->
  exists d, In (EvCall (t_uid t) d (Kill k)) (step_calls t amb ph).
Proof.
  intros prof amb t ph k t' H.
  destruct ph as [ps v|ps v done todo|ps v prog|ps v prog]; cbn [pledge_step step_calls] in *.
  - rewrite promises_to_filters_ok in H. discriminate.
  - destruct todo as [|f todo]; [rewrite assemble_ok in H; discriminate|].
    destruct (rule_thread prof t amb f) as [(part & B)|(d & B & [[-> D]|[-> D]])]; rewrite B in H;
      [discriminate|..]; injection H as -> _; unfold read_call in D.
    + exists (call_getpid amb). destruct (fate_of t amb (call_getpid amb)); try discriminate.
      injection D as ->. left. reflexivity.
    + exists (call_gettid amb). destruct (fate_of t amb (call_gettid amb)); try discriminate.
      injection D as ->. left. reflexivity.
  - rewrite prctl_nnp in H. destruct (fate_of t amb (call_set_nnp amb)) as [|z|k']; [discriminate| |].
    + unfold check_ret in H. destruct (_ =? 0)%Z; discriminate.
    + injection H as -> _. eexists. left. reflexivity.
  - destruct (fate_of t amb (call_set_seccomp amb)) as [|z|k'].
    + rewrite prctl_load in H. destruct (attach_filter _ _ _ _); [|discriminate]. unfold check_ret in H.
      destruct (_ =? 0)%Z; discriminate.
    + unfold check_ret in H. destruct (_ =? 0)%Z; discriminate.
    + injection H as -> _. eexists. left. reflexivity.
Qed.

Lemma c75 : forall prof w u amb w' evs,
  wstep prof w (OStep u amb) = (w', evs) ->
  (forall t, In t (w_threads w) -> t_uid t <> u ->
     In t (w_threads w') \/
     exists t0 d k, In t0 (w_threads w) /\ t_uid t0 = u /\ t_pid t0 = t_pid t /\
       In (EvCall u d (Kill k)) evs /\ k <> DeathThread) /\
  (forall t, In t (w_threads w') -> t_uid t <> u -> In t (w_threads w)).
Proof.
  intros prof w u amb w' evs H. cbn [wstep] in H.
  destruct (find_thread w u) as [t0|] eqn:F; [|injection H as <- _; split; auto].
  apply find_thread_spec in F. destruct F as [I0 U0].
  destruct (t_call t0) as [ph|]; [|injection H as <- _; split; auto].
  destruct (pledge_step prof amb t0 ph) as [s t'] eqn:P.
  pose proof (pledge_step_grown _ _ _ _ _ _ P) as (U & _).
  assert (Put : forall c, (forall t, In t (w_threads w) -> t_uid t <> u ->
                             In t (w_threads (put_thread w (set_call t' c)))) /\
                          (forall t, In t (w_threads (put_thread w (set_call t' c))) -> t_uid t <> u ->
                             In t (w_threads w))).
  { intros c. split; intros t It N.
    - apply put_other; [cbn; rewrite U, U0; exact N|exact It].
    - apply put_thread_in in It. destruct It as [[-> _]|[It _]]; [|exact It].
      exfalso. apply N. cbn. congruence. }
  destruct s as [ph'|[x|e| |k]];
    try (injection H as <- _; split; [intros t It N; left; apply Put; assumption|apply Put]).
  injection H as <- <-. split.
  - intros t It N. unfold apply_death, drop_thread, drop_process.
    destruct (died_event _ _ _ _ _ _ P) as (d & Ed). rewrite U0 in Ed.
    assert (Proc_ : forall k', k' = k -> k' <> DeathThread ->
        In t (filter (fun t' => negb (t_pid t' =? t_pid t0)) (w_threads w)) \/
        exists t1 d k, In t1 (w_threads w) /\ t_uid t1 = u /\ t_pid t1 = t_pid t /\
          In (EvCall u d (Kill k)) (step_calls t0 amb ph) /\ k <> DeathThread).
    { intros k' -> Nk. destruct (N.eq_dec (t_pid t) (t_pid t0)) as [E|E].
      - right. exists t0, d, k. auto.
      - left. apply filter_In. split; [exact It|]. apply N.eqb_neq in E. rewrite E. reflexivity. }
    destruct k; cbn [w_threads].
    + apply (Proc_ DeathProcess); [reflexivity|discriminate].
    + left. apply filter_In. split; [exact It|]. rewrite U0. apply Nat.eqb_neq in N. rewrite N. reflexivity.
    + apply (Proc_ DeathSigsys); [reflexivity|discriminate].
  - intros t It _. destruct k; cbn [apply_death drop_thread drop_process w_threads] in It;
      apply filter_In in It; apply It.
Qed.

(** * C76 *)

(** Where the tasks after a step come from. *)
Lemma put_origin : forall w t x, In x (w_threads (put_thread w t)) ->
  (exists y, In y (w_threads w) /\ t_uid y = t_uid t /\ t_pid y = t_pid t) ->
  exists y, In y (w_threads w) /\ t_uid x = t_uid y /\ t_pid x = t_pid y.
Proof.
  intros w t x I (y & Iy & U & P). apply put_thread_in in I. destruct I as [[-> _]|[I _]].
  - exists y. auto.
  - exists x. auto.
Qed.
Lemma filter_origin : forall w f n x, In x (w_threads (mkWorld (filter f (w_threads w)) n)) ->
  exists y, In y (w_threads w) /\ t_uid x = t_uid y /\ t_pid x = t_pid y.
Proof. intros w f n x I. apply filter_In in I. exists x. split; [apply I|auto]. Qed.

Lemma wstep_origin : forall prof w o w' evs x, wstep prof w o = (w', evs) -> In x (w_threads w') ->
  (exists y, In y (w_threads w) /\ t_uid x = t_uid y /\ t_pid x = t_pid y) \/
  (exists t d o', o = OSys (t_uid t) d o' /\ In t (w_threads w) /\
     supervised_entry (o_sup o') (t_filters t) d = Proceed /\
     evs = [EvCall (t_uid t) d Proceed; EvSpawn (t_uid t) (w_next w)] /\ t_uid x = w_next w /\
     (t_pid x = t_pid t \/ t_pid x = o_newid o') /\
     (sd_nr d = SYS_fork \/ sd_nr d = SYS_vfork \/ sd_nr d = SYS_clone3 \/
      sd_nr d = SYS_clone /\ (N.land (sd_a0 d) CLONE_THREAD <> 0 -> t_pid x = t_pid t))).
Proof.
  intros prof w o w' evs x H I.
  assert (Same : w = w' -> exists y, In y (w_threads w) /\ t_uid x = t_uid y /\ t_pid x = t_pid y)
    by (intros ->; eauto).
  destruct o as [u ps v|u amb|u d o|u b|u]; cbn [wstep] in H.
  - left. destruct (find_thread w u) as [t|] eqn:F; [|injection H as H _; exact (Same H)].
    apply find_thread_spec in F. destruct F as [It Ut].
    destruct (t_call t); [injection H as H _; exact (Same H)|]. injection H as <- _.
    apply (put_origin _ _ _ I). eauto.
  - left. destruct (find_thread w u) as [t|] eqn:F; [|injection H as H _; exact (Same H)].
    apply find_thread_spec in F. destruct F as [It Ut].
    destruct (t_call t) as [ph|]; [|injection H as H _; exact (Same H)].
    destruct (pledge_step prof amb t ph) as [s t'] eqn:P.
    apply pledge_step_grown in P. destruct P as (U & Pp & _).
    assert (Put : forall c, In x (w_threads (put_thread w (set_call t' c))) ->
       exists y, In y (w_threads w) /\ t_uid x = t_uid y /\ t_pid x = t_pid y).
    { intros c Ic. apply (put_origin _ _ _ Ic). exists t. auto. }
    destruct s as [ph'|[z|e| |k]]; injection H as <- _; try apply (Put _ I).
    destruct k; apply (filter_origin _ _ _ _ I).
  - destruct (find_thread w u) as [t|] eqn:F; [|left; injection H as H _; exact (Same H)].
    apply find_thread_spec in F. destruct F as [It <-].
    destruct (supervised_entry (o_sup o) (t_filters t) d) as [|z|k] eqn:Se.
    + destruct (sys_effect w t d o) as [w1 e1] eqn:S. injection H as <- <-.
      assert (New : forall b : bool,
        (if o_refuse o then (w, [])
         else (spawn w t (if b then t_pid t else o_newid o) (o_newid o), [EvSpawn (t_uid t) (w_next w)])) = (w1, e1) ->
        (sd_nr d = SYS_fork \/ sd_nr d = SYS_vfork \/ sd_nr d = SYS_clone3 \/
         sd_nr d = SYS_clone /\ b = negb (N.land (sd_a0 d) CLONE_THREAD =? 0)) ->
        (exists y, In y (w_threads w) /\ t_uid x = t_uid y /\ t_pid x = t_pid y) \/
        (exists t1 d1 o', OSys (t_uid t) d o = OSys (t_uid t1) d1 o' /\ In t1 (w_threads w) /\
          supervised_entry (o_sup o') (t_filters t1) d1 = Proceed /\
          EvCall (t_uid t) d Proceed :: e1 = [EvCall (t_uid t1) d1 Proceed; EvSpawn (t_uid t1) (w_next w)] /\ t_uid x = w_next w /\
          (t_pid x = t_pid t1 \/ t_pid x = o_newid o') /\
          (sd_nr d1 = SYS_fork \/ sd_nr d1 = SYS_vfork \/ sd_nr d1 = SYS_clone3 \/
           sd_nr d1 = SYS_clone /\ (N.land (sd_a0 d1) CLONE_THREAD <> 0 -> t_pid x = t_pid t1)))).
      { intros b E Hb. destruct (o_refuse o); [left; injection E as E _; exact (Same E)|].
        injection E as <- <-. destruct I as [<-|I]; [|left; eauto]. right.
        exists t, d, o. repeat (split; [reflexivity || assumption|]). cbn [t_uid t_pid].
        split; [destruct b; auto|].
        destruct Hb as [Hb|[Hb|[Hb|[Hb ->]]]]; auto. right. right. right. split; [exact Hb|].
        intros Z. apply N.eqb_neq in Z. rewrite Z. reflexivity. }
      unfold sys_effect in S.
      destruct ((_ =? _) || (_ =? _)) eqn:Q1.
      { apply (New false S). apply orb_true_iff in Q1. destruct Q1 as [Q|Q]; apply N.eqb_eq in Q; auto. }
      destruct (sd_nr d =? SYS_clone) eqn:Q2.
      { apply (New _ S). apply N.eqb_eq in Q2. auto. }
      destruct (sd_nr d =? SYS_clone3) eqn:Q3.
      { apply (New _ S). apply N.eqb_eq in Q3. auto. }
      left. destruct (sd_nr d =? SYS_prctl).
      { injection S as <- _. apply (put_origin _ _ _ I). exists t.
        destruct (prctl_cases (o_refuse o) t d (o_payload o)) as [->|[->|[->| ->]]]; auto. }
      destruct (_ && (_ && _ && _)).
      { injection S as <- _. apply (put_origin _ _ _ I). exists t. destruct (strict_cases t) as [->| ->]; auto. }
      destruct (_ && _).
      2:{ destruct (_ && _).
          2:{ destruct (sd_nr d =? SYS_exit); [injection S as <- _; apply (filter_origin _ _ _ _ I)|].
              destruct (sd_nr d =? SYS_exit_group); injection S as S _; [subst w1; apply (filter_origin _ _ _ _ I)|exact (Same S)]. }
          injection S as <- _.
          apply run_program_in in I. destruct I as [->|(I & _)]; [exists t; auto|exists x; auto]. }
      destruct (attach_filter _ _ _ _) as [z|fs]; [injection S as S _; exact (Same S)|].
      destruct (N.testbit _ _).
      * destruct (can_sync w t); [|injection S as S _; exact (Same S)]. injection S as <- _.
        apply sync_in in I. destruct I as (y & Iy & [->|[_ [->| ->]]]); exists y; auto.
      * injection S as <- _. apply (put_origin _ _ _ I). exists t. auto.
    + left. injection H as H _. exact (Same H).
    + left. injection H as <- _. destruct k; apply (filter_origin _ _ _ _ I).
  - left. destruct (find_thread w u) as [t|] eqn:F; [|injection H as H _; exact (Same H)].
    apply find_thread_spec in F. destruct F as [It Ut]. injection H as <- _.
    apply (put_origin _ _ _ I). exists t. auto.
  - left. injection H as <- _. apply (filter_origin _ _ _ _ I).
Qed.

(** The tasks [us] belong to process [P]. *)
Definition within (w : world) (us : list nat) (P : N) : Prop :=
  forall t, In t (w_threads w) -> In (t_uid t) us -> t_pid t = P.

Lemma no_proc_grants : forall ps pid tid d, ~ In Proc ps -> granted ps pid tid d ->
  sd_nr d <> SYS_fork /\ sd_nr d <> SYS_vfork /\ sd_nr d <> SYS_clone3 /\
  (sd_nr d = SYS_clone -> N.land (sd_a0 d) CLONE_THREAD <> 0).
Proof.
  intros ps pid tid d Np G. split; [|split; [|split]].
  - intros Hn. row SYS_fork R. apply (R _ _ _ _ Hn) in G. unpromise. tauto.
  - intros Hn. row SYS_vfork R. apply (R _ _ _ _ Hn) in G. unpromise. tauto.
  - intros Hn. row SYS_clone3 R. apply (R _ _ _ _ Hn) in G. exact G.
  - intros Hn. row SYS_clone R. apply (R _ _ _ _ Hn) in G. unpromise.
    assert (T : has CLONE_THREAD (sd_a0 d)) by tauto. unfold has in T. rewrite T. discriminate.
Qed.

Lemma wstep_spawn : forall prof w o w' evs p c, wstep prof w o = (w', evs) ->
  In (EvSpawn p c) evs -> c = w_next w.
Proof.
  intros prof w o w' evs p c H I.
  destruct o as [u ps v|u amb|u d o|u b|u]; cbn [wstep] in H.
  - destruct (find_thread w u); injection H as _ <-; destruct I.
  - destruct (find_thread w u) as [t|]; [|injection H as _ <-; destruct I].
    destruct (t_call t) as [ph|]; [|injection H as _ <-; destruct I].
    assert (Cs : ~ In (EvSpawn p c) (step_calls t amb ph)).
    { intros X. pose proof (step_calls_form t amb ph) as F. rewrite Forall_forall in F.
      destruct (F _ X) as (d & Y). discriminate. }
    exfalso. apply Cs.
    destruct (pledge_step prof amb t ph) as [[ph'|[z|e| |k]] t']; injection H as _ <-; try exact I;
      (apply in_app_or in I; destruct I as [I|I]; [exact I|]; exfalso;
       destruct (Nat.eqb _ _); cbn [app] in I; destruct I as [I|I]; try discriminate;
       [destruct I|destruct I as [I|[]]; discriminate]).
  - destruct (find_thread w u) as [t|]; [|injection H as _ <-; destruct I].
    destruct (supervised_entry (o_sup o) (t_filters t) d) as [|z|k];
      try (injection H as _ <-; destruct I as [I|[]]; discriminate).
    destruct (sys_effect w t d o) as [w1 e1] eqn:S. injection H as _ <-.
    destruct I as [I|I]; [discriminate|]. apply sys_effect_events in S.
    destruct S as [->| ->]; [destruct I|]. destruct I as [I|[]]. injection I as _ <-. reflexivity.
  - destruct (find_thread w u); injection H as _ <-; destruct I.
  - injection H as _ <-. destruct I.
Qed.

Lemma descendants_new : forall n evs us u, (forall p c, In (EvSpawn p c) evs -> c = n) ->
  In u (descendants us evs) -> In u us \/ u = n.
Proof.
  intros n. induction evs as [|ev evs IH]; intros us u H I; [left; exact I|].
  assert (H' : forall p c, In (EvSpawn p c) evs -> c = n) by (intros; apply (H p); right; assumption).
  destruct ev as [u' d e|p c|u' a b ps v|u' ps v r]; cbn [descendants] in I; try exact (IH _ _ H' I).
  destruct (IH _ _ H' I) as [X|X]; [|right; exact X].
  destruct (existsb (Nat.eqb p) us); [|left; exact X].
  destruct X as [<-|X]; [right; apply (H p); left; reflexivity|left; exact X].
Qed.

(** [ok d]: what makes a call that proceeds on a stack holding [prog] no new process. *)
Definition no_process (S : supervisor -> Prop) (prog : list sock_filter) : Prop :=
  forall fs s d, In prog fs -> S s -> wf_data d -> supervised_entry s fs d = Proceed ->
  sd_nr d <> SYS_fork /\ sd_nr d <> SYS_vfork /\ sd_nr d <> SYS_clone3 /\
  (sd_nr d = SYS_clone -> N.land (sd_a0 d) CLONE_THREAD <> 0).

Lemma wstep_within : forall S prof w o w' evs us prog P, op_in S o -> real_calls o ->
  no_process S prog -> confined w us prog -> (forall t, In t (w_threads w) -> (t_uid t < w_next w)%nat) ->
  within w us P -> wstep prof w o = (w', evs) -> within w' (descendants us evs) P.
Proof.
  intros S prof w o w' evs us prog P So Rc Np [C1 C2] U Wi H x Ix Dx.
  destruct (wstep_origin prof w o w' evs x H Ix) as [(y & Iy & Uy & Py)|(t & d & o' & -> & It & Se & -> & Ux & _ & Nr)].
  - rewrite Py. apply Wi; [exact Iy|]. rewrite Uy in Dx.
    destruct (descendants_new (w_next w) evs us (t_uid y)) as [X|X]; auto.
    + intros p c. apply (wstep_spawn prof w o w' evs). exact H.
    + specialize (U y Iy). lia.
  - cbn [descendants] in Dx. rewrite Ux in Dx.
    destruct (existsb (Nat.eqb (t_uid t)) us) eqn:X.
    + apply existsb_exists in X. destruct X as (z & Z & E). apply Nat.eqb_eq in E. subst z.
      destruct (Np (t_filters t) (o_sup o') d (C1 t It Z) So Rc Se) as (A & B & C & D).
      destruct Nr as [Nr|[Nr|[Nr|[Nr Q]]]]; try contradiction.
      rewrite (Q (D Nr)). apply Wi; assumption.
    + specialize (C2 _ Dx). lia.
Qed.

Lemma wrun_within : forall S prof ops w w' tr us prog P past, Forall (op_in S) ops -> Forall real_calls ops ->
  no_process S prog -> inv past w -> confined w us prog -> within w us P ->
  wrun prof w ops = (w', tr) -> within w' (descendants us tr) P.
Proof.
  intros S prof. induction ops as [|o ops IH]; intros w w' tr us prog P past So Rc Np Hi Hc Wi H; cbn [wrun] in H.
  - injection H as <- <-. exact Wi.
  - destruct (wstep prof w o) as [w1 e1] eqn:S1. destruct (wrun prof w1 ops) as [w2 e2] eqn:S2.
    injection H as <- <-. inversion So; subst. inversion Rc; subst. rewrite descendants_app.
    destruct (wstep_ok S prof w o w1 e1 us prog past H1 Hi Hc S1) as (I1 & C1 & _).
    apply (IH w1 w2 e2 _ prog P (past ++ e1)); try assumption.
    apply (wstep_within S prof w o w1 e1 us prog P); try assumption.
    intros t It. unfold inv in Hi. rewrite Forall_forall in Hi. apply Hi, It.
Qed.

Lemma installed_within : forall prof w o w' evs tr1 u pid tid ps v tr2,
  wstep prof w o = (w', evs) -> evs = tr1 ++ EvInstalled u pid tid ps v :: tr2 -> within w' [u] pid.
Proof.
  intros prof w o w' evs tr1 u pid tid ps v tr2 H E.
  assert (I : In (EvInstalled u pid tid ps v) evs) by (rewrite E; apply in_elt). clear E.
  destruct o as [u0 ps0 v0|u0 amb|u0 d o|u0 b|u0]; cbn [wstep] in H.
  - destruct (find_thread w u0); injection H as _ <-; destruct I.
  - destruct (find_thread w u0) as [t|] eqn:F; [|injection H as _ <-; destruct I].
    apply find_thread_spec in F. destruct F as [It Ut].
    destruct (t_call t) as [ph|]; [|injection H as _ <-; destruct I].
    assert (Cs : ~ In (EvInstalled u pid tid ps v) (step_calls t amb ph)).
    { intros X. pose proof (step_calls_form t amb ph) as F. rewrite Forall_forall in F.
      destruct (F _ X) as (d & Y). discriminate. }
    destruct (pledge_step prof amb t ph) as [s t'] eqn:P.
    apply pledge_step_grown in P. destruct P as (U & Pp & _).
    assert (Q : forall r, In (EvInstalled u pid tid ps v)
        (step_calls t amb ph ++
         (if Nat.eqb (length (t_filters t')) (length (t_filters t)) then []
          else [EvInstalled u0 (t_pid t) (t_tid t) (ph_promises ph) (ph_violation ph)]) ++
         [EvReturned u0 (ph_promises ph) (ph_violation ph) r]) -> within (put_thread w (set_call t' None)) [u] pid).
    { intros r X. apply in_app_or in X. destruct X as [X|X]; [contradiction|].
      destruct (Nat.eqb _ _); cbn [app] in X; destruct X as [X|X]; try discriminate; [destruct X| |].
      - injection X as <- <- _ _ _. intros x Ix [Ux|[]].
        apply put_thread_in in Ix. destruct Ix as [[-> _]|[_ Ix]]; [exact Pp|].
        exfalso. apply Ix. cbn. congruence.
      - destruct X as [X|[]]; discriminate. }
    destruct s as [ph'|[z|e| |k]]; injection H as <- <-; try contradiction; apply (Q _ I).
  - exfalso. destruct (find_thread w u0) as [t|]; [|injection H as _ <-; destruct I].
    destruct (supervised_entry (o_sup o) (t_filters t) d) as [|z|k];
      try (injection H as _ <-; destruct I as [I|[]]; discriminate).
    destruct (sys_effect w t d o) as [w1 e1] eqn:S. injection H as _ <-.
    destruct I as [I|I]; [discriminate|]. apply sys_effect_events in S.
    destruct S as [->| ->]; [destruct I|]. destruct I as [I|[]]. discriminate.
  - destruct (find_thread w u0); injection H as _ <-; destruct I.
  - injection H as _ <-. destruct I.
Qed.

Lemma history_within : forall S prof ops w w' tr tr1 u pid tid ps v tr2 past,
  Forall (op_in S) ops -> Forall real_calls ops ->
  (forall rs, map fst rs = all_filters ps -> no_process S (gcode rs v)) -> inv past w ->
  wrun prof w ops = (w', tr) -> tr = tr1 ++ EvInstalled u pid tid ps v :: tr2 ->
  within w' (descendants [u] tr2) pid.
Proof.
  intros S prof. induction ops as [|o ops IH]; intros w w' tr tr1 u pid tid ps v tr2 past So Rc Np Hi H E;
    cbn [wrun] in H.
  - injection H as _ <-. destruct tr1; discriminate.
  - destruct (wstep prof w o) as [w1 e1] eqn:S1. destruct (wrun prof w1 ops) as [w2 e2] eqn:S2.
    injection H as <- <-. inversion So; subst. inversion Rc; subst.
    pose proof (wstep_inv _ _ _ _ _ past Hi S1) as I1.
    assert (X : (exists l, e1 = tr1 ++ EvInstalled u pid tid ps v :: l /\ tr2 = l ++ e2) \/
                (exists l, tr1 = e1 ++ l /\ e2 = l ++ EvInstalled u pid tid ps v :: tr2)).
    { destruct (app_split _ _ _ _ _ E) as (l & [[E1 E2]|[E1 E2]]).
      - destruct l as [|y l].
        + right. exists []. rewrite app_nil_r in E1. subst e1. rewrite app_nil_r. auto.
        + injection E2 as <- ->. left. exists l. auto.
      - right. exists l. auto. }
    destruct X as [(l & E1 & ->)|(l & -> & E2)].
    + destruct (wstep_installed prof w o w1 e1 tr1 u pid tid ps v l past Hi S1 E1) as (rs & Mr & _ & C & ->).
      pose proof (installed_within prof w o w1 e1 tr1 u pid tid ps v _ S1 E1) as Wi.
      rewrite descendants_app. cbn [descendants].
      apply (wrun_within S prof ops w1 w2 e2 [u] (gcode rs v) pid (past ++ e1)); auto.
    + exact (IH w1 w2 e2 l u pid tid ps v tr2 _ H2 H4 Np I1 S2 E2).
Qed.

Lemma c76 : forall prof w ops w' tr tr1 u pid tid ps v tr2 t',
  fresh_world w -> Forall real_calls ops -> wrun prof w ops = (w', tr) ->
  tr = tr1 ++ EvInstalled u pid tid ps v :: tr2 ->
  hard v \/ (enforcing v /\ Forall unsupervised ops) -> ~ In Proc ps ->
  In t' (w_threads w') -> In (t_uid t') (descendants [u] tr2) -> t_pid t' = pid.
Proof.
  intros prof w ops w' tr tr1 u pid tid ps v tr2 t' Fw Rc R E Hv Np I D.
  assert (X : exists S, Forall (op_in S) ops /\
            forall rs, map fst rs = all_filters ps -> no_process S (gcode rs v)).
  { destruct Hv as [Hv|[Ev Un]].
    - exists anybody. split; [apply Forall_forall; intros; apply op_anybody|].
      intros rs M fs s d If _ W P. destruct (mixed 0 0 rs ps v d M) as (p & q & _ & _ & A).
      apply (no_proc_grants ps p q d Np).
      apply (hard_grants_at p q ps v _ fs s d A Hv W If P).
    - exists (eq nobody). split.
      + eapply Forall_impl; [|exact Un]. intros o. destruct o; cbn; auto.
      + intros rs M fs s d If <- W P. destruct (mixed 0 0 rs ps v d M) as (p & q & _ & _ & A).
        apply (no_proc_grants ps p q d Np).
        rewrite supervised_nobody in P. destruct (in_split _ _ If) as (f1 & f2 & ->).
        apply (stack_grants_at p q ps v _ f1 f2 d A Ev W P). }
  destruct X as (S & So & Ns).
  apply (history_within S prof ops w w' tr tr1 u pid tid ps v tr2 [] So Rc Ns (fresh_inv w _ Fw) R E); assumption.
Qed.

(** * C41: a process of one thread *)
(** Every task of process [P] is among [us]. *)
Definition owned (w : world) (us : list nat) (P : N) : Prop :=
  forall x, In x (w_threads w) -> t_pid x = P -> In (t_uid x) us.

Lemma descendants_mono : forall tr us u, In u us -> In u (descendants us tr).
Proof.
  induction tr as [|ev tr IH]; intros us u I; [exact I|]. destruct ev; cbn [descendants]; try (apply IH; exact I).
  apply IH. destruct (existsb _ us); [right|]; exact I.
Qed.

Lemma wstep_owned : forall prof w o w' evs us P, owned w us P -> wstep prof w o = (w', evs) ->
  (forall u d o', o = OSys u d o' -> o_newid o' <> P) -> owned w' (descendants us evs) P.
Proof.
  intros prof w o w' evs us P Ow H Nw x Ix Px.
  destruct (wstep_origin prof w o w' evs x H Ix)
    as [(y & Iy & Uy & Py)|(t & d & o' & -> & It & _ & -> & Ux & [Q|Q] & _)].
  - rewrite Uy. apply descendants_mono, Ow; congruence.
  - cbn [descendants]. replace (existsb (Nat.eqb (t_uid t)) us) with true; [rewrite Ux; left; reflexivity|].
    symmetry. apply existsb_exists. exists (t_uid t). split; [apply Ow; congruence|apply Nat.eqb_refl].
  - exfalso. apply (Nw _ _ _ eq_refl). congruence.
Qed.

Lemma wrun_owned : forall prof ops w w' tr us P, owned w us P -> wrun prof w ops = (w', tr) ->
  (forall u d o', In (OSys u d o') ops -> o_newid o' <> P) -> owned w' (descendants us tr) P.
Proof.
  intros prof. induction ops as [|o ops IH]; intros w w' tr us P Ow H Nw; cbn [wrun] in H.
  - injection H as <- <-. exact Ow.
  - destruct (wstep prof w o) as [w1 e1] eqn:S1. destruct (wrun prof w1 ops) as [w2 e2] eqn:S2.
    injection H as <- <-. rewrite descendants_app. apply (IH w1 w2 e2 _ P); [|exact S2|].
    + apply (wstep_owned prof w o w1 e1); [exact Ow|exact S1|]. intros u d o' ->. apply (Nw u d o'). left. reflexivity.
    + intros u d o' I. apply (Nw u d o'). right. exact I.
Qed.

Lemma wrun_app : forall prof a b w w1 tr1, wrun prof w a = (w1, tr1) ->
  wrun prof w (a ++ b) = (fst (wrun prof w1 b), tr1 ++ snd (wrun prof w1 b)).
Proof.
  intros prof. induction a as [|o a IH]; intros b w w1 tr1 H; cbn [app wrun] in *.
  - injection H as <- <-. apply surjective_pairing.
  - destruct (wstep prof w o) as [w2 e2]. destruct (wrun prof w2 a) as [w3 e3] eqn:E.
    injection H as <- <-. rewrite (IH b _ _ _ E). cbn [fst snd]. rewrite app_assoc. reflexivity.
Qed.

Lemma c41_partial : forall prof w ops1 w1 tr1 o w2 evs u pid tid ps v ops2 w3 tr2,
  fresh_world w -> wrun prof w ops1 = (w1, tr1) ->
  wstep prof w1 o = (w2, evs) -> In (EvInstalled u pid tid ps v) evs ->
  (forall t, In t (w_threads w1) -> t_pid t = pid -> t_uid t = u) ->
  wrun prof w2 ops2 = (w3, tr2) ->
  (forall u' d o', In (OSys u' d o') ops2 -> o_newid o' <> pid) ->
  forall t' d' o' w4 evs4, In t' (w_threads w3) -> t_pid t' = pid ->
  wstep prof w3 (OSys (t_uid t') d' o') = (w4, evs4) -> In (EvCall (t_uid t') d' Proceed) evs4 -> wf_data d' ->
  hard v \/ (enforcing v /\ Forall unsupervised (ops1 ++ o :: ops2 ++ [OSys (t_uid t') d' o'])) ->
  sd_arch d' = X86_64 /\
  exists p t, answered u tr1 SYS_getpid pid p /\ answered u tr1 SYS_gettid tid t /\ granted ps p t d'.
Proof.
  intros prof w ops1 w1 tr1 o w2 evs u pid tid ps v ops2 w3 tr2 Fw R1 S1 Ie One R2 Nw
    t' d' o' w4 evs4 It Pt S3 Ic Wd Hv.
  destruct (installed_call prof w1 o w2 evs u pid tid ps v S1 Ie) as (amb & -> & ->).
  assert (O1 : owned w1 [u] pid) by (intros x Ix Px; left; symmetry; apply One; assumption).
  assert (O2 : owned w2 [u] pid).
  { refine (wstep_owned prof w1 _ w2 _ [u] pid O1 S1 _). intros; discriminate. }
  assert (D : In (t_uid t') (descendants [u] tr2)) by (apply (wrun_owned prof ops2 w2 w3 tr2 [u] pid O2 R2 Nw); assumption).
  assert (R : wrun prof w (ops1 ++ OStep u amb :: ops2 ++ [OSys (t_uid t') d' o']) =
    (w4, (tr1 ++ [EvCall u (call_set_seccomp amb) Proceed]) ++ EvInstalled u pid tid ps v ::
         (EvReturned u ps v (Ok tt) :: tr2 ++ evs4))).
  { rewrite (wrun_app prof _ _ _ _ _ R1). cbn [wrun]. rewrite S1.
    rewrite (wrun_app prof _ _ _ _ _ R2). cbn [wrun fst snd]. rewrite S3. cbn [fst snd].
    rewrite app_nil_r, <- app_assoc. reflexivity. }
  destruct (in_split _ _ Ic) as (m1 & m2 & E4).
  destruct (c40 prof w _ _ _ _ u pid tid ps v _ Fw R eq_refl Hv) as (pids & tids & _ & _ & Ap & At & G).
  destruct (G (EvReturned u ps v (Ok tt) :: tr2 ++ m1) (t_uid t') d' m2) as (Ar & p & t & Ip & Iq & Gr).
  - rewrite E4, app_assoc. reflexivity.
  - cbn [descendants]. rewrite descendants_app. apply descendants_mono. exact D.
  - exact Wd.
  - rewrite Forall_forall in Ap, At.
    assert (Back : forall nr real x, answered u (tr1 ++ [EvCall u (call_set_seccomp amb) Proceed]) nr real x ->
      answered u tr1 nr real x).
    { intros nr real x [X|(d & r & I & N & X)]; [left; exact X|right]. exists d, r. split; [|auto].
      apply in_app_or in I. destruct I as [I|[I|[]]]; [exact I|discriminate]. }
    split; [exact Ar|]. exists p, t. auto.
Qed.
