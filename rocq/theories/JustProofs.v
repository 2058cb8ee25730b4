(** Refused calls were refused by a pledge of the task or of an ancestor (C90). *)
From Coq Require Import NArith ZArith String List Bool Lia.
From Verif Require Import Libc Machine Bpf SeccompRet Asm Vm Promises Filters Kernel World Spec.
From Verif Require Import FragProofs PolicyProofs CodeProofs PledgeProofs StackProofs WorldProofs HistoryProofs DeathProofs.
Import ListNotations.
Local Open Scope N_scope.

(** [f], in force for task [u], was installed in [past] by a pledge of [u] or an ancestor. *)
Definition pledged_by (past : list event) (u : nat) (f : list sock_filter) : Prop :=
  exists tr0 u0 pid tid ps v tr1 rs,
    past = tr0 ++ EvInstalled u0 pid tid ps v :: tr1 /\ In u (descendants [u0] tr1) /\
    f = gcode rs v /\ map fst rs = all_filters ps /\ heard_rules u0 tr0 pid tid rs.
Definition provenance (past : list event) (w : world) : Prop :=
  forall t f, In t (w_threads w) -> In f (t_filters t) -> pledged_by past (t_uid t) f.

Lemma pledged_app : forall past evs u f, pledged_by past u f -> pledged_by (past ++ evs) u f.
Proof.
  intros past evs u f (tr0 & u0 & pid & tid & ps & v & tr1 & rs & -> & D & R).
  exists tr0, u0, pid, tid, ps, v, (tr1 ++ evs), rs. rewrite <- app_assoc. split; [reflexivity|].
  split; [|exact R]. rewrite descendants_app. apply descendants_mono. exact D.
Qed.
Lemma pledged_child : forall past u c f ev, pledged_by past u f ->
  pledged_by (past ++ [ev; EvSpawn u c]) c f.
Proof.
  intros past u c f ev (tr0 & u0 & pid & tid & ps & v & tr1 & rs & -> & D & R).
  exists tr0, u0, pid, tid, ps, v, (tr1 ++ [ev; EvSpawn u c]), rs. rewrite <- app_assoc. split; [reflexivity|].
  split; [|exact R]. rewrite descendants_app.
  set (us := descendants [u0] tr1) in *.
  assert (X : In c (descendants (if existsb (Nat.eqb u) us then c :: us else us) [])).
  { replace (existsb (Nat.eqb u) us) with true; [left; reflexivity|]. symmetry. apply existsb_exists.
    exists u. split; [exact D|apply Nat.eqb_refl]. }
  destruct ev as [x d e|x y|x pid' tid' ps' v'|x ps' v' r]; cbn [descendants]; try exact X.
  destruct (existsb (Nat.eqb x) us); [|exact X].
  replace (existsb (Nat.eqb u) (y :: us)) with true; [left; reflexivity|]. symmetry. apply existsb_exists.
  exists u. split; [right; exact D|apply Nat.eqb_refl].
Qed.

Lemma provenance_app : forall past evs w, provenance past w -> provenance (past ++ evs) w.
Proof. intros past evs w P t f It If. apply pledged_app. exact (P t f It If). Qed.
Lemma provenance_put : forall past w t, provenance past w ->
  (forall f, In f (t_filters t) -> pledged_by past (t_uid t) f) -> provenance past (put_thread w t).
Proof.
  intros past w t P H x f Ix If. apply put_thread_in in Ix.
  destruct Ix as [[-> _]|[Ix _]]; [apply H; exact If|exact (P x f Ix If)].
Qed.
Lemma provenance_filter : forall past w g, provenance past w ->
  provenance past (mkWorld (filter g (w_threads w)) (w_next w)).
Proof. intros past w g P x f Ix. cbn [w_threads] in Ix. apply filter_In in Ix. apply P. tauto. Qed.
Lemma provenance_death : forall past w t d, provenance past w -> provenance past (apply_death w t d).
Proof. intros past w t [| |] P; apply provenance_filter; exact P. Qed.

Lemma sys_provenance : forall past w t d o w1 e1, In t (w_threads w) ->
  own_filters_none (OSys (t_uid t) d o) -> provenance past w -> sys_effect w t d o = (w1, e1) ->
  provenance (past ++ EvCall (t_uid t) d Proceed :: e1) w1.
Proof.
  intros past w t d o w1 e1 It Own P S. cbn [own_filters_none] in Own. destruct Own as [Op Os].
  assert (Same : (w, []) = (w1, e1) -> provenance (past ++ EvCall (t_uid t) d Proceed :: e1) w1).
  { intros E. injection E as <- <-. apply provenance_app. exact P. }
  assert (New : forall b : bool, (if o_refuse o then (w, [])
      else (spawn w t (if b then t_pid t else o_newid o) (o_newid o), [EvSpawn (t_uid t) (w_next w)])) = (w1, e1) ->
      provenance (past ++ EvCall (t_uid t) d Proceed :: e1) w1).
  { intros b E. destruct (o_refuse o); [exact (Same E)|]. injection E as <- <-.
    intros x f Ix If. cbn [spawn w_threads] in Ix. destruct Ix as [<-|Ix].
    - cbn [t_filters t_uid] in *. apply pledged_child. exact (P t f It If).
    - apply pledged_app. exact (P x f Ix If). }
  unfold sys_effect in S.
  destruct ((sd_nr d =? SYS_fork) || (sd_nr d =? SYS_vfork)); [exact (New false S)|].
  destruct (sd_nr d =? SYS_clone); [exact (New _ S)|].
  destruct (sd_nr d =? SYS_clone3); [exact (New _ S)|].
  destruct (N.eqb_spec (sd_nr d) SYS_prctl) as [E|E].
  - injection S as <- <-. apply provenance_app, provenance_put; [exact P|].
    specialize (Op E). unfold kernel_prctl. change (lo32 (sd_a0 d)) with (sd_a0 d mod 2 ^ 32).
    apply N.eqb_neq in Op. change 22 with PR_SET_SECCOMP in Op. rewrite Op.
    destruct (sd_a0 d mod 2 ^ 32 =? PR_SET_NO_NEW_PRIVS); [destruct (_ && _)|];
      cbn [snd set_nnp t_filters t_uid]; intros f If; exact (P t f It If).
  - apply N.eqb_neq in Os. change 317 with SYS_seccomp in Os. rewrite Os in S. cbn [andb] in S.
    destruct (_ && _).
    2:{ clear Os; destruct (_ =? _); [|destruct (_ =? _); [|exact (Same S)]]; injection S as <- <-; apply provenance_app;
          [exact (provenance_death past w t DeathThread P)|exact (provenance_death past w t DeathProcess P)]. }
    injection S as <- <-. apply provenance_app.
    intros x f Ix If. apply run_program_in in Ix.
    destruct Ix as [->|(Ix & _)]; [exact (P t f It If)|exact (P x f Ix If)].
Qed.

Lemma wstep_provenance : forall prof w o w' evs past, inv past w -> own_filters_none o ->
  provenance past w -> wstep prof w o = (w', evs) -> provenance (past ++ evs) w'.
Proof.
  intros prof w o w' evs past Hi Own P H.
  assert (Id : (w, []) = (w', evs) -> provenance (past ++ evs) w').
  { intros E. injection E as <- <-. apply provenance_app. exact P. }
  assert (Hi' := Hi). unfold inv in Hi'. rewrite Forall_forall in Hi'.
  destruct o as [u ps v|u amb|u d o|u b|u]; cbn [wstep] in H.
  - destruct (find_thread w u) as [t|] eqn:F; [|exact (Id H)].
    apply find_thread_spec in F. destruct F as [It Ut].
    destruct (t_call t); [exact (Id H)|]. injection H as <- <-. apply provenance_app, provenance_put; [exact P|].
    intros f If. exact (P t f It If).
  - destruct (find_thread w u) as [t|] eqn:F; [|exact (Id H)].
    apply find_thread_spec in F. destruct F as [It Ut]. destruct (Hi' t It) as [Ct Bt].
    destruct (t_call t) as [ph|] eqn:Cl; [|exact (Id H)].
    assert (Ck : call_ok past (set_call t (Some ph))).
    { unfold call_ok in *. rewrite Cl in Ct. exact Ct. }
    destruct (pledge_step prof amb t ph) as [s t'] eqn:Ps.
    destruct (pledge_step_facts prof amb t ph s t' past Ck Ps) as (U' & _ & _ & _ & _ & F').
    destruct F' as [F'|(-> & _ & rs & F' & M & Ho)].
    + assert (Pt : forall c, provenance past (put_thread w (set_call t' c))).
      { intros c. apply provenance_put; [exact P|]. cbn [set_call t_filters t_uid].
        rewrite F', U'. intros f If. exact (P t f It If). }
      destruct s as [ph'|[x|e| |d]]; injection H as <- <-; apply provenance_app; try apply Pt.
      apply provenance_death. exact P.
    + injection H as <- <-. rewrite F'.
      replace (Nat.eqb (length (gcode rs (ph_violation ph) :: t_filters t)) (length (t_filters t))) with false
        by (symmetry; apply Nat.eqb_neq; cbn; lia).
      apply provenance_put; [apply provenance_app; exact P|]. cbn [set_call t_filters t_uid]. rewrite F', U'.
      intros f [<-|If].
      * exists (past ++ step_calls t amb ph), u, (t_pid t), (t_tid t), (ph_promises ph), (ph_violation ph),
          [EvReturned u (ph_promises ph) (ph_violation ph) (Ok tt)], rs.
        rewrite <- app_assoc. split; [reflexivity|]. split; [left; congruence|]. split; [reflexivity|].
        split; [exact M|]. apply heard_app. rewrite <- Ut. exact Ho.
      * apply pledged_app. exact (P t f It If).
  - destruct (find_thread w u) as [t|] eqn:F; [|exact (Id H)].
    apply find_thread_spec in F. destruct F as [It Ut]. subst u.
    destruct (supervised_entry (o_sup o) (t_filters t) d) as [|z|k].
    + destruct (sys_effect w t d o) as [w1 e1] eqn:S. injection H as <- <-.
      exact (sys_provenance past w t d o w1 e1 It Own P S).
    + injection H as <- <-. apply provenance_app. exact P.
    + injection H as <- <-. apply provenance_app, provenance_death. exact P.
  - destruct (find_thread w u) as [t|] eqn:F; [|exact (Id H)].
    apply find_thread_spec in F. destruct F as [It Ut].
    injection H as <- <-. apply provenance_app, provenance_put; [exact P|].
    intros f If. exact (P t f It If).
  - injection H as <- <-. apply provenance_app, provenance_filter. exact P.
Qed.

(** The fate of a call is what the filters of its task, and somebody supervising it, say. *)
Lemma wstep_fate : forall S prof w o w' evs a u d e b, op_in S o -> wstep prof w o = (w', evs) ->
  evs = a ++ EvCall u d e :: b ->
  exists t s, S s /\ In t (w_threads w) /\ t_uid t = u /\ e = supervised_entry s (t_filters t) d.
Proof.
  intros S prof w o w' evs a u d e b So H E.
  assert (I : In (EvCall u d e) evs) by (rewrite E; apply in_elt). clear E.
  destruct o as [u0 ps v|u0 amb|u0 d0 o|u0 c|u0]; cbn [wstep op_in] in H, So.
  - destruct (find_thread w u0) as [t|]; injection H as _ <-; destruct I.
  - destruct (find_thread w u0) as [t|] eqn:F; [|injection H as _ <-; destruct I].
    apply find_thread_spec in F. destruct F as [It Ut].
    destruct (t_call t) as [ph|]; [|injection H as _ <-; destruct I].
    assert (X : In (EvCall u d e) (step_calls t amb ph)).
    { destruct (pledge_step prof amb t ph) as [[ph'|[x|er| |k]] t']; injection H as _ <-; try exact I;
        (apply in_app_or in I; destruct I as [I|I]; [exact I|]); exfalso;
        (apply in_app_or in I; destruct I as [I|I]; [destruct (Nat.eqb _ _)|]);
        cbn [In] in I; intuition discriminate. }
    pose proof (step_calls_form t amb ph) as Fo. rewrite Forall_forall in Fo.
    destruct (Fo _ X) as (d1 & E1). injection E1 as -> <- ->.
    exists t, (amb_sup amb). auto.
  - destruct (find_thread w u0) as [t|] eqn:F; [|injection H as _ <-; destruct I].
    apply find_thread_spec in F. destruct F as [It Ut]. exists t, (o_sup o).
    destruct (supervised_entry (o_sup o) (t_filters t) d0) as [|z|k] eqn:E.
    + destruct (sys_effect w t d0 o) as [w1 e1] eqn:Sy. injection H as _ <-.
      destruct I as [I|I]; [injection I as <- <- <-; auto|]. exfalso.
      apply sys_effect_events in Sy. destruct Sy as [->| ->]; cbn [In] in I; intuition discriminate.
    + injection H as _ <-. destruct I as [I|[]]. injection I as <- <- <-. auto.
    + injection H as _ <-. destruct I as [I|[]]. injection I as <- <- <-. auto.
  - destruct (find_thread w u0) as [t|]; injection H as _ <-; destruct I.
  - injection H as _ <-. destruct I.
Qed.

Lemma refused_by : forall s fs d, supervised_entry s fs d <> Proceed ->
  exists f, In f fs /\ supervised_entry s fs d = entry_under s (kernel_eval f d).
Proof.
  intros s fs d N. unfold supervised_entry in *. destruct fs as [|f fs]; [congruence|].
  unfold run_filters in *. destruct (run_in (f :: fs) d 0x7fff0000) as [E|(g & G & E)].
  - rewrite E in N. exfalso. apply N. reflexivity.
  - exists g. split; [exact G|]. rewrite E. reflexivity.
Qed.

Lemma small_errno_bits : forall n, n < 2 ^ 16 -> action_bits (ret_into (Errno n)) = 0x50000.
Proof.
  intros n H. unfold action_bits. cbn [ret_into]. unfold SECCOMP_RET_ERRNO.
  rewrite N.land_lor_distr_l. change (N.land 0x50000 0xffff0000) with 0x50000.
  assert (E : N.land n 0xffff0000 = 0).
  { assert (T : n = N.land n (N.ones 16)) by (rewrite N.land_ones, N.mod_small; [reflexivity|exact H]).
    rewrite T, <- N.land_assoc. change (N.land (N.ones 16) 0xffff0000) with 0. apply N.land_0_r. }
  rewrite E, N.lor_0_r. reflexivity.
Qed.
Lemma consequent : forall s v, small_payload v -> consequence v (entry_under s (ret_into v)).
Proof.
  intros s v Sp. destruct v as [| | |n|n| |]; cbn [consequence]; try exact I; try reflexivity.
  - unfold entry_under. change (action_bits (ret_into Trap)) with 0x30000. cbn iota.
    destruct (s_trap s); [right; eauto|left; reflexivity].
  - pose proof (entry_of_ret _ Sp) as E. unfold entry_under.
    rewrite (small_errno_bits n Sp). exact E.
Qed.

Lemma refusal : forall s u past f d, pledged_by past u f -> wf_data d -> entry_under s (kernel_eval f d) <> Proceed ->
  exists tr0 u0 pid tid ps v tr1,
    past = tr0 ++ EvInstalled u0 pid tid ps v :: tr1 /\ In u (descendants [u0] tr1) /\
    (sd_arch d <> X86_64 /\ entry_under s (kernel_eval f d) = Kill DeathProcess \/
     sd_arch d = X86_64 /\ entry_under s (kernel_eval f d) = entry_under s (ret_into v) /\
     exists p q, answered u0 tr0 SYS_getpid pid p /\ answered u0 tr0 SYS_gettid tid q /\
       ~ granted ps p q d).
Proof.
  intros s u past f d (tr0 & u0 & pid & tid & ps & v & tr1 & rs & Ep & D & -> & M & Ho) W N.
  exists tr0, u0, pid, tid, ps, v, tr1. split; [exact Ep|]. split; [exact D|].
  destruct (mixed pid tid rs ps v d M) as (p & q & Ip & Iq & A).
  destruct (N.eq_dec (sd_arch d) X86_64) as [Ha|Ha].
  - right. split; [exact Ha|]. assert (Na : native d) by (split; assumption).
    destruct (verdict_at _ _ _ _ _ _ A Na) as [V1 V2].
    destruct (granted_dec ps p q d W) as [G|G].
    + exfalso. apply N. rewrite (V1 G). reflexivity.
    + rewrite (V2 G). split; [reflexivity|]. exists p, q.
      destruct (heard_pids _ _ _ _ _ Ho) as [Hp Hq]. rewrite Forall_forall in Hp, Hq. auto.
  - left. split; [exact Ha|]. destruct (c16_at p q ps v _ d A W Ha) as [K _]. rewrite K. reflexivity.
Qed.

Lemma refusals : forall S prof w ops w' tr tr1 u d e tr2, Forall (op_in S) ops ->
  fresh_world w -> (forall t, In t (w_threads w) -> t_filters t = []) ->
  Forall own_filters_none ops -> wrun prof w ops = (w', tr) ->
  tr = tr1 ++ EvCall u d e :: tr2 -> wf_data d -> e <> Proceed ->
  exists tr0 u0 pid tid ps v mid s, S s /\
    tr1 = tr0 ++ EvInstalled u0 pid tid ps v :: mid /\ In u (descendants [u0] mid) /\
    (sd_arch d <> X86_64 /\ e = Kill DeathProcess \/
     sd_arch d = X86_64 /\ e = entry_under s (ret_into v) /\
     exists p q, answered u0 tr0 SYS_getpid pid p /\ answered u0 tr0 SYS_gettid tid q /\
       ~ granted ps p q d).
Proof.
  intros S prof w ops w' tr tr1 u d e tr2 So Fw Nf Own R E W Ne.
  assert (G : forall ops w past w' tr tr1 tr2, Forall (op_in S) ops -> inv past w -> provenance past w ->
    Forall own_filters_none ops -> wrun prof w ops = (w', tr) -> tr = tr1 ++ EvCall u d e :: tr2 ->
    exists f s, S s /\ pledged_by (past ++ tr1) u f /\ e = entry_under s (kernel_eval f d)).
  { clear - Ne. intros ops. induction ops as [|o ops IH]; intros w past w' tr tr1 tr2 So Hi P Own R E; cbn [wrun] in R.
    - injection R as _ <-. destruct tr1; discriminate.
    - destruct (wstep prof w o) as [w1 e1] eqn:S1. destruct (wrun prof w1 ops) as [w2 e2] eqn:S2.
      injection R as <- <-. inversion Own as [|o' ops' Oo Oops]; subst. inversion So as [|o' ops' So1 So2]; subst.
      pose proof (wstep_inv _ _ _ _ _ past Hi S1) as I1.
      pose proof (wstep_provenance _ _ _ _ _ past Hi Oo P S1) as P1.
      destruct (app_split _ _ _ _ _ E) as (l & [[E1 E2]|[E1 E2]]).
      + destruct l as [|y l].
        * rewrite app_nil_r in E1. subst e1. cbn [app] in E2.
          destruct (IH w1 (past ++ tr1) w2 e2 [] tr2 So2 I1 P1 Oops S2 (eq_sym E2)) as (f & s & Ss & Pf & Ee).
          rewrite app_nil_r in Pf. eauto.
        * injection E2 as <- ->.
          destruct (wstep_fate S prof w o w1 e1 tr1 u d e l So1 S1 E1) as (t & s & Ss & It & Ut & Ee).
          rewrite Ee in Ne. destruct (refused_by s (t_filters t) d Ne) as (f & If & Ef).
          exists f, s. split; [exact Ss|]. split; [|congruence]. apply pledged_app. rewrite <- Ut. exact (P t f It If).
      + subst tr1. rewrite app_assoc. exact (IH w1 (past ++ e1) w2 e2 l tr2 So2 I1 P1 Oops S2 E2). }
  destruct (G ops w [] w' tr tr1 tr2 So (fresh_inv w _ Fw)) as (f & s & Ss & Pf & Ee); auto.
  { intros t f It If. rewrite (Nf t It) in If. destruct If. }
  rewrite Ee in *. destruct (refusal s u tr1 f d Pf W Ne) as (tr0 & u0 & pid & tid & ps & v & mid & X).
  exists tr0, u0, pid, tid, ps, v, mid, s. auto.
Qed.

Lemma c90 : forall prof w ops w' tr tr1 u d e tr2,
  fresh_world w -> (forall t, In t (w_threads w) -> t_filters t = []) ->
  Forall own_filters_none ops -> wrun prof w ops = (w', tr) ->
  tr = tr1 ++ EvCall u d e :: tr2 -> wf_data d -> e <> Proceed ->
  exists tr0 u0 pid tid ps v mid,
    tr1 = tr0 ++ EvInstalled u0 pid tid ps v :: mid /\ In u (descendants [u0] mid) /\
    (sd_arch d <> X86_64 /\ e = Kill DeathProcess \/
     sd_arch d = X86_64 /\ (small_payload v -> consequence v e) /\
     exists p q, answered u0 tr0 SYS_getpid pid p /\ answered u0 tr0 SYS_gettid tid q /\
       ~ granted ps p q d).
Proof.
  intros prof w ops w' tr tr1 u d e tr2 Fw Nf Own R E W Ne.
  destruct (refusals anybody prof w ops w' tr tr1 u d e tr2) as (tr0 & u0 & pid & tid & ps & v & mid & s & _ & Et & D & X);
    auto; [apply Forall_forall; intros; apply op_anybody|].
  exists tr0, u0, pid, tid, ps, v, mid. split; [exact Et|]. split; [exact D|].
  destruct X as [X|(A & -> & X)]; [left; exact X|right]. split; [exact A|]. split; [apply consequent|exact X].
Qed.

Lemma c90_unsupervised : forall prof w ops w' tr tr1 u d e tr2,
  fresh_world w -> (forall t, In t (w_threads w) -> t_filters t = []) ->
  Forall own_filters_none ops -> Forall unsupervised ops -> wrun prof w ops = (w', tr) ->
  tr = tr1 ++ EvCall u d e :: tr2 -> wf_data d -> e <> Proceed ->
  exists tr0 u0 pid tid ps v mid,
    tr1 = tr0 ++ EvInstalled u0 pid tid ps v :: mid /\ In u (descendants [u0] mid) /\
    (sd_arch d <> X86_64 /\ e = Kill DeathProcess \/
     sd_arch d = X86_64 /\ (small_payload v -> e = fate v) /\
     exists p q, answered u0 tr0 SYS_getpid pid p /\ answered u0 tr0 SYS_gettid tid q /\
       ~ granted ps p q d).
Proof.
  intros prof w ops w' tr tr1 u d e tr2 Fw Nf Own Un R E W Ne.
  destruct (refusals (eq nobody) prof w ops w' tr tr1 u d e tr2) as (tr0 & u0 & pid & tid & ps & v & mid & s & <- & Et & D & X);
    auto; [eapply Forall_impl; [|exact Un]; intros o; destruct o; cbn; auto|].
  exists tr0, u0, pid, tid, ps, v, mid. split; [exact Et|]. split; [exact D|].
  destruct X as [X|(A & -> & X)]; [left; exact X|right]. split; [exact A|].
  split; [|exact X]. intros Sp. rewrite entry_under_nobody. apply entry_of_ret. exact Sp.
Qed.

(** * C91 *)

(** [f] is the filter of the pledge [i], with ids heard in [past]. *)
Definition filter_of (past : list event) (i : installed) (f : list sock_filter) : Prop :=
  exists u0 rs, f = gcode rs (i_v i) /\ map fst rs = all_filters (i_ps i) /\
    heard_rules u0 past (i_pid i) (i_tid i) rs.
Definition lined (past : list event) (w : world) : Prop :=
  forall t, In t (w_threads w) -> Forall2 (filter_of past) (line (t_uid t) (rev past)) (t_filters t).

Lemma filter_of_app : forall past evs is_ fs, Forall2 (filter_of past) is_ fs ->
  Forall2 (filter_of (past ++ evs)) is_ fs.
Proof.
  intros past evs is_ fs F. induction F as [|i f is_ fs (u0 & rs & X & M & Ho) F IH]; constructor; [|exact IH].
  exists u0, rs. split; [exact X|]. split; [exact M|]. apply heard_app. exact Ho.
Qed.

(** Events that leave the line of [u] as it is. *)
Definition aside (u : nat) (ev : event) : Prop :=
  match ev with EvSpawn _ c => c <> u | EvInstalled u' _ _ _ _ => u' <> u | _ => True end.
Lemma line_aside : forall u evs past, Forall (aside u) evs -> line u (rev (past ++ evs)) = line u (rev past).
Proof.
  intros u evs past F. rewrite rev_app_distr. apply Forall_rev in F.
  induction F as [|ev l H F IH]; [reflexivity|]. cbn [app line].
  destruct ev as [x d e|x y|x pid' tid' ps' v'|x ps' v' r]; cbn [aside] in H; try exact IH;
    rewrite (proj2 (Nat.eqb_neq _ _) H); exact IH.
Qed.
Lemma calls_aside : forall t amb ph u, Forall (aside u) (step_calls t amb ph).
Proof.
  intros t amb ph u. eapply Forall_impl; [|apply step_calls_form]. intros ev (d & ->). exact I.
Qed.

Lemma lined_app : forall past evs w, (forall t, In t (w_threads w) -> Forall (aside (t_uid t)) evs) ->
  lined past w -> lined (past ++ evs) w.
Proof.
  intros past evs w A L t It. rewrite line_aside by (apply A; exact It). apply filter_of_app. exact (L t It).
Qed.
Lemma lined_put : forall past w t, lined past w ->
  Forall2 (filter_of past) (line (t_uid t) (rev past)) (t_filters t) -> lined past (put_thread w t).
Proof.
  intros past w t L H x Ix. apply put_thread_in in Ix.
  destruct Ix as [[-> _]|[Ix _]]; [exact H|exact (L x Ix)].
Qed.
Lemma lined_filter : forall past w g, lined past w -> lined past (mkWorld (filter g (w_threads w)) (w_next w)).
Proof. intros past w g L x Ix. cbn [w_threads] in Ix. apply filter_In in Ix. apply L. tauto. Qed.
Lemma lined_death : forall past w t d, lined past w -> lined past (apply_death w t d).
Proof. intros past w t [| |] L; apply lined_filter; exact L. Qed.

Lemma sys_lined : forall past w t d o w1 e1, In t (w_threads w) ->
  (forall x, In x (w_threads w) -> (t_uid x < w_next w)%nat) ->
  own_filters_none (OSys (t_uid t) d o) -> lined past w -> sys_effect w t d o = (w1, e1) ->
  lined (past ++ EvCall (t_uid t) d Proceed :: e1) w1.
Proof.
  intros past w t d o w1 e1 It Lt Own L S. cbn [own_filters_none] in Own. destruct Own as [Op Os].
  assert (One : lined (past ++ [EvCall (t_uid t) d Proceed]) w).
  { apply lined_app; [|exact L]. intros x _. repeat constructor. }
  assert (Same : (w, []) = (w1, e1) -> lined (past ++ EvCall (t_uid t) d Proceed :: e1) w1).
  { intros E. injection E as <- <-. exact One. }
  assert (New : forall b : bool, (if o_refuse o then (w, [])
      else (spawn w t (if b then t_pid t else o_newid o) (o_newid o), [EvSpawn (t_uid t) (w_next w)])) = (w1, e1) ->
      lined (past ++ EvCall (t_uid t) d Proceed :: e1) w1).
  { intros b E. destruct (o_refuse o); [exact (Same E)|]. injection E as <- <-.
    intros x Ix. cbn [spawn w_threads] in Ix. destruct Ix as [<-|Ix].
    - cbn [t_filters t_uid]. rewrite rev_app_distr. cbn [rev app line]. rewrite Nat.eqb_refl.
      apply filter_of_app. exact (L t It).
    - rewrite line_aside; [apply filter_of_app; exact (L x Ix)|]. specialize (Lt x Ix).
      constructor; [exact I|]. constructor; [cbn [aside]; lia|constructor]. }
  unfold sys_effect in S.
  destruct ((sd_nr d =? SYS_fork) || (sd_nr d =? SYS_vfork)); [exact (New false S)|].
  destruct (sd_nr d =? SYS_clone); [exact (New _ S)|].
  destruct (sd_nr d =? SYS_clone3); [exact (New _ S)|].
  destruct (N.eqb_spec (sd_nr d) SYS_prctl) as [E|E].
  - injection S as <- <-. apply lined_put; [exact One|].
    specialize (Op E). unfold kernel_prctl. change (lo32 (sd_a0 d)) with (sd_a0 d mod 2 ^ 32).
    apply N.eqb_neq in Op. change 22 with PR_SET_SECCOMP in Op. rewrite Op.
    destruct (sd_a0 d mod 2 ^ 32 =? PR_SET_NO_NEW_PRIVS); [destruct (_ && _)|];
      cbn [snd set_nnp t_filters t_uid]; exact (One t It).
  - apply N.eqb_neq in Os. change 317 with SYS_seccomp in Os. rewrite Os in S. cbn [andb] in S.
    destruct (_ && _).
    2:{ clear Os; destruct (_ =? _); [|destruct (_ =? _); [|exact (Same S)]]; injection S as <- <-;
          [exact (lined_death _ w t DeathThread One)|exact (lined_death _ w t DeathProcess One)]. }
    injection S as <- <-.
    intros x Ix. apply run_program_in in Ix.
    destruct Ix as [->|(Ix & _)]; [exact (One t It)|exact (One x Ix)].
Qed.

Lemma wstep_lined : forall prof w o w' evs past, inv past w -> own_filters_none o ->
  lined past w -> wstep prof w o = (w', evs) -> lined (past ++ evs) w'.
Proof.
  intros prof w o w' evs past Hi Own L H.
  assert (Nil : forall w, lined past w -> lined (past ++ []) w) by (intros w0; rewrite app_nil_r; auto).
  assert (Id : (w, []) = (w', evs) -> lined (past ++ evs) w').
  { intros E. injection E as <- <-. apply Nil. exact L. }
  assert (Hi' := Hi). unfold inv in Hi'. rewrite Forall_forall in Hi'.
  destruct o as [u ps v|u amb|u d o|u b|u]; cbn [wstep] in H.
  - destruct (find_thread w u) as [t|] eqn:F; [|exact (Id H)].
    apply find_thread_spec in F. destruct F as [It Ut].
    destruct (t_call t); [exact (Id H)|]. injection H as <- <-. apply Nil, lined_put; [exact L|].
    exact (L t It).
  - destruct (find_thread w u) as [t|] eqn:F; [|exact (Id H)].
    apply find_thread_spec in F. destruct F as [It Ut]. destruct (Hi' t It) as [Ct Bt].
    destruct (t_call t) as [ph|] eqn:Cl; [|exact (Id H)].
    assert (Ck : call_ok past (set_call t (Some ph))).
    { unfold call_ok in *. rewrite Cl in Ct. exact Ct. }
    destruct (pledge_step prof amb t ph) as [s t'] eqn:Ps.
    destruct (pledge_step_facts prof amb t ph s t' past Ck Ps) as (U' & _ & _ & _ & _ & F').
    assert (Lc : forall e2, Forall (fun ev => forall u, aside u ev) e2 -> lined (past ++ step_calls t amb ph ++ e2) w).
    { intros e2 A. apply lined_app; [|exact L]. intros x _. apply Forall_app. split; [apply calls_aside|].
      eapply Forall_impl; [|exact A]. auto. }
    destruct F' as [F'|(-> & _ & rs & F' & M & Ho)].
    + assert (Pt : forall c e2, Forall (fun ev => forall u, aside u ev) e2 ->
        lined (past ++ step_calls t amb ph ++ e2) (put_thread w (set_call t' c))).
      { intros c e2 A. apply lined_put; [apply Lc; exact A|]. cbn [set_call t_filters t_uid].
        rewrite F', U'. exact (Lc e2 A t It). }
      assert (R : forall r, Forall (fun ev => forall u, aside u ev)
         ((if Nat.eqb (length (t_filters t')) (length (t_filters t)) then []
           else [EvInstalled u (t_pid t) (t_tid t) (ph_promises ph) (ph_violation ph)]) ++
          [EvReturned u (ph_promises ph) (ph_violation ph) r])).
      { intros r. rewrite F', Nat.eqb_refl. repeat constructor. }
      destruct s as [ph'|[x|e| |d]]; injection H as <- <-.
      * rewrite <- (app_nil_r (step_calls t amb ph)). apply Pt. constructor.
      * apply Pt, R.
      * apply Pt, R.
      * apply Pt, R.
      * rewrite <- (app_nil_r (step_calls t amb ph)). apply lined_death, Lc. constructor.
    + injection H as <- <-. rewrite F'.
      replace (Nat.eqb (length (gcode rs (ph_violation ph) :: t_filters t)) (length (t_filters t))) with false
        by (symmetry; apply Nat.eqb_neq; cbn; lia).
      cbn [app]. intros x Ix. apply put_thread_in in Ix. destruct Ix as [[-> _]|[Ix Nx]].
      * cbn [set_call t_filters t_uid]. rewrite F', U', rev_app_distr, rev_app_distr. cbn [rev app line].
        rewrite <- Ut, Nat.eqb_refl, <- rev_app_distr, line_aside by apply calls_aside.
        constructor; [|apply filter_of_app; exact (L t It)].
        exists (t_uid t), rs. cbn [i_v i_ps i_pid i_tid]. split; [reflexivity|]. split; [exact M|].
        apply heard_app. exact Ho.
      * cbn [set_call t_uid] in Nx. rewrite U' in Nx. rewrite line_aside; [apply filter_of_app; exact (L x Ix)|].
        apply Forall_app. split; [apply calls_aside|]. constructor; [cbn [aside]; congruence|]. repeat constructor.
  - destruct (find_thread w u) as [t|] eqn:F; [|exact (Id H)].
    apply find_thread_spec in F. destruct F as [It Ut]. subst u.
    destruct (supervised_entry (o_sup o) (t_filters t) d) as [|z|k].
    + destruct (sys_effect w t d o) as [w1 e1] eqn:S. injection H as <- <-.
      apply (sys_lined past w t d o w1 e1 It); [|exact Own|exact L|exact S].
      intros x Ix. apply Hi'. exact Ix.
    + injection H as <- <-. apply lined_app; [|exact L]. intros x _. repeat constructor.
    + injection H as <- <-. apply lined_death, lined_app; [|exact L]. intros x _. repeat constructor.
  - destruct (find_thread w u) as [t|] eqn:F; [|exact (Id H)].
    apply find_thread_spec in F. destruct F as [It Ut].
    injection H as <- <-. apply Nil, lined_put; [exact L|]. exact (L t It).
  - injection H as <- <-. apply Nil, lined_filter. exact L.
Qed.

Lemma wrun_lined : forall prof ops w w' tr past, inv past w -> Forall own_filters_none ops ->
  lined past w -> wrun prof w ops = (w', tr) -> inv (past ++ tr) w' /\ lined (past ++ tr) w'.
Proof.
  intros prof. induction ops as [|o ops IH]; intros w w' tr past Hi Own L R; cbn [wrun] in R.
  - injection R as <- <-. rewrite app_nil_r. auto.
  - destruct (wstep prof w o) as [w1 e1] eqn:S1. destruct (wrun prof w1 ops) as [w2 e2] eqn:S2.
    injection R as <- <-. inversion Own as [|o' ops' Oo Oops]; subst. rewrite app_assoc.
    apply (IH w1 w2 e2 (past ++ e1)); auto.
    + exact (wstep_inv _ _ _ _ _ past Hi S1).
    + exact (wstep_lined _ _ _ _ _ past Hi Oo L S1).
Qed.

Lemma gcode_with : forall prof (E : sysenv -> Prop) rs ps v, map fst rs = all_filters ps -> Forall (told E) rs ->
  (exists e, E e) -> filter_with prof E ps v (gcode rs v).
Proof.
  intros prof E rs ps v M T (e0 & E0). exists (all_filters ps), (map rfrag rs).
  split; [apply promises_to_filters_ok|]. split; [|apply assemble_ok].
  rewrite <- M. clear M. induction T as [|r rs [A B] T IH]; constructor; [|exact IH].
  destruct r as [f [p q]]. cbn [fst snd] in *.
  destruct (is_kill f) eqn:K; [destruct f; try discriminate|
    destruct (is_tkill f) eqn:X; [destruct f; try discriminate|]].
  - destruct (A eq_refl) as (e & He & Y). exists e. split; [exact He|]. rewrite rule_built, Y. reflexivity.
  - destruct (B eq_refl) as (e & He & Y). exists e. split; [exact He|]. rewrite rule_built, Y. reflexivity.
  - exists e0. split; [exact E0|]. rewrite rule_built. destruct f; try discriminate; reflexivity.
Qed.

Lemma lined_with : forall prof past is_ fs, Forall2 (filter_of past) is_ fs ->
  stack_with prof (map (fun i => (i_ps i, i_v i)) is_) fs.
Proof.
  intros prof past is_ fs F. unfold stack_with. induction F as [|i f is_ fs (u0 & rs & -> & M & Ho) F IH]; constructor; [|exact IH].
  cbn [fst snd]. apply gcode_with; [exact M| |exists (mkEnv Panic Panic); exact I].
  eapply Forall_impl; [|exact Ho]. intros r. apply told_mono. auto.
Qed.
Lemma lined_for : forall prof past is_ fs, honest_ids past -> Forall2 (filter_of past) is_ fs -> stack_of prof is_ fs.
Proof.
  intros prof past is_ fs Hn F. unfold stack_of. induction F as [|i f is_ fs (u0 & rs & -> & M & Ho) F IH]; constructor; [|exact IH].
  assert (An : forall nr real x, nr = 39 \/ nr = 186 -> answered u0 past nr real x -> x = real).
  { intros nr real x Nr [E|(d & r & I & En & _)]; [exact E|]. destruct (Hn u0 d r I) as [N1 N2].
    destruct Nr as [-> | ->]; contradiction. }
  apply (c38_one prof (heard u0 past (i_pid i) (i_tid i))).
  - apply gcode_with; [exact M|exact Ho|]. exists (mkEnv Panic Panic). split; discriminate.
  - intros e x [A _] X. exact (An _ _ _ (or_introl eq_refl) (A x X)).
  - intros e x [_ A] X. exact (An _ _ _ (or_intror eq_refl) (A x X)).
Qed.

Lemma c91 : forall prof w ops w' tr t,
  fresh_world w -> (forall t, In t (w_threads w) -> t_filters t = []) ->
  Forall own_filters_none ops -> wrun prof w ops = (w', tr) -> In t (w_threads w') ->
  stack_with prof (map (fun i => (i_ps i, i_v i)) (line (t_uid t) (rev tr))) (t_filters t) /\
  (honest_ids tr -> stack_of prof (line (t_uid t) (rev tr)) (t_filters t)).
Proof.
  intros prof w ops w' tr t Fw Nf Own R It.
  destruct (wrun_lined prof ops w w' tr [] (fresh_inv w _ Fw) Own) as [_ L]; [|exact R|].
  { intros x Ix. rewrite (Nf x Ix). constructor. }
  specialize (L t It). split; [exact (lined_with _ _ _ _ L)|]. intros Hn. exact (lined_for _ _ _ _ Hn L).
Qed.

(** The fate of each call at its moment. *)
Lemma calls_first : forall t amb ph a ev b rest, step_calls t amb ph ++ rest = a ++ ev :: b ->
  In ev (step_calls t amb ph) -> (forall x, In x rest -> x <> ev) -> a = [].
Proof.
  intros t amb ph a ev b rest E I N. assert (L : (length (step_calls t amb ph) <= 1)%nat).
  { destruct ph as [ps v|ps v done [|f todo]|ps v prog|ps v prog]; try (cbn; lia). destruct f; cbn; lia. }
  destruct (step_calls t amb ph) as [|x [|y l]]; [destruct I| |cbn in L; lia].
  destruct I as [->|[]]. destruct a as [|z a]; [reflexivity|exfalso]. injection E as _ E.
  apply (N ev); [rewrite E; apply in_elt|reflexivity].
Qed.
Lemma wstep_fate_first : forall S prof w o w' evs a u d e b, op_in S o -> wstep prof w o = (w', evs) ->
  evs = a ++ EvCall u d e :: b ->
  a = [] /\ exists t s, S s /\ In t (w_threads w) /\ t_uid t = u /\ e = supervised_entry s (t_filters t) d.
Proof.
  intros S prof w o w' evs a u d e b So H E. split; [|exact (wstep_fate S prof w o w' evs a u d e b So H E)].
  assert (I : In (EvCall u d e) evs) by (rewrite E; apply in_elt).
  destruct o as [u0 ps v|u0 amb|u0 d0 o|u0 c|u0]; cbn [wstep] in H.
  - destruct (find_thread w u0) as [t|]; injection H as _ <-; destruct I.
  - destruct (find_thread w u0) as [t|]; [|injection H as _ <-; destruct I].
    destruct (t_call t) as [ph|]; [|injection H as _ <-; destruct I].
    assert (X : exists rest, evs = step_calls t amb ph ++ rest /\ forall x, In x rest -> x <> EvCall u d e).
    { destruct (pledge_step prof amb t ph) as [[ph'|[x|er| |k]] t']; injection H as _ <-.
      1,5: exists []; split; [symmetry; apply app_nil_r|intros x []].
      all: eexists; split; [reflexivity|]; intros y Iy; apply in_app_or in Iy; destruct Iy as [Iy|[<-|[]]];
        [|discriminate]; destruct (Nat.eqb _ _); [destruct Iy|destruct Iy as [<-|[]]; discriminate]. }
    destruct X as (rest & X & Nr). rewrite X in E, I. apply in_app_or in I. destruct I as [I|I].
    + exact (calls_first _ _ _ _ _ _ _ E I Nr).
    + exfalso. exact (Nr _ I eq_refl).
  - destruct (find_thread w u0) as [t|]; [|injection H as _ <-; destruct I].
    destruct a as [|x a]; [reflexivity|exfalso].
    destruct (supervised_entry (o_sup o) (t_filters t) d0) as [|z|k].
    + destruct (sys_effect w t d0 o) as [w1 e1] eqn:Sy. injection H as _ <-. injection E as _ E.
      apply sys_effect_events in Sy. destruct Sy as [->| ->]; [destruct a; discriminate|].
      destruct a as [|y [|]]; discriminate.
    + injection H as _ <-. destruct a; discriminate.
    + injection H as _ <-. destruct a; discriminate.
  - destruct (find_thread w u0) as [t|]; injection H as _ <-; destruct I.
  - injection H as _ <-. destruct I.
Qed.

Lemma wrun_at : forall S prof ops w w' tr past tr1 u d e tr2, Forall (op_in S) ops -> inv past w ->
  lined past w -> Forall own_filters_none ops -> wrun prof w ops = (w', tr) -> tr = tr1 ++ EvCall u d e :: tr2 ->
  exists s fs, S s /\ Forall2 (filter_of (past ++ tr1)) (line u (rev (past ++ tr1))) fs /\
    e = supervised_entry s fs d.
Proof.
  intros S prof ops. induction ops as [|o ops IH]; intros w w' tr past tr1 u d e tr2 So Hi L Own R E; cbn [wrun] in R.
  - injection R as _ <-. destruct tr1; discriminate.
  - destruct (wstep prof w o) as [w1 e1] eqn:S1. destruct (wrun prof w1 ops) as [w2 e2] eqn:S2.
    injection R as <- <-. inversion Own as [|o' ops' Oo Oops]; subst. inversion So as [|o' ops' So1 So2]; subst.
    pose proof (wstep_inv _ _ _ _ _ past Hi S1) as I1.
    pose proof (wstep_lined _ _ _ _ _ past Hi Oo L S1) as L1.
    destruct (app_split _ _ _ _ _ E) as (l & [[E1 E2]|[E1 E2]]).
    + destruct l as [|y l].
      * rewrite app_nil_r in E1. subst e1. cbn [app] in E2.
        destruct (IH w1 w2 e2 (past ++ tr1) [] u d e tr2 So2 I1 L1 Oops S2 (eq_sym E2)) as (s & fs & Ss & F & Ee).
        rewrite app_nil_r in F. eauto.
      * injection E2 as <- ->.
        destruct (wstep_fate_first S prof w o w1 e1 tr1 u d e l So1 S1 E1) as (-> & t & s & Ss & It & Ut & Ee).
        exists s, (t_filters t). split; [exact Ss|]. split; [|exact Ee]. rewrite app_nil_r, <- Ut. exact (L t It).
    + subst tr1. rewrite app_assoc. exact (IH w1 w2 e2 (past ++ e1) l u d e tr2 So2 I1 L1 Oops S2 E2).
Qed.

Lemma c91_fate : forall prof w ops w' tr tr1 u d e tr2,
  fresh_world w -> (forall t, In t (w_threads w) -> t_filters t = []) ->
  Forall own_filters_none ops -> Forall unsupervised ops -> wrun prof w ops = (w', tr) ->
  tr = tr1 ++ EvCall u d e :: tr2 -> honest_ids tr1 ->
  Forall (fun i => small_payload (i_v i)) (line u (rev tr1)) -> wf_data d ->
  (line u (rev tr1) = [] -> e = Proceed) /\
  (line u (rev tr1) <> [] -> sd_arch d <> X86_64 -> e = Kill DeathProcess) /\
  (line u (rev tr1) <> [] -> sd_arch d = X86_64 ->
   exists acts, Forall2 (fun i a => verdict_of i d a) (line u (rev tr1)) acts /\
     exists newer a older, acts = newer ++ a :: older /\ e = fate a /\
       Forall (fun b => (severity a < severity b)%nat) newer /\
       Forall (fun b => (severity a <= severity b)%nat) older).
Proof.
  intros prof w ops w' tr tr1 u d e tr2 Fw Nf Own Un R E Hn Sm W.
  assert (So : Forall (op_in (eq nobody)) ops).
  { eapply Forall_impl; [|exact Un]. intros o; destruct o; cbn; auto. }
  destruct (wrun_at (eq nobody) prof ops w w' tr [] tr1 u d e tr2 So (fresh_inv w _ Fw)) as (s & fs & <- & F & Ee); auto.
  { intros x Ix. rewrite (Nf x Ix). constructor. }
  cbn [app] in F. rewrite supervised_nobody in Ee. pose proof (lined_for prof _ _ _ Hn F) as St. split; [|split].
  - intros X. rewrite X in F. inversion F; subst. reflexivity.
  - intros Ne Ha. rewrite Ee. destruct St as [|i f is_ fs Hf St]; [congruence|].
    destruct (c16_at (i_pid i) (i_tid i) (i_ps i) (i_v i) f d) as [_ K]; auto; [|exact (K [] fs)].
    unfold acts_as. rewrite (filter_for_pcode _ _ _ _ _ _ Hf). reflexivity.
  - intros Ne Ha. rewrite Ee. apply (c43 prof _ fs d St Ne Sm). split; assumption.
Qed.
