(** Seccomp strict mode and pledges (C116). *)
From Coq Require Import NArith ZArith String List Bool Lia.
From Verif Require Import Libc Machine Bpf SeccompRet Asm Vm Promises Filters Kernel World Spec.
From Verif Require Import FragProofs PolicyProofs CodeProofs PledgeProofs StackProofs WorldProofs HistoryProofs DeathProofs
  LiveProofs PolicyFacts ExactFacts ExecFacts.
Import ListNotations.
Local Open Scope N_scope.

Lemma strict_eval : forall d, wf_data d ->
  (strict_call d -> kernel_eval strict_mode d = 0x7fff0000) /\
  (~ strict_call d -> kernel_eval strict_mode d = 0).
Proof.
  intros d Hd.
  assert (Nr : lo32 (sd_nr d) = sd_nr d) by (apply N.mod_small; apply Hd).
  assert (Ar : lo32 (sd_arch d) = sd_arch d) by (apply N.mod_small; apply Hd).
  assert (E : kernel_eval strict_mode d =
    if sd_arch d =? X86_64
    then if sd_nr d =? 0 then 0x7fff0000 else if sd_nr d =? 1 then 0x7fff0000
         else if sd_nr d =? 60 then 0x7fff0000 else if sd_nr d =? 15 then 0x7fff0000 else 0
    else if sd_arch d =? 0x40000003
    then if sd_nr d =? 3 then 0x7fff0000 else if sd_nr d =? 4 then 0x7fff0000
         else if sd_nr d =? 1 then 0x7fff0000 else if sd_nr d =? 119 then 0x7fff0000 else 0
    else 0).
  { rewrite <- Nr, <- Ar. change X86_64 with 0xc000003e. unfold kernel_eval, kernel_eval_mem, strict_mode.
    repeat kstep; reflexivity. }
  rewrite E. clear E Nr Ar Hd. unfold strict_call. cbn [In].
  destruct (N.eqb_spec (sd_arch d) X86_64) as [A|A].
  - repeat match goal with |- context [sd_nr d =? ?k] => let K := fresh "K" in
      destruct (N.eqb_spec (sd_nr d) k) as [K|K]; [split; [reflexivity|intros X; exfalso; apply X; left; auto 8]|] end.
    split; [|reflexivity]. intros [[_ X]|[B _]]; [intuition congruence|]. rewrite A in B. discriminate.
  - destruct (N.eqb_spec (sd_arch d) 0x40000003) as [B|B].
    + repeat match goal with |- context [sd_nr d =? ?k] => let K := fresh "K" in
        destruct (N.eqb_spec (sd_nr d) k) as [K|K]; [split; [reflexivity|intros X; exfalso; apply X; right; auto 8]|] end.
      split; [|reflexivity]. intros [[X _]|[_ X]]; intuition congruence.
    + split; [|reflexivity]. intros [[X _]|[X _]]; congruence.
Qed.

Lemma c116_mode : forall s d, wf_data d ->
  (strict_call d -> supervised_entry s [strict_mode] d = Proceed) /\
  (~ strict_call d -> supervised_entry s [strict_mode] d = Kill DeathThread).
Proof.
  intros s d Hd. destruct (strict_eval d Hd) as [A B].
  split; intros X; [specialize (A X)|specialize (B X)];
    unfold supervised_entry, run_filters; cbn [run_filters_from]; [rewrite A|rewrite B]; reflexivity.
Qed.

(** Entering. *)
Lemma put_same : forall w t, distinct w -> In t (w_threads w) -> put_thread w t = w.
Proof.
  intros [ths n] t D I. unfold put_thread. cbn [w_threads w_next] in *. f_equal.
  rewrite <- (map_id ths) at 2. apply map_ext_in. intros x Ix.
  destruct (Nat.eqb_spec (t_uid x) (t_uid t)) as [E|E]; [|reflexivity].
  exact (nodup_same (mkWorld ths n) x t D Ix I (eq_sym E)).
Qed.

Lemma ask_effect : forall w t d o, asks_for_strict_mode d ->
  sys_effect w t d o = (put_thread w (snd (enter_strict t)), []).
Proof.
  intros w t d o [(Nr & A0 & A1)|(Nr & A0 & A1 & A2)]; unfold sys_effect; rewrite Nr.
  - change (157 =? SYS_fork) with false. change (157 =? SYS_vfork) with false. change (157 =? SYS_clone) with false.
    change (157 =? SYS_clone3) with false. change (157 =? SYS_prctl) with true. cbn [orb]. cbv iota.
    unfold kernel_prctl. change (lo32 (sd_a0 d)) with (sd_a0 d mod 2 ^ 32). rewrite A0, A1. reflexivity.
  - change (317 =? SYS_fork) with false. change (317 =? SYS_vfork) with false. change (317 =? SYS_clone) with false.
    change (317 =? SYS_clone3) with false. change (317 =? SYS_prctl) with false. change (317 =? SYS_seccomp) with true.
    cbn [orb]. cbv iota. change (lo32 (sd_a0 d)) with (sd_a0 d mod 2 ^ 32).
    change (lo32 (sd_a1 d)) with (sd_a1 d mod 2 ^ 32). rewrite A0, A1, A2. reflexivity.
Qed.

Lemma c116_enter : forall prof w t d o w' evs,
  distinct w -> In t (w_threads w) -> asks_for_strict_mode d ->
  wstep prof w (OSys (t_uid t) d o) = (w', evs) -> In (EvCall (t_uid t) d Proceed) evs ->
  (t_filters t <> [] -> w' = w) /\
  (t_filters t = [] ->
   forall x, In x (w_threads w') <->
     x = set_filters t [strict_mode] \/ In x (w_threads w) /\ t_uid x <> t_uid t).
Proof.
  intros prof w t d o w' evs D It A H Ev. cbn [wstep] in H. rewrite (find_distinct w t D It) in H.
  destruct (supervised_entry (o_sup o) (t_filters t) d);
    [|injection H as _ <-; destruct Ev as [Ev|[]]; discriminate..].
  rewrite (ask_effect w t d o A) in H. injection H as <- _. unfold enter_strict.
  split; intros F.
  - destruct (t_filters t) eqn:E; [congruence|]. apply put_same; assumption.
  - rewrite F. cbn [snd]. intros x. split.
    + intros I. apply put_thread_in in I. destruct I as [[-> _]|[I N]]; [left; reflexivity|right; split; assumption].
    + intros [->|[I N]]; unfold put_thread; cbn [w_threads]; apply in_map_iff.
      * exists t. split; [|exact It]. cbn [set_filters t_uid]. rewrite Nat.eqb_refl. reflexivity.
      * exists x. split; [|exact I]. cbn [set_filters t_uid]. apply Nat.eqb_neq in N. rewrite N. reflexivity.
Qed.

(** A pledge there. *)
Lemma strict_reads : forall t amb, t_filters t = [strict_mode] ->
  env_getpid (thread_env t amb) = Died DeathThread /\ env_gettid (thread_env t amb) = Died DeathThread.
Proof.
  intros t amb F. unfold thread_env, read_call, fate_of. cbn [env_getpid env_gettid]. rewrite F. split; reflexivity.
Qed.
Lemma strict_build : forall prof amb t todo, t_filters t = [strict_mode] ->
  build_parts prof amb t todo = Died DeathThread \/ exists rs, build_parts prof amb t todo = Ok (map rfrag rs).
Proof.
  intros prof amb t todo F. induction todo as [|f rest IH]; [right; exists []; reflexivity|].
  cbn [build_parts]. rewrite rule_built. destruct (strict_reads t (amb (4 + length rest)%nat) F) as [P T].
  destruct (is_kill f) eqn:K; [destruct f; try discriminate; rewrite P; left; reflexivity|].
  destruct (is_tkill f) eqn:L; [destruct f; try discriminate; rewrite T; left; reflexivity|].
  assert (E : match f with
    | KillSelf => pid <- env_getpid (thread_env t (amb (4 + length rest)%nat)) ;; Ok (frag pid 0 KillSelf)
    | TkillSelf => tid <- env_gettid (thread_env t (amb (4 + length rest)%nat)) ;; Ok (frag 0 tid TkillSelf)
    | _ => Ok (frag 0 0 f) end = Ok (E := pledge_error) (rfrag (f, (0, 0)))) by (destruct f; try discriminate; reflexivity).
  rewrite E. cbn [bind]. destruct IH as [->|(rs & ->)]; [left; reflexivity|right].
  exists ((f, (0, 0)) :: rs). reflexivity.
Qed.

Lemma c116_dies : forall prof amb t ps v, t_filters t = [strict_mode] ->
  pledge_override prof amb t ps v = (Died DeathThread, t).
Proof.
  intros prof amb t ps v F. rewrite pledge_unfold. unfold built.
  destruct (strict_build prof amb t (all_filters ps) F) as [->|(rs & ->)]; [reflexivity|].
  cbn [bind]. rewrite assemble_ok. cbn [stopped]. unfold prctl_steps, fate_of. rewrite F. reflexivity.
Qed.

(** Ever after. *)
Lemma strict_guard : forall fs s d, In strict_mode fs -> wf_data d -> supervised_entry s fs d = Proceed -> strict_call d.
Proof.
  intros fs s d I Hd P.
  rewrite supervised_nonempty in P by (intros ->; exact I).
  destruct (run_min d fs 0x7fff0000) as [_ M]. specialize (M strict_mode I). fold run_filters in M.
  destruct (strict_eval d Hd) as [_ B].
  assert (Dec : strict_call d \/ ~ strict_call d).
  { unfold strict_call. destruct (N.eq_dec (sd_arch d) X86_64), (N.eq_dec (sd_arch d) 0x40000003),
      (in_dec N.eq_dec (sd_nr d) [0; 1; 60; 15]), (in_dec N.eq_dec (sd_nr d) [3; 4; 1; 119]); tauto. }
  destruct Dec as [X|X]; [exact X|exfalso]. rewrite (B X) in M.
  change (action_rank 0) with 0%Z in M. apply (below_trace s (run_filters fs d)); [lia|exact P].
Qed.

Lemma strict_kill : forall fs s d, In strict_mode fs -> wf_data d -> ~ strict_call d ->
  exists k, supervised_entry s fs d = Kill k.
Proof.
  intros fs s d I Hd X.
  rewrite supervised_nonempty by (intros ->; exact I).
  destruct (run_min d fs 0x7fff0000) as [_ M]. specialize (M strict_mode I). fold run_filters in M.
  rewrite (proj2 (strict_eval d Hd) X) in M. change (action_rank 0) with 0%Z in M.
  set (ret := run_filters fs d) in *. clearbody ret. unfold entry_under, entry_of.
  unfold action_rank in M. generalize dependent (action_bits ret). intros b M.
  repeat match goal with
  | |- exists k, (match ?c with _ => _ end) = _ => is_var c; destruct c; try (eexists; reflexivity)
  end; exfalso; vm_compute in M; congruence.
Qed.

Lemma step_spawn : forall prof w o w' evs u c, wstep prof w o = (w', evs) -> In (EvSpawn u c) evs ->
  exists d, In (EvCall u d Proceed) evs /\ In (sd_nr d) [SYS_fork; SYS_vfork; SYS_clone; SYS_clone3].
Proof.
  intros prof w o w' evs u c H I. destruct o as [u0 ps0 v0|u0 amb|u0 d o|u0 b|u0]; cbn [wstep] in H.
  - destruct (find_thread w u0); injection H as _ <-; destruct I.
  - exfalso. destruct (find_thread w u0) as [t|]; [|injection H as _ <-; destruct I].
    destruct (t_call t) as [ph|]; [|injection H as _ <-; destruct I].
    assert (Nc : ~ In (EvSpawn u c) (step_calls t amb ph)).
    { intros X. pose proof (step_calls_form t amb ph) as Fm. rewrite Forall_forall in Fm.
      destruct (Fm _ X) as (d & E). discriminate. }
    destruct (pledge_step prof amb t ph) as [[ph'|r] t']; [injection H as _ <-; contradiction|].
    destruct r as [x|e| |k]; injection H as _ <-; try contradiction;
      repeat (apply in_app_or in I; destruct I as [I|I]; try contradiction);
      try (destruct (Nat.eqb _ _) in I); cbn [In] in I; intuition discriminate.
  - destruct (find_thread w u0) as [t|] eqn:F; [|injection H as _ <-; destruct I].
    apply find_thread_spec in F. destruct F as [_ Ut].
    destruct (supervised_entry (o_sup o) (t_filters t) d) as [|z|k];
      try (injection H as _ <-; destruct I as [I|[]]; discriminate).
    destruct (sys_effect w t d o) as [w1 e1] eqn:S. injection H as _ <-. destruct I as [I|I]; [discriminate|].
    exists d. pose proof (sys_effect_events _ _ _ _ _ _ S) as Ev.
    destruct Ev as [->|Ev]; [destruct I|]. rewrite Ev in I. destruct I as [I|[]]. injection I as <- _.
    split; [left; congruence|]. rewrite Ev in S. unfold sys_effect in S. cbn [In].
    destruct (N.eqb_spec (sd_nr d) SYS_fork); [auto|]. destruct (N.eqb_spec (sd_nr d) SYS_vfork); [auto|]. cbn [orb] in S.
    destruct (N.eqb_spec (sd_nr d) SYS_clone); [auto|]. destruct (N.eqb_spec (sd_nr d) SYS_clone3); [auto|].
    exfalso. repeat match type of S with
    | (if ?c then _ else _) = _ => destruct c
    | (match ?c with _ => _ end) = _ => destruct c
    end; discriminate S.
  - destruct (find_thread w u0); injection H as _ <-; destruct I.
  - injection H as _ <-. destruct I.
Qed.

Lemma amb_calls : forall amb, wf_amb amb ->
  wf_data (call_getpid amb) /\ wf_data (call_gettid amb) /\ wf_data (call_set_nnp amb) /\ wf_data (call_set_seccomp amb).
Proof.
  intros amb (A & B0 & B1 & B2 & B3 & B4 & B5). unfold wf_data; cbn -[N.pow N.lt].
  repeat split; try assumption; reflexivity.
Qed.
Lemma native_nr : forall d, sd_arch d = X86_64 -> ~ In (sd_nr d) [0; 1; 60; 15] -> ~ strict_call d.
Proof. intros d A N [[_ X]|[X _]]; [contradiction|]. rewrite A in X. discriminate. Qed.

Lemma strict_returns : forall prof amb t ph t' r, In strict_mode (t_filters t) -> wf_amb amb ->
  pledge_step prof amb t ph = (Return_ r, t') -> exists k, r = Died k.
Proof.
  intros prof amb t ph t' r I Wa H. destruct (amb_calls amb Wa) as (W1 & W2 & W3 & W4).
  assert (Dead : forall d, wf_data d -> ~ strict_call d -> exists k, fate_of t amb d = Kill k)
    by (intros d W X; exact (strict_kill _ (amb_sup amb) d I W X)).
  destruct ph as [ps v|ps v done todo|ps v prog|ps v prog]; cbn [pledge_step] in H.
  - rewrite promises_to_filters_ok in H. discriminate.
  - destruct todo as [|f todo]; [rewrite assemble_ok in H; discriminate|].
    rewrite rule_built in H. unfold thread_env in H. cbn [env_getpid env_gettid] in H. unfold read_call in H.
    destruct (Dead (call_getpid amb) W1) as [k1 D1]; [apply native_nr; [reflexivity|cbn; intuition discriminate]|].
    destruct (Dead (call_gettid amb) W2) as [k2 D2]; [apply native_nr; [reflexivity|cbn; intuition discriminate]|].
    rewrite D1, D2 in H. destruct f; cbn [bind proceed] in H; try discriminate; injection H as <- _; eauto.
  - destruct (Dead (call_set_nnp amb) W3) as [k D]; [apply native_nr; [reflexivity|cbn; intuition discriminate]|].
    rewrite D in H. injection H as <- _. eauto.
  - destruct (Dead (call_set_seccomp amb) W4) as [k D]; [apply native_nr; [reflexivity|cbn; intuition discriminate]|].
    rewrite D in H. injection H as <- _. eauto.
Qed.

Lemma step_real : forall prof w o w' evs u d e, real_calls o -> wstep prof w o = (w', evs) ->
  In (EvCall u d e) evs -> wf_data d.
Proof.
  intros prof w o w' evs u d e Rc H I. destruct o as [u0 ps0 v0|u0 amb|u0 d0 o|u0 b|u0]; cbn [wstep real_calls] in H, Rc.
  - destruct (find_thread w u0); injection H as _ <-; destruct I.
  - destruct (find_thread w u0) as [t|]; [|injection H as _ <-; destruct I].
    destruct (t_call t) as [ph|]; [|injection H as _ <-; destruct I].
    destruct (amb_calls amb Rc) as (W1 & W2 & W3 & W4).
    assert (Nc : In (EvCall u d e) (step_calls t amb ph) -> wf_data d).
    { unfold step_calls. intros X. destruct ph as [ps v|ps v done [|f todo]|ps v prog|ps v prog]; [destruct X|destruct X| | |];
        [destruct f; try (destruct X; fail)|..]; destruct X as [X|[]]; injection X as _ <- _; assumption. }
    destruct (pledge_step prof amb t ph) as [[ph'|r] t']; [injection H as _ <-; auto|].
    destruct r as [x|er| |k]; injection H as _ <-; auto;
      repeat (apply in_app_or in I; destruct I as [I|I]; auto);
      try (destruct (Nat.eqb _ _) in I); cbn [In] in I; intuition discriminate.
  - destruct (find_thread w u0) as [t|] eqn:F; [|injection H as _ <-; destruct I].
    destruct (supervised_entry (o_sup o) (t_filters t) d0) as [|z|k];
      try (injection H as _ <-; destruct I as [I|[]]; injection I as _ <- _; exact Rc).
    destruct (sys_effect w t d0 o) as [w1 e1] eqn:S. injection H as _ <-.
    destruct I as [I|I]; [injection I as _ <- _; exact Rc|].
    destruct (sys_effect_events _ _ _ _ _ _ S) as [->|Ev]; [destruct I|]. rewrite Ev in I. destruct I as [I|[]]. discriminate.
  - destruct (find_thread w u0); injection H as _ <-; destruct I.
  - injection H as _ <-. destruct I.
Qed.

Lemma strict_step : forall prof past w o w' evs u, inv past w -> confined w [u] strict_mode -> real_calls o ->
  wstep prof w o = (w', evs) ->
  (forall d, In (EvCall u d Proceed) evs -> strict_call d) /\
  (forall c, ~ In (EvSpawn u c) evs) /\
  (forall pid tid ps v, ~ In (EvInstalled u pid tid ps v) evs) /\
  (forall ps v r, ~ In (EvReturned u ps v r) evs).
Proof.
  intros prof past w o w' evs u Hi Hc Rc H.
  assert (So : op_in (fun _ => True) o) by (destruct o; exact Logic.I).
  destruct (wstep_ok _ _ _ _ _ _ _ _ _ So Hi Hc H) as (_ & _ & G).
  assert (P : forall d, In (EvCall u d Proceed) evs -> strict_call d).
  { intros d I. pose proof (step_real _ _ _ _ _ _ _ _ Rc H I) as W. apply in_split in I. destruct I as (mid & rest & E).
    destruct (G mid u d Proceed rest E) as (fs & s & Is & _ & En); [apply descendants_mono; left; reflexivity|].
    exact (strict_guard fs s d Is W (eq_sym En)). }
  split; [exact P|]. split; [|split].
  - intros c I. destruct (step_spawn _ _ _ _ _ _ _ H I) as (d & Ic & Nr). specialize (P d Ic).
    unfold strict_call in P. cbn [In] in P, Nr.
    destruct Nr as [Nr|[Nr|[Nr|[Nr|[]]]]]; rewrite <- Nr in P; cbv in P; intuition discriminate.
  - intros pid tid ps v I. destruct (installed_call _ _ _ _ _ _ _ _ _ _ H I) as (amb & -> & E).
    assert (S : strict_call (call_set_seccomp amb)) by (apply P; rewrite E; left; reflexivity).
    revert S. apply native_nr; [reflexivity|cbn; intuition discriminate].
  - intros ps v r I. destruct o as [u0 ps0 v0|u0 amb|u0 d o|u0 b|u0]; cbn [wstep] in H.
    + destruct (find_thread w u0); injection H as _ <-; destruct I.
    + destruct (find_thread w u0) as [t|] eqn:F; [|injection H as _ <-; destruct I].
      apply find_thread_spec in F. destruct F as [It Ut].
      destruct (t_call t) as [ph|]; [|injection H as _ <-; destruct I].
      assert (Nc : ~ In (EvReturned u ps v r) (step_calls t amb ph)).
      { intros X. pose proof (step_calls_form t amb ph) as Fm. rewrite Forall_forall in Fm.
        destruct (Fm _ X) as (d & E). discriminate. }
      destruct (pledge_step prof amb t ph) as [[ph'|r'] t'] eqn:S; [injection H as _ <-; contradiction|].
      assert (U : u = u0).
      { destruct r' as [x|er| |k]; injection H as _ <-; try contradiction;
          repeat (apply in_app_or in I; destruct I as [I|I]; try contradiction);
          try (destruct (Nat.eqb _ _) in I); cbn [In] in I; intuition congruence. }
      destruct (strict_returns prof amb t ph t' r') as [k ->]; [|exact Rc|exact S|].
      * apply Hc; [exact It|]. left. congruence.
      * injection H as _ <-. contradiction.
    + destruct (find_thread w u0) as [t|] eqn:F; [|injection H as _ <-; destruct I].
      destruct (supervised_entry (o_sup o) (t_filters t) d) as [|z|k];
        try (injection H as _ <-; destruct I as [I|[]]; discriminate).
      destruct (sys_effect w t d o) as [w1 e1] eqn:S. injection H as _ <-. destruct I as [I|I]; [discriminate|].
      destruct (sys_effect_events _ _ _ _ _ _ S) as [->|Ev]; [destruct I|]. rewrite Ev in I. destruct I as [I|[]]. discriminate.
    + destruct (find_thread w u0); injection H as _ <-; destruct I.
    + injection H as _ <-. destruct I.
Qed.

Lemma descendants_alone : forall evs u, (forall c, ~ In (EvSpawn u c) evs) -> descendants [u] evs = [u].
Proof.
  induction evs as [|ev evs IH]; intros u H; [reflexivity|].
  assert (H' : forall c, ~ In (EvSpawn u c) evs) by (intros c X; apply (H c); right; exact X).
  destruct ev as [u' d e|p c|u' a b ps v|u' ps v r]; cbn [descendants]; try (apply IH; exact H').
  destruct (existsb (Nat.eqb p) [u]) eqn:E; [exfalso|apply IH; exact H'].
  cbn [existsb] in E. rewrite orb_false_r in E. apply Nat.eqb_eq in E. subst p. apply (H c). left. reflexivity.
Qed.

Lemma strict_run : forall prof ops past w w' tr u, inv past w -> confined w [u] strict_mode -> Forall real_calls ops ->
  wrun prof w ops = (w', tr) ->
  (forall d, In (EvCall u d Proceed) tr -> strict_call d) /\
  (forall c, ~ In (EvSpawn u c) tr) /\
  (forall pid tid ps v, ~ In (EvInstalled u pid tid ps v) tr) /\
  (forall ps v r, ~ In (EvReturned u ps v r) tr).
Proof.
  intros prof. induction ops as [|o ops IH]; intros past w w' tr u Hi Hc Rc H; cbn [wrun] in H.
  - injection H as _ <-. repeat split; intros; try intros X; cbn [In] in *; contradiction.
  - destruct (wstep prof w o) as [w1 e1] eqn:S1. destruct (wrun prof w1 ops) as [w2 e2] eqn:S2.
    injection H as _ <-. inversion Rc; subst.
    destruct (strict_step _ _ _ _ _ _ _ Hi Hc H1 S1) as (A1 & A2 & A3 & A4).
    assert (So : op_in (fun _ => True) o) by (destruct o; exact Logic.I).
    destruct (wstep_ok _ _ _ _ _ _ _ _ _ So Hi Hc S1) as (Hi' & Hc' & _).
    rewrite (descendants_alone _ _ A2) in Hc'.
    destruct (IH _ _ _ _ _ Hi' Hc' H2 S2) as (B1 & B2 & B3 & B4).
    split; [|split; [|split]].
    + intros d X. apply in_app_or in X. destruct X as [X|X]; [exact (A1 d X)|exact (B1 d X)].
    + intros c X. apply in_app_or in X. destruct X as [X|X]; [exact (A2 c X)|exact (B2 c X)].
    + intros pid tid ps v X. apply in_app_or in X. destruct X as [X|X]; [exact (A3 _ _ _ _ X)|exact (B3 _ _ _ _ X)].
    + intros ps v r X. apply in_app_or in X. destruct X as [X|X]; [exact (A4 _ _ _ X)|exact (B4 _ _ _ X)].
Qed.

Lemma c116_after : forall prof w ops w' tr t,
  fresh_world w -> distinct w -> In t (w_threads w) -> t_filters t = [strict_mode] ->
  Forall real_calls ops -> wrun prof w ops = (w', tr) ->
  (forall d, In (EvCall (t_uid t) d Proceed) tr -> strict_call d) /\
  (forall c, ~ In (EvSpawn (t_uid t) c) tr) /\
  (forall pid tid ps v, ~ In (EvInstalled (t_uid t) pid tid ps v) tr) /\
  (forall ps v r, ~ In (EvReturned (t_uid t) ps v r) tr).
Proof.
  intros prof w ops w' tr t Fr D It F Rc H. apply (strict_run prof ops [] w w' tr); [apply fresh_inv; exact Fr| |exact Rc|exact H].
  split.
  - intros x Ix [E|[]]. rewrite (nodup_same w t x D It Ix (eq_sym E)), F. left. reflexivity.
  - intros u [<-|[]]. unfold fresh_world in Fr. rewrite Forall_forall in Fr. apply (Fr t It).
Qed.
