(** A pledge among other tasks runs as it would alone (C92). *)
From Coq Require Import NArith ZArith String List Bool Lia.
From Verif Require Import Libc Machine Bpf SeccompRet Asm Vm Promises Filters Kernel World Spec.
From Verif Require Import FragProofs PolicyProofs CodeProofs PledgeProofs StackProofs WorldProofs HistoryProofs DeathProofs
  LiveProofs.
Import ListNotations.
Local Open Scope N_scope.

(** [t] is a task of [w], or its identity is gone. *)
Definition still (t : thread) (w : world) : Prop := In t (w_threads w) \/ gone (t_uid t) w.

Lemma still_filter : forall w g t, sound w -> In t (w_threads w) ->
  still t (mkWorld (filter g (w_threads w)) (w_next w)).
Proof.
  intros w g t [D B] I. destruct (g t) eqn:E.
  - left. apply filter_In. auto.
  - right. split; cbn [w_next w_threads].
    + rewrite Forall_forall in B. apply B. exact I.
    + intros y Iy Uy. apply filter_In in Iy. destruct Iy as [Iy Ey].
      assert (y = t) as -> by (apply (nodup_same w); assumption). congruence.
Qed.
Lemma still_death : forall w x k t, sound w -> In t (w_threads w) -> still t (apply_death w x k).
Proof. intros w x [| |] t S I; apply still_filter; assumption. Qed.

Lemma step_uid : forall prof amb t ph s t', pledge_step prof amb t ph = (s, t') -> t_uid t' = t_uid t.
Proof.
  intros prof amb t ph s t' H.
  destruct ph as [ps v|ps v done [|f todo]|ps v prog|ps v prog]; cbn [pledge_step] in H;
    try (injection H as _ <-; reflexivity).
  - destruct (fate_of t amb (call_set_nnp amb)); rewrite ?prctl_nnp in H; injection H as _ <-; reflexivity.
  - destruct (fate_of t amb (call_set_seccomp amb)); rewrite ?prctl_load in H;
      try destruct (attach_filter _ _ _ _); injection H as _ <-; reflexivity.
Qed.

(** Others leave the thread as it is. *)
Lemma wstep_others : forall prof w o w' evs t, sound w -> In t (w_threads w) -> wstep prof w o = (w', evs) ->
  leaves_alone (t_uid t) o -> (forall amb, o <> OStep (t_uid t) amb) ->
  still t w' /\ (forall ev, In ev evs -> ~ outcome (t_uid t) ev).
Proof.
  intros prof w o w' evs t S I H La Ns.
  assert (Same : (w, @nil event) = (w', evs) -> still t w' /\ (forall ev, In ev evs -> ~ outcome (t_uid t) ev)).
  { intros E. injection E as <- <-. split; [left; exact I|intros ? []]. }
  assert (At : at_ (t_uid t) (t_call t) w) by (exists t; auto).
  split.
  2:{ apply (wstep_aside prof w o w' evs (t_uid t) (t_call t) S At H Ns).
      intros _ (ps & v & ->). cbn [leaves_alone] in La. congruence. }
  destruct o as [u ps v|u amb|u d o|u b|u]; cbn [wstep leaves_alone] in H, La.
  - destruct (find_thread w u) as [x|] eqn:F; [|exact (proj1 (Same H))].
    apply find_thread_spec in F. destruct F as [Ix Ux].
    destruct (t_call x); [exact (proj1 (Same H))|]. injection H as <- _. left.
    apply put_other; [cbn [set_call t_uid]; congruence|exact I].
  - assert (N : u <> t_uid t) by (intros ->; exact (Ns amb eq_refl)).
    destruct (c75 prof w u amb w' evs H) as [A _].
    destruct (find_thread w u) as [x|] eqn:F; [|exact (proj1 (Same H))].
    apply find_thread_spec in F. destruct F as [Ix Ux].
    destruct (t_call x) as [ph|]; [|exact (proj1 (Same H))].
    destruct (pledge_step prof amb x ph) as [s x'] eqn:P.
    assert (U' : t_uid x' = t_uid x) by exact (step_uid _ _ _ _ _ _ P).
    destruct s as [ph'|[y|e| |k]]; injection H as <- _;
      try (left; apply put_other; [cbn [set_call t_uid]; congruence|exact I]).
    apply still_death; assumption.
  - destruct (find_thread w u) as [x|] eqn:F; [|exact (proj1 (Same H))].
    apply find_thread_spec in F. destruct F as [Ix Ux]. destruct La as [Nu Ns'].
    destruct (supervised_entry (o_sup o) (t_filters x) d) as [|z|k].
    + destruct (sys_effect w x d o) as [w1 e1] eqn:Sy. injection H as <- _.
      unfold sys_effect in Sy.
      assert (New : forall b : bool, (if o_refuse o then (w, [])
         else (spawn w x (if b then t_pid x else o_newid o) (o_newid o), [EvSpawn (t_uid x) (w_next w)])) = (w1, e1) ->
         still t w1).
      { intros b E. left. destruct (o_refuse o); injection E as <- _; [exact I|right; exact I]. }
      destruct ((sd_nr d =? SYS_fork) || (sd_nr d =? SYS_vfork)); [exact (New false Sy)|].
      destruct (sd_nr d =? SYS_clone); [exact (New _ Sy)|].
      destruct (sd_nr d =? SYS_clone3); [exact (New _ Sy)|].
      destruct (sd_nr d =? SYS_prctl).
      * injection Sy as <- _. left. apply put_other; [|exact I]. unfold kernel_prctl.
        destruct (strict_cases x) as [St|St];
          repeat match goal with |- context [if ?c then _ else _] => destruct c end;
          try destruct (attach_filter _ _ _ _); try rewrite St; cbn [snd set_nnp set_filters t_uid]; congruence.
      * apply N.eqb_neq in Ns'. change 317 with SYS_seccomp in Ns'. rewrite Ns' in Sy. cbn [andb] in Sy.
        destruct (_ && _).
        2:{ destruct (_ =? _); [|destruct (_ =? _)]; injection Sy as <- _;
              [exact (still_death w x DeathThread t S I)|exact (still_death w x DeathProcess t S I)|left; exact I]. }
        injection Sy as <- _.
        destruct (N.eq_dec (t_pid t) (t_pid x)) as [P|P].
        -- right. destruct S as [D B]. split.
           ++ cbn [run_program w_next]. rewrite Forall_forall in B. apply B. exact I.
           ++ intros y Iy Uy. apply run_program_in in Iy. destruct Iy as [->|(Iy & _ & Py)]; [cbn in Uy; congruence|].
              assert (y = t) as -> by (apply (nodup_same w); assumption). exact (Py P).
        -- left. apply run_program_kept; [exact Ix|]. right. split; [exact I|]. split; congruence.
    + injection H as <- _. left. exact I.
    + injection H as <- _. apply still_death; assumption.
  - destruct (find_thread w u) as [x|] eqn:F; [|exact (proj1 (Same H))].
    apply find_thread_spec in F. destruct F as [Ix Ux]. injection H as <- _. left.
    apply put_other; [cbn [set_cap t_uid]; congruence|exact I].
  - injection H as <- _. apply still_filter; assumption.
Qed.

(** A step does not look at the call field. *)
Lemma step_set_call : forall prof amb t ph c,
  pledge_step prof amb (set_call t c) ph =
  (fst (pledge_step prof amb t ph), set_call (snd (pledge_step prof amb t ph)) c).
Proof.
  intros prof amb t ph c.
  destruct ph as [ps v|ps v done [|f todo]|ps v prog|ps v prog]; try reflexivity; cbn [pledge_step].
  - change (fate_of (set_call t c) amb (call_set_nnp amb)) with (fate_of t amb (call_set_nnp amb)).
    destruct (fate_of t amb (call_set_nnp amb)); [|reflexivity|reflexivity].
    rewrite !prctl_nnp. reflexivity.
  - change (fate_of (set_call t c) amb (call_set_seccomp amb)) with (fate_of t amb (call_set_seccomp amb)).
    destruct (fate_of t amb (call_set_seccomp amb)); [|reflexivity|reflexivity].
    rewrite !prctl_load. cbn [set_call t_nnp t_cap t_filters].
    destruct (attach_filter _ _ _ _); reflexivity.
Qed.

Lemma idle_alone : forall prof ops w w' tr t, sound w -> still t w -> t_call t = None ->
  Forall (leaves_alone (t_uid t)) ops -> wrun prof w ops = (w', tr) ->
  still t w' /\ forall ev, In ev tr -> ~ outcome (t_uid t) ev.
Proof.
  intros prof. induction ops as [|o ops IH]; intros w w' tr t S St C La H; cbn [wrun] in H.
  - injection H as <- <-. split; [exact St|intros ? []].
  - destruct (wstep prof w o) as [w1 e1] eqn:S1. destruct (wrun prof w1 ops) as [w2 e2] eqn:S2.
    injection H as <- <-. inversion La as [|o' ops' La1 La2]; subst.
    pose proof (proj1 (wstep_sound _ _ _ _ _ S S1)) as Sd.
    assert (X : still t w1 /\ forall ev, In ev e1 -> ~ outcome (t_uid t) ev).
    { destruct St as [I|G].
      - assert (Dec : (exists amb, o = OStep (t_uid t) amb) \/ (forall amb, o <> OStep (t_uid t) amb)).
        { destruct o as [u0 ps v|u0 amb|u0 d o|u0 b|u0]; try (right; discriminate).
          destruct (Nat.eq_dec u0 (t_uid t)) as [->|N]; [left; eauto|right; congruence]. }
        destruct Dec as [(amb & ->)|N].
        + cbn [wstep] in S1. rewrite (find_of w t S I), C in S1. injection S1 as <- <-. split; [left; exact I|intros ? []].
        + exact (wstep_others prof w o w1 e1 t S I S1 La1 N).
      - destruct (wstep_gone _ _ _ _ _ _ S G S1) as [G1 A]. split; [right; exact G1|].
        intros ev Ie O. apply (A ev Ie). destruct ev; cbn in O; try contradiction; exact O. }
    destruct X as [St1 N1]. destruct (IH w1 w2 e2 t Sd St1 C La2 S2) as [St2 N2]. split; [exact St2|].
    intros ev Ie. apply in_app_or in Ie. destruct Ie; auto.
Qed.

Lemma alone_run : forall prof ops w w' tr t ph n amb, sound w -> In t (w_threads w) -> t_call t = Some ph ->
  Forall (leaves_alone (t_uid t)) ops -> wrun prof w ops = (w', tr) -> (left_ ph <= n)%nat ->
  (forall i a, nth_error (turns (t_uid t) ops) i = Some a -> (i < n)%nat -> amb (n - i)%nat = a) ->
  forall r, In (EvReturned (t_uid t) (ph_promises ph) (ph_violation ph) r) tr ->
  exists t', pledge_steps n prof amb (set_call t None) ph = (inr r, t') /\ still t' w' /\ t_uid t' = t_uid t.
Proof.
  intros prof. induction ops as [|o ops IH]; intros w w' tr t ph n amb S I C La H L Am r Ir; cbn [wrun] in H.
  - injection H as <- <-. destruct Ir.
  - destruct (wstep prof w o) as [w1 e1] eqn:S1. destruct (wrun prof w1 ops) as [w2 e2] eqn:S2.
    injection H as <- <-. inversion La as [|o' ops' La1 La2]; subst.
    pose proof (proj1 (wstep_sound _ _ _ _ _ S S1)) as Sd.
    assert (Dec : (exists a, o = OStep (t_uid t) a) \/ (forall a, o <> OStep (t_uid t) a)).
    { destruct o as [u0 ps v|u0 a|u0 d o|u0 b|u0]; try (right; discriminate).
      destruct (Nat.eq_dec u0 (t_uid t)) as [->|N]; [left; eauto|right; congruence]. }
    destruct Dec as [(a & ->)|N].
    + assert (L1 : (1 <= left_ ph)%nat) by (destruct ph; cbn; lia).
      destruct n as [|n]; [lia|].
      assert (Aa : amb (Datatypes.S n) = a).
      { specialize (Am 0%nat a). rewrite Nat.sub_0_r in Am. apply Am; [|lia].
        unfold turns. cbn [flat_map]. rewrite Nat.eqb_refl. reflexivity. }
      assert (Am' : forall i x, nth_error (turns (t_uid t) ops) i = Some x -> (i < n)%nat -> amb (n - i)%nat = x).
      { intros i x E Hi. specialize (Am (Datatypes.S i) x). cbn [Nat.sub] in Am. apply Am; [|lia].
        unfold turns. cbn [flat_map]. rewrite Nat.eqb_refl. exact E. }
      cbn [pledge_steps]. rewrite Aa, step_set_call.
      cbn [wstep] in S1. rewrite (find_of w t S I), C in S1.
      destruct (pledge_step prof a t ph) as [s t1] eqn:P. cbn [fst snd].
      pose proof (step_uid _ _ _ _ _ _ P) as U1.
      pose proof (step_facts _ _ _ _ _ _ P) as F. cbv zeta in F.
      destruct s as [ph'|r1].
      * injection S1 as <- <-. destruct F as (Lf & _ & Fp & Fv).
        assert (Ir2 : In (EvReturned (t_uid t) (ph_promises ph) (ph_violation ph) r) e2).
        { apply in_app_or in Ir. destruct Ir as [Ir|Ir]; [|exact Ir]. exfalso.
          exact (calls_no_outcome _ _ _ (t_uid t) _ Ir eq_refl). }
        rewrite <- Fp, <- Fv in Ir2.
        destruct (IH _ w2 e2 (set_call t1 (Some ph')) ph' n amb Sd) with (r := r) as (t' & E & St & U');
          cbn [set_call t_uid t_call]; rewrite ?U1; auto; try lia.
        -- apply put_in. exists t. cbn [set_call t_uid]. auto.
        -- exists t'. split; [exact E|]. split; [exact St|]. cbn [set_call t_uid] in U'. congruence.
      * assert (R : forall x, r1 = x -> (forall k, x <> Died k) -> w1 = put_thread w (set_call t1 None) /\
          exists ins, e1 = step_calls t a ph ++ ins ++ [EvReturned (t_uid t) (ph_promises ph) (ph_violation ph) x] /\
            forall ev, In ev ins -> ev = EvInstalled (t_uid t) (t_pid t) (t_tid t) (ph_promises ph) (ph_violation ph)).
        { intros x -> Nd. destruct x as [y|e| |k]; [| | |exfalso; exact (Nd k eq_refl)]; injection S1 as <- <-;
            (split; [reflexivity|]; eexists; split; [reflexivity|]);
            intros ev Iv; destruct (Nat.eqb _ _); try destruct Iv as [<-|[]]; try reflexivity; destruct Iv. }
        assert (Dd : (exists k, r1 = Died k) \/ (forall k, r1 <> Died k)).
        { destruct r1; [right|right|right|left]; try discriminate; eauto. }
        destruct Dd as [(k & ->)|Nd].
        -- exfalso. injection S1 as <- <-. apply in_app_or in Ir. destruct Ir as [Ir|Ir].
           ++ exact (calls_no_outcome _ _ _ (t_uid t) _ Ir eq_refl).
           ++ assert (G : gone (t_uid t) (apply_death w t k)).
              { destruct (still_death w t k t S I) as [X|X]; [exfalso|exact X].
                destruct k; cbn [apply_death drop_thread drop_process w_threads] in X; apply filter_In in X;
                  destruct X as [_ X]; rewrite ?Nat.eqb_refl, ?N.eqb_refl in X; discriminate. }
              exact (proj1 (gone_run _ _ _ _ _ _ Sd G S2) _ Ir eq_refl).
        -- destruct (R r1 eq_refl Nd) as (-> & ins & -> & Ins).
           assert (St1 : still (set_call t1 None) (put_thread w (set_call t1 None))).
           { left. apply put_in. exists t. cbn [set_call t_uid]. auto. }
           destruct (idle_alone prof ops _ w2 e2 (set_call t1 None) Sd St1 eq_refl) as [St2 N2]; auto.
           { cbn [set_call t_uid]. rewrite U1. exact La2. }
           cbn [set_call t_uid] in N2. rewrite U1 in N2.
           exists (set_call t1 None). split; [|split; [exact St2|exact U1]].
           apply in_app_or in Ir. destruct Ir as [Ir|Ir].
           ++ apply in_app_or in Ir. destruct Ir as [Ir|Ir]; [exfalso; exact (calls_no_outcome _ _ _ (t_uid t) _ Ir eq_refl)|].
              apply in_app_or in Ir. destruct Ir as [Ir|[Ir|[]]]; [apply Ins in Ir; discriminate|].
              injection Ir as ->. reflexivity.
           ++ exfalso. exact (N2 _ Ir eq_refl).
    + destruct (wstep_others prof w o w1 e1 t S I S1 La1 N) as [[I1|G1] N1].
      * assert (Ir2 : In (EvReturned (t_uid t) (ph_promises ph) (ph_violation ph) r) e2).
        { apply in_app_or in Ir. destruct Ir as [Ir|Ir]; [|exact Ir]. exfalso. exact (N1 _ Ir eq_refl). }
        apply (IH w1 w2 e2 t ph n amb Sd I1 C La2 S2 L); [|exact Ir2].
        intros i a E. apply Am. unfold turns in *. cbn [flat_map].
        destruct o as [u0 ps v|u0 b|u0 d o|u0 b|u0]; try exact E.
        destruct (Nat.eqb_spec u0 (t_uid t)) as [->|_]; [exfalso; exact (N b eq_refl)|exact E].
      * exfalso. apply in_app_or in Ir. destruct Ir as [Ir|Ir]; [exact (N1 _ Ir eq_refl)|].
        exact (proj1 (gone_run _ _ _ _ _ _ Sd G1 S2) _ Ir eq_refl).
Qed.

Lemma c92 : forall prof w ops1 w1 tr1 t ps v ops2 w2 tr2 r,
  fresh_world w -> distinct w -> wrun prof w ops1 = (w1, tr1) ->
  In t (w_threads w1) -> t_call t = None ->
  Forall (leaves_alone (t_uid t)) ops2 ->
  wrun prof w1 (OPledge (t_uid t) ps v :: ops2) = (w2, tr2) ->
  In (EvReturned (t_uid t) ps v r) tr2 ->
  exists t', pledge_override prof (in_turn ps (turns (t_uid t) ops2)) t ps v = (r, t') /\
    forall x, In x (w_threads w2) -> t_uid x = t_uid t -> x = t'.
Proof.
  intros prof w ops1 w1 tr1 t ps v ops2 w2 tr2 r F D R1 I C La R2 Ir.
  assert (S : sound w1) by (apply (wrun_sound prof ops1 w w1 tr1); [apply fresh_sound; assumption|exact R1]).
  cbn [wrun wstep] in R2. rewrite (find_of w1 t S I), C in R2.
  destruct (wrun prof (put_thread w1 (set_call t (Some (PStart ps v)))) ops2) as [wb eb] eqn:R.
  injection R2 as <- <-. cbn [app] in Ir.
  assert (L : pledge_length ps = steps_needed ps).
  { rewrite <- (start_left ps v). unfold pledge_length. rewrite promises_to_filters_ok. reflexivity. }
  assert (Sp : sound (put_thread w1 (set_call t (Some (PStart ps v))))) by (apply sound_put; exact S).
  destruct (alone_run prof ops2 _ wb eb (set_call t (Some (PStart ps v))) (PStart ps v) (pledge_length ps)
              (in_turn ps (turns (t_uid t) ops2)) Sp) with (r := r) as (t' & E & St & U'); auto.
  - apply put_in. exists t. cbn [set_call t_uid]. auto.
  - rewrite start_left, L. lia.
  - cbn [set_call t_uid]. intros i a E Hi. unfold in_turn. rewrite L in *.
    replace (steps_needed ps - (steps_needed ps - i))%nat with i by lia. apply nth_error_nth. exact E.
  - assert (Et : set_call (set_call t (Some (PStart ps v))) None = t).
    { destruct t. cbn in C. subst. reflexivity. }
    rewrite Et in E. exists t'. split; [unfold pledge_override; rewrite E; reflexivity|].
    intros x Ix Ux. cbn [set_call t_uid] in U'. destruct St as [It'|[_ G]].
    + assert (Sb : sound wb) by (apply (wrun_sound prof ops2 _ wb eb Sp R)).
      apply (nodup_same wb); [apply Sb|exact It'|exact Ix|congruence].
    + exfalso. apply (G x Ix). congruence.
Qed.
