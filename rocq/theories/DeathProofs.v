(** What a kill does to the tasks of a world (C85). *)
From Coq Require Import NArith ZArith String List Bool Lia.
From Verif Require Import Libc Machine Bpf SeccompRet Asm Vm Promises Filters Kernel World Spec.
From Verif Require Import FragProofs PolicyProofs CodeProofs PledgeProofs WorldProofs HistoryProofs.
Import ListNotations.
Local Open Scope N_scope.

(** A pledge step one of whose calls is killed is the end of it. *)
Lemma kill_died : forall prof amb t ph u d k, In (EvCall u d (Kill k)) (step_calls t amb ph) ->
  u = t_uid t /\ supervised_entry (amb_sup amb) (t_filters t) d = Kill k /\
  exists t', pledge_step prof amb t ph = (Return_ (Died k), t').
Proof.
  intros prof amb t ph u d k I.
  assert (One : forall d', In (EvCall u d (Kill k)) [EvCall (t_uid t) d' (fate_of t amb d')] ->
            u = t_uid t /\ d = d' /\ fate_of t amb d' = Kill k).
  { intros d' [E|[]]. injection E as <- <- E. auto. }
  destruct ph as [ps v|ps v done todo|ps v prog|ps v prog]; cbn [step_calls] in I.
  - destruct I.
  - destruct todo as [|f todo]; [destruct I|].
    destruct f; try (destruct I; fail); apply One in I; destruct I as (-> & -> & Fk);
      (split; [reflexivity|]); (split; [exact Fk|]); exists t; cbn [pledge_step];
      unfold thread_env, read_call; rewrite Fk; reflexivity.
  - apply One in I. destruct I as (-> & -> & Fk). split; [reflexivity|]. split; [exact Fk|].
    exists t. cbn [pledge_step]. rewrite Fk. reflexivity.
  - apply One in I. destruct I as (-> & -> & Fk). split; [reflexivity|]. split; [exact Fk|].
    exists t. cbn [pledge_step]. rewrite Fk. reflexivity.
Qed.

Lemma death_in : forall w t k x, In x (w_threads (apply_death w t k)) <->
  In x (w_threads w) /\
  match k with DeathThread => t_uid x <> t_uid t | _ => t_pid x <> t_pid t end.
Proof.
  intros w t k x. destruct k; cbn [apply_death drop_thread drop_process w_threads]; rewrite filter_In;
    (split; intros [A B]; (split; [exact A|])).
  all: try (apply negb_true_iff in B; first [apply N.eqb_neq in B|apply Nat.eqb_neq in B]; exact B).
  all: apply negb_true_iff; first [apply N.eqb_neq|apply Nat.eqb_neq]; exact B.
Qed.

Lemma c85_step : forall prof w o w' evs u d k,
  wstep prof w o = (w', evs) -> In (EvCall u d (Kill k)) evs ->
  exists t s, In t (w_threads w) /\ t_uid t = u /\ supervised_entry s (t_filters t) d = Kill k /\
  forall t', In t' (w_threads w') <->
    In t' (w_threads w) /\
    match k with DeathThread => t_uid t' <> u | _ => t_pid t' <> t_pid t end.
Proof.
  intros prof w o w' evs u d k H I.
  destruct o as [u0 ps0 v0|u0 amb|u0 d0 o|u0 b|u0]; cbn [wstep] in H.
  - destruct (find_thread w u0); injection H as _ <-; destruct I.
  - destruct (find_thread w u0) as [t|] eqn:F; [|injection H as _ <-; destruct I].
    apply find_thread_spec in F. destruct F as [It Ut].
    destruct (t_call t) as [ph|]; [|injection H as _ <-; destruct I].
    destruct (pledge_step prof amb t ph) as [s t'] eqn:P.
    assert (Ic : In (EvCall u d (Kill k)) (step_calls t amb ph)).
    { assert (App : forall r ins, (forall x, In x ins -> exists pid tid ps v, x = EvInstalled u0 pid tid ps v) ->
        In (EvCall u d (Kill k)) (step_calls t amb ph ++ ins ++ [EvReturned u0 (ph_promises ph) (ph_violation ph) r]) ->
        In (EvCall u d (Kill k)) (step_calls t amb ph)).
      { intros r ins X J. apply in_app_or in J. destruct J as [J|J]; [exact J|].
        apply in_app_or in J. destruct J as [J|[J|[]]]; [|discriminate].
        destruct (X _ J) as (? & ? & ? & ? & E). discriminate. }
      destruct s as [ph'|[x|e| |k']]; injection H as _ <-; try exact I;
        (apply App in I; [exact I|]); intros y Iy; destruct (Nat.eqb _ _);
        (destruct Iy as [<-|[]] || destruct Iy); eauto. }
    destruct (kill_died prof amb t ph u d k Ic) as (-> & Fk & t1 & Pd).
    rewrite Pd in P. injection P as <- <-. injection H as <- _.
    exists t, (amb_sup amb). split; [exact It|]. split; [reflexivity|]. split; [exact Fk|].
    intros t'. apply death_in.
  - destruct (find_thread w u0) as [t|] eqn:F; [|injection H as _ <-; destruct I].
    apply find_thread_spec in F. destruct F as [It Ut].
    destruct (supervised_entry (o_sup o) (t_filters t) d0) as [|z|k'] eqn:Se.
    + destruct (sys_effect w t d0 o) as [w1 e1] eqn:S. injection H as _ <-.
      destruct I as [I|I]; [discriminate|]. apply sys_effect_events in S.
      destruct S as [->| ->]; [destruct I|]. destruct I as [I|[]]. discriminate.
    + injection H as _ <-. destruct I as [I|[]]. discriminate.
    + injection H as <- <-. destruct I as [I|[]]. injection I as <- <- <-.
      exists t, (o_sup o). split; [exact It|]. split; [exact Ut|]. split; [exact Se|].
      intros t'. rewrite <- Ut. apply death_in.
  - destruct (find_thread w u0); injection H as _ <-; destruct I.
  - injection H as _ <-. destruct I.
Qed.

(** * Identities *)

Definition sound (w : world) : Prop :=
  distinct w /\ Forall (fun t => (t_uid t < w_next w)%nat) (w_threads w).

Lemma put_uids : forall w t, map t_uid (w_threads (put_thread w t)) = map t_uid (w_threads w).
Proof.
  intros w t. cbn [put_thread w_threads]. rewrite map_map. apply map_ext. intros x.
  destruct (Nat.eqb (t_uid x) (t_uid t)) eqn:E; [|reflexivity]. apply Nat.eqb_eq in E. congruence.
Qed.
Lemma sound_uids : forall w w', sound w -> map t_uid (w_threads w') = map t_uid (w_threads w) ->
  w_next w' = w_next w -> sound w'.
Proof.
  intros w w' [D B] E N. split.
  - unfold distinct. rewrite E. exact D.
  - rewrite N. rewrite Forall_forall in B |- *. intros x I.
    apply (in_map t_uid) in I. rewrite E in I. apply in_map_iff in I. destruct I as (y & <- & I).
    apply B. exact I.
Qed.
Lemma sound_put : forall w t, sound w -> sound (put_thread w t).
Proof. intros w t S. apply (sound_uids w); [exact S|apply put_uids|reflexivity]. Qed.
Lemma sound_filter : forall w f, sound w -> sound (mkWorld (filter f (w_threads w)) (w_next w)).
Proof.
  intros w f [D B]. split.
  - unfold distinct in *. cbn [w_threads]. induction (w_threads w) as [|x l IH]; [constructor|].
    cbn [map] in D. inversion D; subst. inversion B; subst. cbn [filter]. destruct (f x); [|apply IH; assumption].
    cbn [map]. constructor; [|apply IH; assumption].
    intros I. apply H1. apply in_map_iff in I. destruct I as (y & E & I). apply filter_In in I.
    rewrite <- E. apply in_map. apply I.
  - cbn [w_threads w_next]. rewrite Forall_forall in B |- *. intros x I. apply filter_In in I. apply B, I.
Qed.
Lemma sound_death : forall w t k, sound w -> sound (apply_death w t k).
Proof. intros w t [| |] S; apply sound_filter; exact S. Qed.
Lemma sound_spawn : forall w t pid tid, sound w -> sound (spawn w t pid tid).
Proof.
  intros w t pid tid [D B]. rewrite Forall_forall in B. split.
  - unfold distinct, spawn. cbn [w_threads map t_uid]. constructor; [|exact D].
    intros I. apply in_map_iff in I. destruct I as (y & E & I). specialize (B y I). lia.
  - unfold spawn. cbn [w_threads w_next]. constructor; [cbn; lia|].
    rewrite Forall_forall. intros x I. specialize (B x I). lia.
Qed.

Lemma sound_program : forall w t, sound w -> sound (run_program w t).
Proof.
  intros w t S. unfold run_program.
  apply (sound_filter w (fun t' => Nat.eqb (t_uid t') (t_uid t) || negb (t_pid t' =? t_pid t))) in S.
  apply (sound_uids _ _ S); [|reflexivity]. cbn [w_threads]. rewrite map_map. apply map_ext. intros x.
  destruct (Nat.eqb_spec (t_uid x) (t_uid t)) as [E|]; [|reflexivity]. symmetry. exact E.
Qed.

Lemma sys_effect_sound : forall w t d o w' evs, sound w -> In t (w_threads w) -> sys_effect w t d o = (w', evs) ->
  sound w' /\ (w_next w <= w_next w')%nat /\
  (forall x, In x (w_threads w') -> t_uid x = w_next w \/ exists y, In y (w_threads w) /\ t_uid y = t_uid x).
Proof.
  intros w t d o w' evs S It H.
  assert (Same : (w, @nil event) = (w', evs) ->
    sound w' /\ (w_next w <= w_next w')%nat /\
    (forall x, In x (w_threads w') -> t_uid x = w_next w \/ exists y, In y (w_threads w) /\ t_uid y = t_uid x)).
  { intros E. injection E as <- _. split; [exact S|]. split; [lia|]. eauto. }
  assert (Uids : forall w1, map t_uid (w_threads w1) = map t_uid (w_threads w) -> w_next w1 = w_next w ->
    sound w1 /\ (w_next w <= w_next w1)%nat /\
    (forall x, In x (w_threads w1) -> t_uid x = w_next w \/ exists y, In y (w_threads w) /\ t_uid y = t_uid x)).
  { intros w1 E N. split; [exact (sound_uids w w1 S E N)|]. split; [lia|]. intros x I. right.
    apply (in_map t_uid) in I. rewrite E in I. apply in_map_iff in I. destruct I as (y & E1 & I). eauto. }
  assert (New : forall b : bool,
     (if o_refuse o then (w, [])
      else (spawn w t (if b then t_pid t else o_newid o) (o_newid o), [EvSpawn (t_uid t) (w_next w)])) = (w', evs) ->
    sound w' /\ (w_next w <= w_next w')%nat /\
    (forall x, In x (w_threads w') -> t_uid x = w_next w \/ exists y, In y (w_threads w) /\ t_uid y = t_uid x)).
  { intros b E. destruct (o_refuse o); [exact (Same E)|]. injection E as <- _.
    split; [apply sound_spawn; exact S|]. split; [cbn; lia|].
    intros x [<-|I]; [left; reflexivity|right; eauto]. }
  unfold sys_effect in H.
  destruct (_ || _); [exact (New false H)|].
  destruct (_ =? _); [exact (New _ H)|].
  destruct (_ =? _); [exact (New _ H)|].
  destruct (_ =? _); [injection H as <- _; apply Uids; [apply put_uids|reflexivity]|].
  destruct (_ && (_ && _ && _)); [injection H as <- _; apply Uids; [apply put_uids|reflexivity]|].
  destruct (_ && _).
  2:{ destruct (_ && _).
      2:{ assert (Dea : forall k, (apply_death w t k, @nil event) = (w', evs) ->
            sound w' /\ (w_next w <= w_next w')%nat /\
            (forall x, In x (w_threads w') -> t_uid x = w_next w \/ exists y, In y (w_threads w) /\ t_uid y = t_uid x)).
          { intros k E. injection E as <- _. split; [apply sound_death; exact S|]. split; [destruct k; cbn; lia|].
            intros x I. right. exists x. split; [|reflexivity]. apply death_in in I. apply I. }
          destruct (_ =? _); [exact (Dea _ H)|]. destruct (_ =? _); [exact (Dea _ H)|]. exact (Same H). }
      injection H as <- _. split; [apply sound_program; exact S|].
      split; [cbn; lia|]. intros x I. right. apply run_program_in in I.
      destruct I as [->|(I & _)]; [exists t|exists x]; auto. }
  destruct (attach_filter _ _ _ _) as [x|fs]; [exact (Same H)|].
  destruct (N.testbit _ _).
  - destruct (can_sync w t); [|exact (Same H)]. injection H as <- _. apply Uids; [|reflexivity].
    cbn [sync_threads w_threads]. rewrite map_map. apply map_ext. intros x.
    destruct (_ =? _); [|reflexivity]. cbv zeta. destruct (t_nnp t); reflexivity.
  - injection H as <- _. apply Uids; [apply put_uids|reflexivity].
Qed.

(** The task an event is about. *)
Definition gone (u : nat) (w : world) : Prop :=
  (u < w_next w)%nat /\ forall t, In t (w_threads w) -> t_uid t <> u.

Lemma wstep_sound : forall prof w o w' evs, sound w -> wstep prof w o = (w', evs) ->
  sound w' /\ (w_next w <= w_next w')%nat /\
  (forall x, In x (w_threads w') -> t_uid x = w_next w \/ exists y, In y (w_threads w) /\ t_uid y = t_uid x) /\
  (forall ev, In ev evs -> exists y, In y (w_threads w) /\ t_uid y = actor ev).
Proof.
  intros prof w o w' evs S H.
  assert (Old : forall w1, w_next w1 = w_next w -> sound w1 ->
    (forall x, In x (w_threads w1) -> exists y, In y (w_threads w) /\ t_uid y = t_uid x) ->
    sound w1 /\ (w_next w <= w_next w1)%nat /\
    (forall x, In x (w_threads w1) -> t_uid x = w_next w \/ exists y, In y (w_threads w) /\ t_uid y = t_uid x)).
  { intros w1 N S1 X. split; [exact S1|]. split; [lia|]. intros x I. right. apply X. exact I. }
  assert (Same := Old w eq_refl S (fun x I => ex_intro _ x (conj I eq_refl))).
  assert (Put : forall t1, sound (put_thread w t1) /\ (w_next w <= w_next (put_thread w t1))%nat /\
    (forall x, In x (w_threads (put_thread w t1)) -> t_uid x = w_next w \/ exists y, In y (w_threads w) /\ t_uid y = t_uid x)).
  { intros t1. apply Old; [reflexivity|apply sound_put; exact S|]. intros x I.
    apply (in_map t_uid) in I. rewrite put_uids in I. apply in_map_iff in I. destruct I as (y & E & I). eauto. }
  assert (Fil : forall f, sound (mkWorld (filter f (w_threads w)) (w_next w)) /\
    (w_next w <= w_next (mkWorld (filter f (w_threads w)) (w_next w)))%nat /\
    (forall x, In x (w_threads (mkWorld (filter f (w_threads w)) (w_next w))) ->
       t_uid x = w_next w \/ exists y, In y (w_threads w) /\ t_uid y = t_uid x)).
  { intros f. apply Old; [reflexivity|apply sound_filter; exact S|]. intros x I. cbn [w_threads] in I.
    apply filter_In in I. exists x. tauto. }
  assert (Dea : forall t k, sound (apply_death w t k) /\ (w_next w <= w_next (apply_death w t k))%nat /\
    (forall x, In x (w_threads (apply_death w t k)) -> t_uid x = w_next w \/ exists y, In y (w_threads w) /\ t_uid y = t_uid x)).
  { intros t [| |]; apply Fil. }
  destruct o as [u0 ps0 v0|u0 amb|u0 d0 o|u0 b|u0]; cbn [wstep] in H.
  - destruct (find_thread w u0) as [t|]; [|injection H as <- <-; repeat split; try apply Same; intros ? []].
    destruct (t_call t); injection H as <- <-; repeat split; try apply Same; try apply Put; intros ? [].
  - destruct (find_thread w u0) as [t|] eqn:F; [|injection H as <- <-; repeat split; try apply Same; intros ? []].
    apply find_thread_spec in F. destruct F as [It Ut].
    destruct (t_call t) as [ph|]; [|injection H as <- <-; repeat split; try apply Same; intros ? []].
    destruct (pledge_step prof amb t ph) as [s t'] eqn:P.
    assert (Cs : forall ev, In ev (step_calls t amb ph) -> exists y, In y (w_threads w) /\ t_uid y = actor ev).
    { intros ev I. pose proof (step_calls_form t amb ph) as Fm. rewrite Forall_forall in Fm.
      destruct (Fm _ I) as (d & ->). exists t. auto. }
    assert (Rest : forall r ins, (forall ev, In ev ins -> actor ev = u0) -> forall ev,
      In ev (step_calls t amb ph ++ ins ++ [EvReturned u0 (ph_promises ph) (ph_violation ph) r]) ->
      exists y, In y (w_threads w) /\ t_uid y = actor ev).
    { intros r ins X ev I. apply in_app_or in I. destruct I as [I|I]; [apply Cs; exact I|]. exists t.
      split; [exact It|]. rewrite Ut. apply in_app_or in I. destruct I as [I|[<-|[]]]; [|reflexivity].
      symmetry. apply X. exact I. }
    assert (Ins : forall ev, In ev (if Nat.eqb (length (t_filters t')) (length (t_filters t)) then []
        else [EvInstalled u0 (t_pid t) (t_tid t) (ph_promises ph) (ph_violation ph)]) -> actor ev = u0).
    { intros ev I. destruct (Nat.eqb _ _); [destruct I|]. destruct I as [<-|[]]. reflexivity. }
    destruct s as [ph'|[x|e| |k]]; injection H as <- <-;
      [destruct (Put (set_call t' (Some ph'))) as (X & Y & Z)
      |destruct (Put (set_call t' None)) as (X & Y & Z)..
      |destruct (Dea t k) as (X & Y & Z)];
      (split; [exact X|]); (split; [exact Y|]); (split; [exact Z|]); try exact Cs; apply Rest; exact Ins.
  - destruct (find_thread w u0) as [t|] eqn:F; [|injection H as <- <-; repeat split; try apply Same; intros ? []].
    apply find_thread_spec in F. destruct F as [It Ut].
    destruct (supervised_entry (o_sup o) (t_filters t) d0) as [|z|k].
    + destruct (sys_effect w t d0 o) as [w1 e1] eqn:Se. injection H as <- <-.
      destruct (sys_effect_sound _ _ _ _ _ _ S It Se) as (X & Y & Z).
      split; [exact X|]. split; [exact Y|]. split; [exact Z|].
      intros ev [<-|I]; [exists t; auto|]. apply sys_effect_events in Se.
      destruct Se as [->| ->]; [destruct I|]. destruct I as [<-|[]]. exists t. auto.
    + injection H as <- <-. destruct Same as (X & Y & Z). repeat (split; [assumption|]).
      intros ev [<-|[]]. exists t. auto.
    + injection H as <- <-. destruct (Dea t k) as (X & Y & Z). repeat (split; [assumption|]).
      intros ev [<-|[]]. exists t. auto.
  - destruct (find_thread w u0) as [t|]; injection H as <- <-; repeat split; try apply Same; try apply Put; intros ? [].
  - injection H as <- <-. destruct (Fil (fun t' => negb (Nat.eqb (t_uid t') u0))) as (X & Y & Z).
    repeat (split; [assumption|]). intros ? [].
Qed.

Lemma wstep_gone : forall prof w o w' evs u, sound w -> gone u w -> wstep prof w o = (w', evs) ->
  gone u w' /\ forall ev, In ev evs -> actor ev <> u.
Proof.
  intros prof w o w' evs u S [B G] H. destruct (wstep_sound _ _ _ _ _ S H) as (_ & L & T & A). split.
  - split; [lia|]. intros t I. destruct (T t I) as [E|(y & Iy & E)]; [lia|].
    rewrite <- E. apply G. exact Iy.
  - intros ev I. destruct (A ev I) as (y & Iy & E). rewrite <- E. apply G. exact Iy.
Qed.

Lemma wrun_sound : forall prof ops w w' tr, sound w -> wrun prof w ops = (w', tr) -> sound w'.
Proof.
  intros prof. induction ops as [|o ops IH]; intros w w' tr S H; cbn [wrun] in H.
  - injection H as <- _. exact S.
  - destruct (wstep prof w o) as [w1 e1] eqn:S1. destruct (wrun prof w1 ops) as [w2 e2] eqn:S2.
    injection H as <- _. apply (IH w1 w2 e2); [|exact S2]. apply (wstep_sound _ _ _ _ _ S S1).
Qed.

Lemma wrun_gone : forall prof ops w w' tr u, sound w -> gone u w -> wrun prof w ops = (w', tr) ->
  gone u w' /\ forall ev, In ev tr -> actor ev <> u.
Proof.
  intros prof. induction ops as [|o ops IH]; intros w w' tr u S G H; cbn [wrun] in H.
  - injection H as <- <-. split; [exact G|]. intros ev [].
  - destruct (wstep prof w o) as [w1 e1] eqn:S1. destruct (wrun prof w1 ops) as [w2 e2] eqn:S2.
    injection H as <- <-. destruct (wstep_gone _ _ _ _ _ _ S G S1) as [G1 A1].
    destruct (IH w1 w2 e2 u (proj1 (wstep_sound _ _ _ _ _ S S1)) G1 S2) as [G2 A2].
    split; [exact G2|]. intros ev I. apply in_app_or in I. destruct I as [I|I]; auto.
Qed.

Lemma c85 : forall prof w ops1 w1 tr1 o w2 evs ops2 w3 tr2 u d k t t',
  distinct w -> Forall (fun t => (t_uid t < w_next w)%nat) (w_threads w) ->
  wrun prof w ops1 = (w1, tr1) -> wstep prof w1 o = (w2, evs) -> wrun prof w2 ops2 = (w3, tr2) ->
  In (EvCall u d (Kill k)) evs -> In t (w_threads w1) -> t_uid t = u ->
  In t' (w_threads w1) -> (t' = t \/ k <> DeathThread /\ t_pid t' = t_pid t) ->
  (forall ev, In ev tr2 -> actor ev <> t_uid t') /\
  (forall x, In x (w_threads w3) -> t_uid x <> t_uid t').
Proof.
  intros prof w ops1 w1 tr1 o w2 evs ops2 w3 tr2 u d k t t' D B R1 S R2 Ek It Ut It' Ht.
  assert (S1 : sound w1) by (apply (wrun_sound prof ops1 w w1 tr1); [split; assumption|exact R1]).
  destruct (c85_step _ _ _ _ _ _ _ _ S Ek) as (t0 & s & I0 & U0 & _ & T).
  assert (t0 = t) as -> by (apply (nodup_same w1); [apply S1|assumption..|congruence]).
  assert (G : gone (t_uid t') w2).
  { destruct S1 as [D1 B1]. rewrite Forall_forall in B1. split.
    - apply Nat.lt_le_trans with (w_next w1); [apply B1; exact It'|].
      apply (wstep_sound prof w1 o w2 evs); [split; [exact D1|rewrite Forall_forall; exact B1]|exact S].
    - intros x Ix E. apply T in Ix. destruct Ix as [Ix X].
      assert (x = t') as -> by (apply (nodup_same w1); assumption).
      destruct Ht as [->|[Nk P]]; destruct k; congruence. }
  destruct (wrun_gone prof ops2 w2 w3 tr2 (t_uid t') (proj1 (wstep_sound _ _ _ _ _ S1 S)) G R2) as [G3 A].
  split; [exact A|apply G3].
Qed.

(** Nobody else disappears. *)
Lemma c85_only : forall prof w o w' evs t,
  wstep prof w o = (w', evs) -> In t (w_threads w) ->
  (forall t', In t' (w_threads w') -> t_uid t' <> t_uid t) ->
  o = ODie (t_uid t) \/
  (exists t0 d k, In t0 (w_threads w) /\ In (EvCall (t_uid t0) d (Kill k)) evs /\
     match k with DeathThread => t_uid t0 = t_uid t | _ => t_pid t0 = t_pid t end) \/
  (exists t0 d, In t0 (w_threads w) /\ In (EvCall (t_uid t0) d Proceed) evs /\
     (sd_nr d = SYS_exit /\ t_uid t0 = t_uid t \/ sd_nr d = SYS_exit_group /\ t_pid t0 = t_pid t \/
      (sd_nr d = SYS_execve \/ sd_nr d = SYS_execveat) /\ t_pid t0 = t_pid t /\ t_uid t0 <> t_uid t)).
Proof.
  intros prof w o w' evs t H It G.
  assert (Uids : incl (map t_uid (w_threads w)) (map t_uid (w_threads w')) -> False).
  { intros X. apply (in_map t_uid) in It. apply X in It. apply in_map_iff in It.
    destruct It as (y & E & I). exact (G y I E). }
  assert (Same : w = w' -> False) by (intros ->; apply Uids; apply incl_refl).
  assert (Put : forall t1, put_thread w t1 = w' -> False).
  { intros t1 <-. apply Uids. rewrite put_uids. apply incl_refl. }
  assert (Dea : forall t0 d k, In t0 (w_threads w) -> apply_death w t0 k = w' ->
    In (EvCall (t_uid t0) d (Kill k)) evs ->
    exists t0 d k, In t0 (w_threads w) /\ In (EvCall (t_uid t0) d (Kill k)) evs /\
      match k with DeathThread => t_uid t0 = t_uid t | _ => t_pid t0 = t_pid t end).
  { intros t0 d k I0 E Ek. exists t0, d, k. split; [exact I0|]. split; [exact Ek|].
    assert (X : ~ In t (w_threads w')) by (intros X; exact (G t X eq_refl)).
    rewrite <- E, death_in in X. destruct k.
    - destruct (N.eq_dec (t_pid t0) (t_pid t)) as [Q|Q]; [exact Q|]. exfalso. apply X. split; [exact It|]. congruence.
    - destruct (Nat.eq_dec (t_uid t0) (t_uid t)) as [Q|Q]; [exact Q|]. exfalso. apply X. split; [exact It|]. congruence.
    - destruct (N.eq_dec (t_pid t0) (t_pid t)) as [Q|Q]; [exact Q|]. exfalso. apply X. split; [exact It|]. congruence. }
  destruct o as [u0 ps0 v0|u0 amb|u0 d0 o|u0 b|u0]; cbn [wstep] in H.
  - exfalso. destruct (find_thread w u0) as [t0|]; [|injection H as E _; exact (Same E)].
    destruct (t_call t0); injection H as E _; [exact (Same E)|exact (Put _ E)].
  - destruct (find_thread w u0) as [t0|] eqn:F; [|injection H as E _; destruct (Same E)].
    apply find_thread_spec in F. destruct F as [I0 U0].
    destruct (t_call t0) as [ph|]; [|injection H as E _; destruct (Same E)].
    destruct (pledge_step prof amb t0 ph) as [s t'] eqn:P.
    destruct s as [ph'|[x|e| |k]]; injection H as E Ev; try (destruct (Put _ E)).
    right. left. destruct (died_event _ _ _ _ _ _ P) as (d & Ed).
    apply (Dea t0 d k I0 E). rewrite <- Ev. exact Ed.
  - destruct (find_thread w u0) as [t0|] eqn:F; [|injection H as E _; destruct (Same E)].
    apply find_thread_spec in F. destruct F as [I0 U0].
    destruct (supervised_entry (o_sup o) (t_filters t0) d0) as [|z|k].
    + destruct (sys_effect w t0 d0 o) as [w1 e1] eqn:Se. injection H as <- <-.
      assert (Dy : forall k, apply_death w t0 k = w1 ->
        match k with DeathThread => t_uid t0 = t_uid t | _ => t_pid t0 = t_pid t end).
      { intros k E. assert (X : ~ In t (w_threads w1)) by (intros X; exact (G t X eq_refl)).
        rewrite <- E, death_in in X.
        destruct k; [destruct (N.eq_dec (t_pid t0) (t_pid t)) as [Q|Q]|destruct (Nat.eq_dec (t_uid t0) (t_uid t)) as [Q|Q]|
                     destruct (N.eq_dec (t_pid t0) (t_pid t)) as [Q|Q]]; try exact Q;
          exfalso; apply X; (split; [exact It|]); congruence. }
      assert (Ex : sd_nr d0 = SYS_exit /\ apply_death w t0 DeathThread = w1 \/
                   sd_nr d0 = SYS_exit_group /\ apply_death w t0 DeathProcess = w1 \/
                   (sd_nr d0 = SYS_execve \/ sd_nr d0 = SYS_execveat) /\ run_program w t0 = w1 \/
                   incl (map t_uid (w_threads w)) (map t_uid (w_threads w1))).
      { clear - Se. unfold sys_effect in Se.
        assert (New : forall b : bool,
          (if o_refuse o then (w, [])
           else (spawn w t0 (if b then t_pid t0 else o_newid o) (o_newid o), [EvSpawn (t_uid t0) (w_next w)])) = (w1, e1) ->
          incl (map t_uid (w_threads w)) (map t_uid (w_threads w1))).
        { intros b E. destruct (o_refuse o); injection E as <- _; [apply incl_refl|].
          cbn [spawn w_threads map]. apply incl_tl, incl_refl. }
        destruct (_ || _); [do 3 right; exact (New false Se)|].
        destruct (_ =? _); [do 3 right; exact (New _ Se)|].
        destruct (_ =? _); [do 3 right; exact (New _ Se)|].
        destruct (_ =? _); [do 3 right; injection Se as <- _; rewrite put_uids; apply incl_refl|].
        destruct (_ && (_ && _ && _)); [do 3 right; injection Se as <- _; rewrite put_uids; apply incl_refl|].
        destruct (_ && _).
        2:{ destruct ((_ || _) && _) eqn:X.
            2:{ destruct (N.eqb_spec (sd_nr d0) SYS_exit) as [Y|_]; [injection Se as <- _; auto|].
                destruct (N.eqb_spec (sd_nr d0) SYS_exit_group) as [Y|_]; injection Se as <- _; [auto|].
                do 3 right. apply incl_refl. }
            injection Se as <- _. right. right. left.
            apply andb_true_iff in X. destruct X as [X _]. apply orb_true_iff in X. rewrite !N.eqb_eq in X. auto. }
        do 3 right. destruct (attach_filter _ _ _ _) as [x|fs]; [injection Se as <- _; apply incl_refl|].
        destruct (N.testbit _ _).
        * destruct (can_sync w t0); injection Se as <- _; [|apply incl_refl].
          cbn [sync_threads w_threads]. rewrite map_map. intros y I.
          erewrite map_ext; [exact I|]. intros x.
          destruct (_ =? _); [|reflexivity]. cbv zeta. destruct (t_nnp t0); reflexivity.
        * injection Se as <- _. rewrite put_uids. apply incl_refl. }
      right. right. exists t0, d0. split; [exact I0|]. split; [left; rewrite U0; reflexivity|].
      destruct Ex as [[Nr Er]|[[Nr Er]|[[Nr Er]|Ex]]]; [left| |right; right|destruct (Uids Ex)].
      { split; [exact Nr|exact (Dy _ Er)]. }
      { right. left. split; [exact Nr|exact (Dy _ Er)]. }
      split; [exact Nr|]. subst w1.
      assert (Nu : t_uid t0 <> t_uid t).
      { intros E. apply (G (exec_thread t0)); [|exact E]. apply run_program_kept; auto. }
      split; [|exact Nu]. destruct (N.eq_dec (t_pid t0) (t_pid t)) as [Q|Q]; [exact Q|exfalso].
      apply (G t); [|reflexivity]. apply run_program_kept; [exact I0|]. right. auto.
    + injection H as E _. destruct (Same E).
    + injection H as E Ev. right. left. apply (Dea t0 d0 k I0 E). rewrite <- Ev, U0. left. reflexivity.
  - exfalso. destruct (find_thread w u0) as [t0|]; injection H as E _; [exact (Put _ E)|exact (Same E)].
  - injection H as E _. left. destruct (Nat.eq_dec u0 (t_uid t)) as [Q|Q]; [congruence|exfalso].
    apply (G t); [|reflexivity]. rewrite <- E. cbn [drop_thread w_threads]. apply filter_In.
    split; [exact It|]. apply negb_true_iff, Nat.eqb_neq. congruence.
Qed.

(** * Violations that kill *)

Lemma rank_nonpos : forall s r, (action_rank r <= 0)%Z ->
  entry_under s r = Kill DeathThread \/ entry_under s r = Kill DeathProcess.
Proof.
  intros s r H. unfold entry_under, entry_of. unfold action_rank in H. cbv zeta in H.
  revert H. generalize (action_bits r). intros b H.
  destruct (N.eq_dec b 0) as [->|Z]; [left; reflexivity|right].
  assert (L : 2 ^ 31 <= b).
  { destruct (Z.ltb_spec (Z.of_N b) (2 ^ 31)); [lia|]. change (2 ^ 31)%Z with (Z.of_N (2 ^ 31)) in *. lia. }
  destruct (N.eq_dec b 0x7fff0000) as [->|E1]; [vm_compute in L; congruence|].
  destruct (N.eq_dec b 0x7ffc0000) as [->|E2]; [vm_compute in L; congruence|].
  destruct (N.eq_dec b 0x7ff00000) as [->|E3]; [vm_compute in L; congruence|].
  destruct (N.eq_dec b 0x7fc00000) as [->|E4]; [vm_compute in L; congruence|].
  destruct (N.eq_dec b 0x00030000) as [->|E5]; [vm_compute in L; congruence|].
  destruct (N.eq_dec b 0x00050000) as [->|E6]; [vm_compute in L; congruence|].
  clear - Z E1 E2 E3 E4 E5 E6.
  repeat match goal with
  | |- (match ?c with _ => _ end) = _ => is_var c; destruct c
  end; congruence.
Qed.
Lemma rank_lowest : forall s r, (action_rank r = - 2 ^ 31)%Z -> entry_under s r = Kill DeathProcess.
Proof.
  intros s r H. destruct (rank_nonpos s r) as [E|E]; [lia| |exact E].
  exfalso. unfold action_rank in H. cbv zeta in H.
  unfold entry_under, entry_of in E. revert H E. generalize (action_bits r). intros b H E.
  assert (b = 2 ^ 31) as ->; [|discriminate E].
  destruct (Z.ltb_spec (Z.of_N b) (2 ^ 31)); [lia|]. lia.
Qed.

Lemma kill_entry : forall prof pid tid ps v prog fs s d,
  filter_for prof pid tid ps v prog -> v = KillThread \/ v = KillProcess -> wf_data d -> In prog fs ->
  ~ (sd_arch d = X86_64 /\ granted ps pid tid d) ->
  exists k, supervised_entry s fs d = Kill k /\ (k = DeathThread \/ k = DeathProcess) /\
            (v = KillProcess -> k = DeathProcess).
Proof.
  intros prof pid tid ps v prog fs s d H Hv Hd I G. apply (for_acts _ _ _ _ _ _ d) in H.
  rewrite supervised_nonempty by (intros ->; exact I).
  destruct (run_min d fs 0x7fff0000) as [_ M]. specialize (M prog I). fold run_filters in M.
  assert (X : (action_rank (kernel_eval prog d) <= 0)%Z /\
              (v = KillProcess -> action_rank (kernel_eval prog d) = - 2 ^ 31)%Z).
  { destruct (N.eq_dec (sd_arch d) X86_64) as [Ha|Ha].
    - destruct (verdict_at _ _ _ _ _ _ H (conj Hd Ha)) as [_ V]. rewrite V by tauto.
      destruct Hv as [-> | ->]; split; try discriminate; try reflexivity; vm_compute; discriminate.
    - destruct (c16_at pid tid ps v prog d H Hd Ha) as [K _]. rewrite K.
      split; [vm_compute; discriminate|reflexivity]. }
  destruct X as [X Y]. pose proof (action_rank_min (run_filters fs d)) as Mn.
  destruct (rank_nonpos s (run_filters fs d)) as [E|E]; [lia| |];
    (eexists; split; [exact E|]); (split; [tauto|]); intros Hk; try reflexivity.
  specialize (Y Hk). rewrite rank_lowest in E; [congruence|]. lia.
Qed.

Lemma find_thread_in : forall w t, distinct w -> In t (w_threads w) -> find_thread w (t_uid t) = Some t.
Proof.
  intros w t D I. destruct (find_thread w (t_uid t)) as [t1|] eqn:F.
  - apply find_thread_spec in F. destruct F as [I1 U1]. f_equal. exact (nodup_same w t t1 D I I1 U1).
  - exfalso. unfold find_thread in F. apply (find_none _ _ F) in I. rewrite Nat.eqb_refl in I. discriminate.
Qed.

Lemma c85_violation : forall prof pid tid ps v prog w t d o w' evs,
  distinct w -> In t (w_threads w) ->
  filter_for prof pid tid ps v prog -> In prog (t_filters t) -> v = KillThread \/ v = KillProcess ->
  wf_data d -> ~ (sd_arch d = X86_64 /\ granted ps pid tid d) ->
  wstep prof w (OSys (t_uid t) d o) = (w', evs) ->
  (exists k, evs = [EvCall (t_uid t) d (Kill k)]) /\
  (forall x, In x (w_threads w') -> In x (w_threads w) /\ x <> t) /\
  (v = KillProcess -> forall x, In x (w_threads w') <-> In x (w_threads w) /\ t_pid x <> t_pid t).
Proof.
  intros prof pid tid ps v prog w t d o w' evs D It H Ip Hv Hd G St.
  destruct (kill_entry prof pid tid ps v prog (t_filters t) (o_sup o) d H Hv Hd Ip G) as (k & E & _ & Kp).
  cbn [wstep] in St. rewrite (find_thread_in w t D It) in St.
  rewrite E in St. injection St as <- <-. split; [eauto|]. split.
  - intros x Ix. apply death_in in Ix. destruct Ix as [Ix X]. split; [exact Ix|].
    intros ->. destruct k; congruence.
  - intros Hk x. rewrite death_in. rewrite (Kp Hk). reflexivity.
Qed.
