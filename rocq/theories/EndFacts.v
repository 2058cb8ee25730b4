(** Threads and processes that end themselves (C115). *)
From Coq Require Import NArith ZArith String List Bool Lia.
From Verif Require Import Libc Machine Bpf SeccompRet Asm Vm Promises Filters Kernel World Spec.
From Verif Require Import FragProofs PolicyProofs CodeProofs PledgeProofs StackProofs WorldProofs HistoryProofs DeathProofs
  LiveProofs PolicyFacts ExactFacts ExecFacts.
Import ListNotations.
Local Open Scope N_scope.

Lemma all_allow : forall prof l fs s d, stack_with prof l fs -> native d ->
  (forall ps pid tid, granted ps pid tid d) -> supervised_entry s fs d = Proceed.
Proof.
  intros prof l fs s d St Nd G. destruct fs as [|f fs]; [reflexivity|].
  rewrite supervised_nonempty by discriminate.
  assert (R : run_filters (f :: fs) d = 0x7fff0000).
  { unfold run_filters. induction St as [|[ps v] g l gs W St IH]; [reflexivity|].
    cbn [run_filters_from]. destruct (with_acts _ _ _ _ _ d W) as (pid & tid & A).
    rewrite (proj1 (verdict_at _ _ _ _ _ _ A Nd) (G ps pid tid)).
    rewrite Z.ltb_irrefl. exact IH. }
  rewrite R. reflexivity.
Qed.
Lemma exit_granted : forall d, sd_nr d = SYS_exit -> forall ps pid tid, granted ps pid tid d.
Proof. intros d Hn ps pid tid. row SYS_exit R. rewrite (R _ _ _ _ Hn). unfold promised. tauto. Qed.

Lemma exit_proceeds : forall prof l fs s d, stack_with prof l fs -> native d -> sd_nr d = SYS_exit ->
  supervised_entry s fs d = Proceed.
Proof. intros prof l fs s d St Nd Hn. exact (all_allow prof l fs s d St Nd (exit_granted d Hn)). Qed.

Lemma exit_step : forall prof l w t d o w' evs,
  distinct w -> In t (w_threads w) -> stack_with prof l (t_filters t) -> native d -> sd_nr d = SYS_exit ->
  wstep prof w (OSys (t_uid t) d o) = (w', evs) ->
  w' = apply_death w t DeathThread /\ evs = [EvCall (t_uid t) d Proceed].
Proof.
  intros prof l w t d o w' evs D It St Nd Hn H. cbn [wstep] in H.
  rewrite (find_distinct w t D It), (exit_proceeds prof l _ _ d St Nd Hn) in H.
  assert (R : sys_effect w t d o = (apply_death w t DeathThread, [])) by (unfold sys_effect; rewrite Hn; reflexivity).
  rewrite R in H. injection H as <- <-. auto.
Qed.

Lemma c115_exit : forall prof l w t d o w' evs,
  distinct w -> In t (w_threads w) -> stack_with prof l (t_filters t) -> native d -> sd_nr d = SYS_exit ->
  wstep prof w (OSys (t_uid t) d o) = (w', evs) ->
  evs = [EvCall (t_uid t) d Proceed] /\
  forall x, In x (w_threads w') <-> In x (w_threads w) /\ t_uid x <> t_uid t.
Proof.
  intros prof l w t d o w' evs D It St Nd Hn H.
  destruct (exit_step _ _ _ _ _ _ _ _ D It St Nd Hn H) as [-> ->]. split; [reflexivity|].
  intros x. apply (death_in w t DeathThread x).
Qed.

Lemma c115_group : forall prof pledges w t d o w' evs,
  distinct w -> In t (w_threads w) -> stack_of prof pledges (t_filters t) ->
  Forall (fun i => enforcing (i_v i)) pledges -> o_sup o = nobody -> native d -> sd_nr d = SYS_exit_group ->
  wstep prof w (OSys (t_uid t) d o) = (w', evs) ->
  (In (EvCall (t_uid t) d Proceed) evs <-> Forall (fun i => In StdIO (i_ps i)) pledges) /\
  (In (EvCall (t_uid t) d Proceed) evs ->
   forall x, In x (w_threads w') <-> In x (w_threads w) /\ t_pid x <> t_pid t).
Proof.
  intros prof pledges w t d o w' evs D It St Hv So Nd Hn H.
  pose proof (c97 prof pledges (t_filters t) d St Hv Nd) as C.
  assert (G : Forall (fun i => granted (i_ps i) (i_pid i) (i_tid i) d) pledges <->
              Forall (fun i => In StdIO (i_ps i)) pledges).
  { row SYS_exit_group R. split; apply Forall_impl; intros i; rewrite (R _ _ _ _ Hn); unpromise; tauto. }
  cbn [wstep] in H. rewrite (find_distinct w t D It), So in H.
  rewrite supervised_nobody in H.
  rewrite <- G, <- C. clear C G.
  destruct (syscall_entry (t_filters t) d) as [|z|k] eqn:E.
  - assert (R : sys_effect w t d o = (apply_death w t DeathProcess, [])) by (unfold sys_effect; rewrite Hn; reflexivity).
    rewrite R in H. injection H as <- <-. split; [split; [reflexivity|left; reflexivity]|].
    intros _ x. apply (death_in w t DeathProcess x).
  - injection H as <- <-. split; [split; [intros [X|[]]|intros X]; discriminate X|intros [X|[]]; discriminate X].
  - injection H as <- <-. split; [split; [intros [X|[]]|intros X]; discriminate X|intros [X|[]]; discriminate X].
Qed.

Lemma exits_run : forall prof ds o ts w w' tr, distinct w ->
  (forall t, In t ts -> In t (w_threads w) /\ exists l, stack_with prof l (t_filters t)) ->
  NoDup (map t_uid ts) -> (forall u, native (ds u) /\ sd_nr (ds u) = SYS_exit) ->
  wrun prof w (map (fun t => OSys (t_uid t) (ds (t_uid t)) o) ts) = (w', tr) ->
  (forall x, In x (w_threads w') <-> In x (w_threads w) /\ ~ In (t_uid x) (map t_uid ts)) /\
  tr = map (fun t => EvCall (t_uid t) (ds (t_uid t)) Proceed) ts.
Proof.
  intros prof ds o. induction ts as [|t ts IH]; intros w w' tr D Hs Nd Hd H; cbn [map wrun] in H.
  - injection H as <- <-. cbn [map In]. split; [tauto|reflexivity].
  - destruct (wstep prof w (OSys (t_uid t) (ds (t_uid t)) o)) as [w1 e1] eqn:S1.
    destruct (wrun prof w1 (map (fun t => OSys (t_uid t) (ds (t_uid t)) o) ts)) as [w2 e2] eqn:S2.
    injection H as <- <-. destruct (Hs t (or_introl eq_refl)) as (It & l & St). destruct (Hd (t_uid t)) as [N1 N2].
    destruct (exit_step _ _ _ _ _ _ _ _ D It St N1 N2 S1) as [-> ->].
    cbn [map] in Nd. inversion Nd as [|? ? Nt Nts]. subst.
    assert (D1 : distinct (apply_death w t DeathThread)).
    { unfold distinct in *. cbn [apply_death drop_thread w_threads]. clear - D.
      induction (w_threads w) as [|x xs IHx]; [constructor|]. cbn [map] in D. inversion D as [|? ? Dx Dxs]. subst.
      cbn [filter]. destruct (negb _); [|exact (IHx Dxs)]. cbn [map]. constructor; [|exact (IHx Dxs)].
      intros I. apply Dx. apply in_map_iff in I. destruct I as (y & <- & I). apply filter_In in I. apply in_map, I. }
    destruct (IH _ w2 e2 D1) as [A B]; [|exact Nts|exact Hd|exact S2|].
    + intros x Ix. destruct (Hs x (or_intror Ix)) as [Iw X]. split; [|exact X].
      apply (death_in w t DeathThread x). split; [exact Iw|]. intros U. apply Nt. rewrite <- U. apply in_map. exact Ix.
    + split; [|rewrite B; reflexivity]. intros x. rewrite A, (death_in w t DeathThread x). cbn [map In]. split.
      * intros [[I1 I2] I3]. split; [exact I1|]. intros [X|X]; [congruence|contradiction].
      * intros [I1 I2]. split; [split; [exact I1|]|]; intros X; apply I2; [left; congruence|right; exact X].
Qed.

Lemma c115_all : forall prof w pid ds o w' tr,
  distinct w ->
  (forall t, In t (w_threads w) -> t_pid t = pid -> exists l, stack_with prof l (t_filters t)) ->
  (forall u, native (ds u) /\ sd_nr (ds u) = SYS_exit) ->
  wrun prof w (map (fun t => OSys (t_uid t) (ds (t_uid t)) o)
                   (filter (fun t => t_pid t =? pid) (w_threads w))) = (w', tr) ->
  (forall x, In x (w_threads w') <-> In x (w_threads w) /\ t_pid x <> pid) /\
  (forall ev, In ev tr -> exists u, ev = EvCall u (ds u) Proceed).
Proof.
  intros prof w pid ds o w' tr D Hs Hd H.
  destruct (exits_run prof ds o (filter (fun t => t_pid t =? pid) (w_threads w)) w w' tr D) as [A B]; [| |exact Hd|exact H|].
  - intros t I. apply filter_In in I. destruct I as [I P]. apply N.eqb_eq in P. split; [exact I|exact (Hs t I P)].
  - clear - D. unfold distinct in D. induction (w_threads w) as [|x xs IHx]; [constructor|]. cbn [map] in D.
    inversion D as [|? ? Dx Dxs]. subst. cbn [filter]. destruct (_ =? _); [|exact (IHx Dxs)]. cbn [map].
    constructor; [|exact (IHx Dxs)]. intros I. apply Dx. apply in_map_iff in I. destruct I as (y & <- & I).
    apply filter_In in I. apply in_map, I.
  - split.
    + intros x. rewrite A. split; intros [I N]; (split; [exact I|]).
      * intros P. apply N, in_map, filter_In. split; [exact I|apply N.eqb_eq; exact P].
      * intros J. apply in_map_iff in J. destruct J as (y & U & J). apply filter_In in J. destruct J as [J P].
        apply N.eqb_eq in P. apply N. rewrite <- P. f_equal. apply (nodup_same w); try assumption. symmetry. exact U.
    + intros ev I. rewrite B in I. apply in_map_iff in I. destruct I as (t & <- & _). exists (t_uid t). reflexivity.
Qed.

Lemma c115_after : forall prof w ops1 w1 tr1 t d o w2 evs ops2 w3 tr2 x,
  fresh_world w -> distinct w -> wrun prof w ops1 = (w1, tr1) -> In t (w_threads w1) ->
  wstep prof w1 (OSys (t_uid t) d o) = (w2, evs) -> In (EvCall (t_uid t) d Proceed) evs ->
  wrun prof w2 ops2 = (w3, tr2) -> In x (w_threads w1) ->
  sd_nr d = SYS_exit /\ x = t \/ sd_nr d = SYS_exit_group /\ t_pid x = t_pid t ->
  (forall ev, In ev tr2 -> actor ev <> t_uid x) /\ (forall y, In y (w_threads w3) -> t_uid y <> t_uid x).
Proof.
  intros prof w ops1 w1 tr1 t d o w2 evs ops2 w3 tr2 x F D R1 It H Ev R2 Ix Hx.
  assert (S : sound w1) by (apply (wrun_sound prof ops1 w w1 tr1); [apply fresh_sound; assumption|exact R1]).
  pose proof (proj1 (wstep_sound _ _ _ _ _ S H)) as S2.
  assert (Gn : exists k, w2 = apply_death w1 t k /\
                 match k with DeathThread => t_uid x = t_uid t | _ => t_pid x = t_pid t end).
  { cbn [wstep] in H. rewrite (find_of w1 t S It) in H.
    destruct (supervised_entry (o_sup o) (t_filters t) d).
    - destruct (sys_effect w1 t d o) as [wa ea] eqn:Se. injection H as <- _. unfold sys_effect in Se.
      destruct Hx as [[Hn ->]|[Hn P]]; rewrite Hn in Se; injection Se as <- _.
      + exists DeathThread. split; reflexivity.
      + exists DeathProcess. split; [reflexivity|exact P].
    - injection H as _ <-. destruct Ev as [Ev|[]]. discriminate.
    - injection H as _ <-. destruct Ev as [Ev|[]]. discriminate. }
  destruct Gn as (k & -> & K).
  assert (G : gone (t_uid x) (apply_death w1 t k)).
  { split.
    - replace (w_next (apply_death w1 t k)) with (w_next w1) by (destruct k; reflexivity).
      destruct S as [_ B]. rewrite Forall_forall in B. apply B. exact Ix.
    - intros y Iy Uy. apply death_in in Iy. destruct Iy as [Iy Y].
      assert (y = x) as -> by (apply (nodup_same w1); [apply S|assumption..]). destruct k; congruence. }
  destruct (wrun_gone _ _ _ _ _ _ S2 G R2) as [[_ G2] A]. split; [exact A|exact G2].
Qed.
