(** Programs run by execve and execveat (C114). *)
From Coq Require Import NArith ZArith String List Bool Lia.
From Verif Require Import Libc Machine Bpf SeccompRet Asm Vm Promises Filters Kernel World Spec.
From Verif Require Import FragProofs PolicyProofs CodeProofs PledgeProofs StackProofs WorldProofs HistoryProofs DeathProofs
  LiveProofs PolicyFacts ExactFacts.
Import ListNotations.
Local Open Scope N_scope.

Lemma find_distinct : forall w t, distinct w -> In t (w_threads w) -> find_thread w (t_uid t) = Some t.
Proof.
  intros w t D I. destruct (find_thread w (t_uid t)) as [t'|] eqn:F.
  - apply find_thread_spec in F. destruct F as [I' U]. f_equal. apply (nodup_same w); assumption.
  - exfalso. unfold find_thread in F. apply (find_none _ _ F) in I. rewrite Nat.eqb_refl in I. discriminate.
Qed.

Lemma exec_step : forall prof w t d o w' evs,
  distinct w -> In t (w_threads w) -> sd_nr d = 59 \/ sd_nr d = 322 -> o_refuse o = false ->
  supervised_entry (o_sup o) (t_filters t) d = Proceed -> wstep prof w (OSys (t_uid t) d o) = (w', evs) ->
  w' = run_program w t /\ evs = [EvCall (t_uid t) d Proceed].
Proof.
  intros prof w t d o w' evs D It Nr Rf P H. cbn [wstep] in H. rewrite (find_distinct w t D It), P in H.
  assert (R : sys_effect w t d o = (run_program w t, [])).
  { unfold sys_effect. destruct Nr as [-> | ->]; cbn; rewrite Rf; reflexivity. }
  rewrite R in H. injection H as <- <-. auto.
Qed.

Lemma c114_step : forall prof w t d o w' evs,
  distinct w -> In t (w_threads w) -> sd_nr d = 59 \/ sd_nr d = 322 -> o_refuse o = false ->
  supervised_entry (o_sup o) (t_filters t) d = Proceed -> wstep prof w (OSys (t_uid t) d o) = (w', evs) ->
  evs = [EvCall (t_uid t) d Proceed] /\
  forall x, In x (w_threads w') <->
    x = mkThread (t_uid t) (t_pid t) (t_pid t) (t_nnp t) (t_cap t) (t_filters t) None \/
    (In x (w_threads w) /\ t_pid x <> t_pid t).
Proof.
  intros prof w t d o w' evs D It Nr Rf P H.
  destruct (exec_step _ _ _ _ _ _ _ D It Nr Rf P H) as [-> ->]. split; [reflexivity|]. intros x. split.
  - intros I. apply run_program_in in I. destruct I as [->|(I & _ & N)]; [left; reflexivity|right; auto].
  - intros [->|(I & N)]; (apply run_program_kept; [exact It|]); [left; reflexivity|right].
    split; [exact I|]. split; [|exact N]. intros U. apply N. f_equal. apply (nodup_same w); assumption.
Qed.

Lemma c114_refused : forall prof w t d o w' evs,
  distinct w -> In t (w_threads w) -> sd_nr d = 59 \/ sd_nr d = 322 ->
  (o_refuse o = true /\ supervised_entry (o_sup o) (t_filters t) d = Proceed) \/
  (exists z, supervised_entry (o_sup o) (t_filters t) d = Fake z) ->
  wstep prof w (OSys (t_uid t) d o) = (w', evs) -> w' = w.
Proof.
  intros prof w t d o w' evs D It Nr Rf H. cbn [wstep] in H. rewrite (find_distinct w t D It) in H.
  destruct Rf as [[Rf P]|(z & P)]; rewrite P in H; [|congruence].
  assert (R : sys_effect w t d o = (w, [])).
  { unfold sys_effect. destruct Nr as [-> | ->]; cbn; rewrite Rf; reflexivity. }
  rewrite R in H. congruence.
Qed.

Lemma c114_needs : forall prof w ops w' tr tr1 u pid tid ps v mid u' d rest,
  fresh_world w -> wrun prof w ops = (w', tr) ->
  tr = tr1 ++ EvInstalled u pid tid ps v :: mid ++ EvCall u' d Proceed :: rest ->
  hard v \/ (enforcing v /\ Forall unsupervised ops) ->
  In u' (descendants [u] mid) -> wf_data d -> sd_nr d = 59 \/ sd_nr d = 322 -> In Exec ps.
Proof.
  intros prof w ops w' tr tr1 u pid tid ps v mid u' d rest F R E Hv De Wd Nr.
  destruct (c40 _ _ _ _ _ _ _ _ _ _ _ _ F R E Hv) as (pids & tids & _ & _ & _ & _ & K).
  destruct (K mid u' d rest eq_refl De Wd) as (_ & p & t & _ & _ & G).
  destruct Nr as [Nr|Nr].
  - row SYS_execve X. apply (X _ _ _ _ Nr) in G. unpromise. tauto.
  - row SYS_execveat X. apply (X _ _ _ _ Nr) in G. unpromise. tauto.
Qed.

Lemma c114_self : forall prof ps v prog w t o e w' evs t' d,
  distinct w -> In t (w_threads w) -> t_filters t = [prog] -> filter_for prof (t_pid t) (t_tid t) ps v prog ->
  enforcing v -> In StdIO ps -> ~ In Proc ps -> word (t_pid t) -> word (t_tid t) ->
  sd_nr e = 59 \/ sd_nr e = 322 -> o_refuse o = false ->
  wstep prof w (OSys (t_uid t) e o) = (w', evs) -> In (EvCall (t_uid t) e Proceed) evs ->
  In t' (w_threads w') -> t_uid t' = t_uid t -> native d ->
  (sd_nr d = SYS_kill -> sd_a0 d = t_pid t' -> syscall_entry (t_filters t') d = Proceed) /\
  (sd_nr d = SYS_tkill -> sd_a0 d = t_tid t' ->
   (syscall_entry (t_filters t') d = Proceed <-> t_tid t = t_pid t)).
Proof.
  intros prof ps v prog w t o e w' evs t' d D It Fs Ff Hv Ip Np Wp Wt Nr Rf H Ev It' Ut Nd.
  assert (P : supervised_entry (o_sup o) (t_filters t) e = Proceed).
  { cbn [wstep] in H. rewrite (find_distinct w t D It) in H.
    destruct (supervised_entry (o_sup o) (t_filters t) e); [reflexivity| |]; injection H as _ <-;
      destruct Ev as [Ev|[]]; discriminate. }
  destruct (exec_step _ _ _ _ _ _ _ D It Nr Rf P H) as [-> _].
  assert (t' = exec_thread t) as ->.
  { apply run_program_in in It'. destruct It' as [E|(_ & N & _)]; [exact E|contradiction]. }
  cbn [exec_thread t_filters t_pid t_tid]. rewrite Fs.
  change (syscall_entry [prog] d = Proceed) with (proceeds prog d).
  destruct (c96 _ _ _ _ _ _ _ Ff Hv Nd) as (K1 & K2 & _).
  unfold word in Wp, Wt. split.
  - intros Hn Ha. apply (K1 Hn). left. split; [exact Ip|]. rewrite Ha. apply N.mod_small. exact Wp.
  - intros Hn Ha. rewrite (K2 Hn), Ha, !N.mod_small by assumption. split.
    + intros [[_ E]|E]; [symmetry; exact E|contradiction].
    + intros E. left. split; [exact Ip|symmetry; exact E].
Qed.

Lemma c114_abandoned : forall prof w ops1 w1 tr1 t d o w2 evs ops2 w3 tr2,
  fresh_world w -> distinct w -> wrun prof w ops1 = (w1, tr1) -> In t (w_threads w1) ->
  sd_nr d = 59 \/ sd_nr d = 322 -> o_refuse o = false ->
  wstep prof w1 (OSys (t_uid t) d o) = (w2, evs) -> In (EvCall (t_uid t) d Proceed) evs ->
  wrun prof w2 ops2 = (w3, tr2) -> (forall ps v, ~ In (OPledge (t_uid t) ps v) ops2) ->
  (forall ps v r, ~ In (EvReturned (t_uid t) ps v r) tr2) /\
  (forall pid tid ps v, ~ In (EvInstalled (t_uid t) pid tid ps v) tr2).
Proof.
  intros prof w ops1 w1 tr1 t d o w2 evs ops2 w3 tr2 F D R1 It Nr Rf H Ev R2 Np.
  assert (S : sound w1) by (apply (wrun_sound prof ops1 w w1 tr1); [apply fresh_sound; assumption|exact R1]).
  assert (P : supervised_entry (o_sup o) (t_filters t) d = Proceed).
  { cbn [wstep] in H. rewrite (find_of w1 t S It) in H.
    destruct (supervised_entry (o_sup o) (t_filters t) d); [reflexivity| |]; injection H as _ <-;
      destruct Ev as [Ev|[]]; discriminate. }
  pose proof (proj1 (wstep_sound _ _ _ _ _ S H)) as S2.
  destruct (exec_step _ _ _ _ _ _ _ (proj1 S) It Nr Rf P H) as [-> _].
  assert (A : at_ (t_uid t) None (run_program w1 t)).
  { exists (exec_thread t). split; [apply run_program_kept; auto|split; reflexivity]. }
  assert (Np' : forall o, In o ops2 -> ~ starts (t_uid t) o).
  { intros x Ix (ps & v & ->). exact (Np ps v Ix). }
  destruct (idle_run _ _ _ _ _ _ S2 A R2 Np') as [X _].
  split; [intros ps v r J|intros pid tid ps v J]; exact (X _ J eq_refl).
Qed.
