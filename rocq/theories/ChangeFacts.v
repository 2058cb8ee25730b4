(** What changes a thread (C117). *)
From Coq Require Import NArith ZArith String List Bool Lia.
From Verif Require Import Libc Machine Bpf SeccompRet Asm Vm Promises Filters Kernel World Spec.
From Verif Require Import FragProofs PolicyProofs CodeProofs PledgeProofs StackProofs WorldProofs HistoryProofs DeathProofs
  LiveProofs.
Import ListNotations.
Local Open Scope N_scope.

Definition kept_ids (t x : thread) : Prop := t_pid x = t_pid t /\ t_tid x = t_tid t /\ t_cap x = t_cap t.
Definition untouched (t x : thread) : Prop := kept_ids t x /\ t_nnp x = t_nnp t /\ t_filters x = t_filters t.

(** A call of [c] that sets the filters of [t], as [x] has them. *)
Definition filtered (c t x : thread) (d : seccomp_data) : Prop :=
  (asks_for_strict_mode d /\ c = t /\ t_filters t = [] /\ t_filters x = [strict_mode]) \/
  (exists prog, asks_for_filter d /\ (c = t \/ t_pid c = t_pid t /\ asks_for_all_threads d) /\
     (t_nnp c = true \/ t_cap c = true) /\ kernel_accepts prog = true /\ t_filters x = prog :: t_filters c).
Definition raised (c t x : thread) (d : seccomp_data) : Prop :=
  t_nnp x = t_nnp t \/ t_nnp x = true /\ t_nnp c = true /\ t_pid c = t_pid t /\ asks_for_all_threads d.

Definition changed (w : world) (o : op) (evs : list event) (t x : thread) : Prop :=
  untouched t x \/
  (o = OCap (t_uid t) (t_cap x) /\ t_pid x = t_pid t /\ t_tid x = t_tid t /\ t_nnp x = t_nnp t /\
     t_filters x = t_filters t) \/
  (exists d, In (EvCall (t_uid t) d Proceed) evs /\ asks_for_no_new_privs d /\ t_nnp x = true /\ kept_ids t x /\
     t_filters x = t_filters t) \/
  (exists c d, In c (w_threads w) /\ In (EvCall (t_uid c) d Proceed) evs /\ filtered c t x d /\ raised c t x d /\
     kept_ids t x) \/
  (exists d, In (EvCall (t_uid t) d Proceed) evs /\ (sd_nr d = 59 \/ sd_nr d = 322) /\ t_pid x = t_pid t /\
     t_tid x = t_pid t /\ t_cap x = t_cap t /\ t_nnp x = t_nnp t /\ t_filters x = t_filters t).

Lemma untouched_refl : forall t, untouched t t.
Proof. intros t. repeat split. Qed.

Lemma attach_privileged : forall oom nnp cap fs prog fs', attach_filter oom (nnp || cap) fs prog = inr fs' ->
  (nnp = true \/ cap = true) /\ kernel_accepts prog = true /\ fs' = prog :: fs.
Proof.
  intros oom nnp cap fs prog fs' H. apply attach_accepted in H. destruct H as (K & E & P).
  apply orb_true_iff in P. auto.
Qed.

(** The task a put leaves under a name. *)
Lemma put_find : forall w t0 t1 t x, distinct w -> In t0 (w_threads w) -> t_uid t1 = t_uid t0 -> In t (w_threads w) ->
  In x (w_threads (put_thread w t1)) -> t_uid x = t_uid t -> (x = t1 /\ t = t0) \/ x = t.
Proof.
  intros w t0 t1 t x D I0 U1 It Ix U. apply put_thread_in in Ix. destruct Ix as [[-> _]|[Ix _]].
  - left. split; [reflexivity|]. apply (nodup_same w); [exact D|exact I0|exact It|congruence].
  - right. apply (nodup_same w); [exact D|exact It|exact Ix|exact U].
Qed.

Lemma strict_changed : forall w t d o evs, In t (w_threads w) -> asks_for_strict_mode d -> In (EvCall (t_uid t) d Proceed) evs ->
  changed w o evs t (snd (enter_strict t)).
Proof.
  intros w t d o evs It A Ev. unfold enter_strict. destruct (t_filters t) eqn:F; [|left; apply untouched_refl].
  right. right. right. left. exists t, d. split; [exact It|]. split; [exact Ev|].
  split; [left; split; [exact A|split; [reflexivity|split; [exact F|reflexivity]]]|].
  split; [left; reflexivity|repeat split].
Qed.

Lemma prctl_changed : forall w t d o evs oom prog, In t (w_threads w) -> sd_nr d = SYS_prctl ->
  In (EvCall (t_uid t) d Proceed) evs -> changed w o evs t (snd (kernel_prctl oom t d prog)).
Proof.
  intros w t d o evs oom prog It Nr Ev. unfold kernel_prctl.
  change (lo32 (sd_a0 d)) with (sd_a0 d mod 2 ^ 32).
  destruct (N.eqb_spec (sd_a0 d mod 2 ^ 32) PR_SET_SECCOMP) as [A0|A0].
  - destruct (N.eqb_spec (sd_a1 d) 2) as [A1|A1].
    + destruct (attach_filter _ _ _ _) as [e|fs] eqn:A; [left; apply untouched_refl|].
      apply attach_privileged in A. destruct A as (P & K & ->).
      right. right. right. left. exists t, d. split; [exact It|]. split; [exact Ev|].
      split; [right; exists prog|].
      * split; [left; split; [exact Nr|split; [exact A0|exact A1]]|]. split; [left; reflexivity|].
        split; [exact P|]. split; [exact K|reflexivity].
      * split; [left; reflexivity|repeat split].
    + destruct (N.eqb_spec (sd_a1 d) 1) as [A1'|A1']; [|left; apply untouched_refl].
      apply (strict_changed w t d); [exact It| |exact Ev]. left. auto.
  - destruct (N.eqb_spec (sd_a0 d mod 2 ^ 32) PR_SET_NO_NEW_PRIVS) as [B0|B0]; [|left; apply untouched_refl].
    destruct (_ && _) eqn:B; [|left; apply untouched_refl].
    apply andb_true_iff in B. destruct B as [B B4]. apply andb_true_iff in B. destruct B as [B B3].
    apply andb_true_iff in B. destruct B as [B1 B2]. apply N.eqb_eq in B1, B2, B3, B4.
    right. right. left. exists d. split; [exact Ev|]. split; [repeat split; assumption|].
    split; [reflexivity|]. repeat split.
Qed.

Lemma sys_changed : forall w t0 d o w' e1 op evs t x, sound w -> In t0 (w_threads w) -> sys_effect w t0 d o = (w', e1) ->
  In (EvCall (t_uid t0) d Proceed) evs ->
  In t (w_threads w) -> In x (w_threads w') -> t_uid x = t_uid t -> changed w op evs t x.
Proof.
  intros w t0 d o w' e1 op evs t x [D B] I0 H Ev It Ix U. rewrite Forall_forall in B.
  assert (Old : In x (w_threads w) -> changed w op evs t x).
  { intros I. left. replace x with t; [apply untouched_refl|]. symmetry. apply (nodup_same w); assumption. }
  assert (Same : (w, @nil event) = (w', e1) -> changed w op evs t x).
  { intros E. injection E as <- _. exact (Old Ix). }
  assert (New : forall b : bool,
     (if o_refuse o then (w, [])
      else (spawn w t0 (if b then t_pid t0 else o_newid o) (o_newid o), [EvSpawn (t_uid t0) (w_next w)])) = (w', e1) ->
     changed w op evs t x).
  { intros b E. destruct (o_refuse o); [exact (Same E)|]. injection E as <- _.
    destruct Ix as [<-|Ix]; [|exact (Old Ix)]. cbn [t_uid] in U. specialize (B t It). rewrite <- U in B. lia. }
  assert (Dea : forall k, (apply_death w t0 k, @nil event) = (w', e1) -> changed w op evs t x).
  { intros k E. injection E as <- _. apply Old. destruct k; cbn [apply_death drop_thread drop_process w_threads] in Ix;
      apply filter_In in Ix; apply Ix. }
  unfold sys_effect in H.
  destruct (_ || _); [exact (New false H)|].
  destruct (sd_nr d =? SYS_clone); [exact (New _ H)|].
  destruct (sd_nr d =? SYS_clone3); [exact (New _ H)|].
  destruct (N.eqb_spec (sd_nr d) SYS_prctl) as [Nr|_].
  { injection H as <- _.
    assert (X : t_uid (snd (kernel_prctl (o_refuse o) t0 d (o_payload o))) = t_uid t0)
      by (destruct (prctl_cases (o_refuse o) t0 d (o_payload o)) as [->|[->|[->| ->]]]; reflexivity).
    destruct (put_find w t0 _ t x D I0 X It Ix U) as [[-> ->]| ->]; [|left; apply untouched_refl].
    apply (prctl_changed w t0 d); assumption. }
  destruct (_ && (_ && _ && _)) eqn:S.
  { injection H as <- _. apply andb_true_iff in S. destruct S as [Nr S]. apply andb_true_iff in S. destruct S as [S A2].
    apply andb_true_iff in S. destruct S as [A0 A1]. apply N.eqb_eq in Nr, A0, A1, A2.
    assert (X : t_uid (snd (enter_strict t0)) = t_uid t0) by (destruct (strict_cases t0) as [->| ->]; reflexivity).
    destruct (put_find w t0 _ t x D I0 X It Ix U) as [[-> ->]| ->]; [|left; apply untouched_refl].
    apply (strict_changed w t0 d); [exact I0| |exact Ev]. right. auto. }
  destruct (_ && _) eqn:Q in H.
  { apply andb_true_iff in Q. destruct Q as [Nr A0]. apply N.eqb_eq in Nr, A0.
    destruct (attach_filter _ _ _ _) as [e|fs] eqn:A; [exact (Same H)|].
    apply attach_privileged in A. destruct A as (P & K & ->).
    destruct (N.testbit (sd_a1 d) 0) eqn:T.
    - destruct (can_sync w t0); [|exact (Same H)]. injection H as <- _.
      cbn [sync_threads w_threads] in Ix. apply in_map_iff in Ix. destruct Ix as (y & E & Iy).
      assert (y = t) as ->.
      { apply (nodup_same w); [exact D|exact It|exact Iy|]. rewrite <- U, <- E.
        cbv zeta. destruct (t_pid y =? t_pid t0); [destruct (t_nnp t0)|]; reflexivity. }
      destruct (N.eqb_spec (t_pid t) (t_pid t0)) as [Pp|Pp]; [|subst x; left; apply untouched_refl].
      assert (Sy : asks_for_all_threads d) by (split; [exact Nr|rewrite <- N.bit0_odd; exact T]).
      right. right. right. left. exists t0, d. split; [exact I0|]. split; [exact Ev|].
      split; [right; exists (o_payload o)|split].
      + split; [right; auto|]. split; [right; split; [congruence|exact Sy]|].
        split; [exact P|]. split; [exact K|]. rewrite <- E. cbv zeta. destruct (t_nnp t0); reflexivity.
      + rewrite <- E. unfold raised. cbv zeta. destruct (t_nnp t0); [right|left; reflexivity].
        split; [reflexivity|]. split; [reflexivity|]. split; [congruence|exact Sy].
      + rewrite <- E. cbv zeta. destruct (t_nnp t0); repeat split.
    - injection H as <- _.
      destruct (put_find w t0 (set_filters t0 (o_payload o :: t_filters t0)) t x D I0 eq_refl It Ix U) as [[-> ->]| ->];
        [|left; apply untouched_refl].
      right. right. right. left. exists t0, d. split; [exact I0|]. split; [exact Ev|].
      split; [right; exists (o_payload o)|split; [left; reflexivity|repeat split]].
      split; [right; auto|]. split; [left; reflexivity|]. split; [exact P|]. split; [exact K|reflexivity]. }
  destruct (_ && _) eqn:X in H.
  { injection H as <- _. apply andb_true_iff in X. destruct X as [X _]. apply orb_true_iff in X.
    apply run_program_in in Ix. destruct Ix as [->|(Ix & _)]; [|exact (Old Ix)].
    right. right. right. right. exists d.
    assert (t = t0) as -> by (apply (nodup_same w); [exact D|exact I0|exact It|symmetry; exact U]).
    split; [exact Ev|]. split; [destruct X as [X|X]; apply N.eqb_eq in X; auto|]. repeat split. }
  destruct (sd_nr d =? SYS_exit); [exact (Dea _ H)|]. destruct (sd_nr d =? SYS_exit_group); [exact (Dea _ H)|]. exact (Same H).
Qed.

Lemma pledge_changed : forall w prof amb t ph s t' o, In t (w_threads w) -> pledge_step prof amb t ph = (s, t') ->
  changed w o (step_calls t amb ph) t t' /\ t_uid t' = t_uid t.
Proof.
  intros w prof amb t ph s t' o It H.
  assert (Un : forall y, (s, t) = (y, t') -> changed w o (step_calls t amb ph) t t' /\ t_uid t' = t_uid t)
    by (intros y E; injection E as _ <-; split; [left; apply untouched_refl|reflexivity]).
  destruct ph as [ps v|ps v done todo|ps v prog|ps v prog]; cbn [pledge_step] in H.
  - injection H as _ <-. apply (Un s eq_refl).
  - destruct todo; injection H as _ <-; apply (Un s eq_refl).
  - destruct (fate_of t amb (call_set_nnp amb)) eqn:F; [|injection H as _ <-; apply (Un s eq_refl)..].
    destruct (kernel_prctl (amb_oom amb) t (call_set_nnp amb) []) as [r t1] eqn:K. injection H as _ <-.
    assert (E : t1 = snd (kernel_prctl (amb_oom amb) t (call_set_nnp amb) [])) by (rewrite K; reflexivity).
    rewrite E. split.
    + apply (prctl_changed w t (call_set_nnp amb)); [exact It|reflexivity|]. cbn [step_calls]. rewrite F. left. reflexivity.
    + destruct (prctl_cases (amb_oom amb) t (call_set_nnp amb) []) as [->|[->|[->| ->]]]; reflexivity.
  - destruct (fate_of t amb (call_set_seccomp amb)) eqn:F; [|injection H as _ <-; apply (Un s eq_refl)..].
    destruct (kernel_prctl (amb_oom amb) t (call_set_seccomp amb) (fprog_of prog)) as [r t1] eqn:K. injection H as _ <-.
    assert (E : t1 = snd (kernel_prctl (amb_oom amb) t (call_set_seccomp amb) (fprog_of prog))) by (rewrite K; reflexivity).
    rewrite E. split.
    + apply (prctl_changed w t (call_set_seccomp amb)); [exact It|reflexivity|]. cbn [step_calls]. rewrite F. left. reflexivity.
    + destruct (prctl_cases (amb_oom amb) t (call_set_seccomp amb) (fprog_of prog)) as [->|[->|[->| ->]]]; reflexivity.
Qed.

Lemma changed_more : forall w o evs evs' t x c, changed w o evs t x -> changed w o (evs ++ evs') t (set_call x c).
Proof.
  intros w o evs evs' t x c H. unfold changed, untouched, kept_ids, filtered, raised in *.
  cbn [set_call t_pid t_tid t_cap t_nnp t_filters].
  assert (M : forall u d, In (EvCall u d Proceed) evs -> In (EvCall u d Proceed) (evs ++ evs'))
    by (intros u d I; apply in_or_app; left; exact I).
  destruct H as [H|[H|[(d & E & R)|[(cc & d & Ic & E & R)|(d & E & R)]]]]; [auto|auto| | |].
  - right. right. left. exists d. auto.
  - right. right. right. left. exists cc, d. auto.
  - right. right. right. right. exists d. auto.
Qed.

Lemma step_changed : forall prof w o w' evs t x, sound w -> wstep prof w o = (w', evs) ->
  In t (w_threads w) -> In x (w_threads w') -> t_uid x = t_uid t -> changed w o evs t x.
Proof.
  intros prof w o w' evs t x So H It Ix U. assert (D := proj1 So).
  assert (Old : In x (w_threads w) -> changed w o evs t x).
  { intros I. left. replace x with t; [apply untouched_refl|]. symmetry. apply (nodup_same w); assumption. }
  assert (Same : forall e, (w, e) = (w', evs) -> changed w o evs t x).
  { intros e E. injection E as <- _. exact (Old Ix). }
  assert (Dea : forall t0 k, apply_death w t0 k = w' -> changed w o evs t x).
  { intros t0 k <-. apply Old. destruct k; cbn [apply_death drop_thread drop_process w_threads] in Ix;
      apply filter_In in Ix; apply Ix. }
  destruct o as [u ps v|u amb|u d o|u b|u]; cbn [wstep] in H.
  - destruct (find_thread w u) as [t0|] eqn:F; [|exact (Same _ H)].
    apply find_thread_spec in F. destruct F as [I0 Ut].
    destruct (t_call t0); [exact (Same _ H)|]. injection H as <- _.
    destruct (put_find w t0 (set_call t0 (Some (PStart ps v))) t x D I0 eq_refl It Ix U) as [[-> ->]| ->]; left; repeat split.
  - destruct (find_thread w u) as [t0|] eqn:F; [|exact (Same _ H)].
    apply find_thread_spec in F. destruct F as [I0 Ut].
    destruct (t_call t0) as [ph|]; [|exact (Same _ H)].
    destruct (pledge_step prof amb t0 ph) as [s t'] eqn:P.
    destruct (pledge_changed w prof amb t0 ph s t' (OStep u amb) I0 P) as [C Ut'].
    assert (Put : forall c more, put_thread w (set_call t' c) = w' -> evs = step_calls t0 amb ph ++ more ->
                  changed w (OStep u amb) evs t x).
    { intros c more <- ->.
      destruct (put_find w t0 (set_call t' c) t x D I0 Ut' It Ix U) as [[-> ->]| ->];
        [apply changed_more; exact C|left; apply untouched_refl]. }
    destruct s as [ph'|r].
    + injection H as H <-. apply (Put (Some ph') []); [exact H|rewrite app_nil_r; reflexivity].
    + destruct r as [y|e| |k]; injection H as H <-; try (apply (Put _ _ H eq_refl)). apply (Dea t0 k). exact H.
  - destruct (find_thread w u) as [t0|] eqn:F; [|exact (Same _ H)].
    apply find_thread_spec in F. destruct F as [I0 Ut].
    destruct (supervised_entry (o_sup o) (t_filters t0) d) as [|z|k]; [|exact (Same _ H)|].
    + destruct (sys_effect w t0 d o) as [w1 e1] eqn:S. injection H as <- <-.
      apply (sys_changed w t0 d o w1 e1); try assumption. left. rewrite Ut. reflexivity.
    + injection H as H _. exact (Dea t0 k H).
  - destruct (find_thread w u) as [t0|] eqn:F; [|exact (Same _ H)].
    apply find_thread_spec in F. destruct F as [I0 Ut]. injection H as <- _.
    destruct (put_find w t0 (set_cap t0 b) t x D I0 eq_refl It Ix U) as [[-> ->]| ->]; [|left; apply untouched_refl].
    right. left. cbn [set_cap t_cap t_pid t_tid t_nnp t_filters]. rewrite Ut. auto.
  - injection H as H _. apply Old. rewrite <- H in Ix. cbn [drop_thread w_threads] in Ix. apply filter_In in Ix. apply Ix.
Qed.

Lemma c117_filters : forall prof w o w' evs t x,
  distinct w -> Forall (fun y => (t_uid y < w_next w)%nat) (w_threads w) -> wstep prof w o = (w', evs) ->
  In t (w_threads w) -> In x (w_threads w') -> t_uid x = t_uid t -> t_filters x <> t_filters t ->
  exists c d, In c (w_threads w) /\ In (EvCall (t_uid c) d Proceed) evs /\
    (asks_for_strict_mode d /\ c = t /\ t_filters t = [] /\ t_filters x = [strict_mode] \/
     exists prog, asks_for_filter d /\ (c = t \/ t_pid c = t_pid t /\ asks_for_all_threads d) /\
       (t_nnp c = true \/ t_cap c = true) /\ kernel_accepts prog = true /\ t_filters x = prog :: t_filters c).
Proof.
  intros prof w o w' evs t x D B H It Ix U N.
  destruct (step_changed prof w o w' evs t x (conj D B) H It Ix U)
    as [(_ & _ & X)|[(_ & _ & _ & _ & X)|[(d & _ & _ & _ & _ & X)|[(c & d & Ic & E & R & _)|(d & _ & _ & _ & _ & _ & _ & X)]]]];
    try contradiction.
  exists c, d. auto.
Qed.

Lemma c117_nnp : forall prof w o w' evs t x,
  distinct w -> Forall (fun y => (t_uid y < w_next w)%nat) (w_threads w) -> wstep prof w o = (w', evs) ->
  In t (w_threads w) -> In x (w_threads w') -> t_uid x = t_uid t -> t_nnp x <> t_nnp t ->
  t_nnp x = true /\
  exists c d, In c (w_threads w) /\ In (EvCall (t_uid c) d Proceed) evs /\
    (c = t /\ asks_for_no_new_privs d \/
     t_nnp c = true /\ t_pid c = t_pid t /\ asks_for_filter d /\ asks_for_all_threads d).
Proof.
  intros prof w o w' evs t x D B H It Ix U N.
  destruct (step_changed prof w o w' evs t x (conj D B) H It Ix U)
    as [(_ & X & _)|[(_ & _ & _ & X & _)|[(d & E & A & X & _)|[(c & d & Ic & E & R & [X|(X & C & P & A)] & _)|(d & _ & _ & _ & _ & _ & X & _)]]]];
    try contradiction; split; try exact X.
  - exists t, d. auto.
  - exists c, d. split; [exact Ic|]. split; [exact E|]. right. split; [exact C|]. split; [exact P|]. split; [|exact A].
    destruct R as [(S & -> & _)|(prog & F & _)]; [|exact F]. exfalso. apply N. congruence.
Qed.

Lemma c117_ids : forall prof w o w' evs t x,
  distinct w -> Forall (fun y => (t_uid y < w_next w)%nat) (w_threads w) -> wstep prof w o = (w', evs) ->
  In t (w_threads w) -> In x (w_threads w') -> t_uid x = t_uid t ->
  t_pid x = t_pid t /\
  (t_tid x <> t_tid t -> t_tid x = t_pid t /\
     exists d, In (EvCall (t_uid t) d Proceed) evs /\ (sd_nr d = 59 \/ sd_nr d = 322)) /\
  (t_cap x <> t_cap t -> o = OCap (t_uid t) (t_cap x)).
Proof.
  intros prof w o w' evs t x D B H It Ix U.
  destruct (step_changed prof w o w' evs t x (conj D B) H It Ix U)
    as [((P & T & C) & _)|[(E & P & T & _)|[(d & _ & _ & _ & (P & T & C) & _)|[(c & d & _ & _ & _ & _ & (P & T & C))|(d & E & X & P & T & C & _)]]]];
    split; try exact P; split; intros N; try contradiction; auto.
  split; [exact T|]. exists d. auto.
Qed.
