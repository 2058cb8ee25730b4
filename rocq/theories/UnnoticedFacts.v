(** Filters act only by what they answer; a pledge that is kept is not noticed (C119). *)
From Coq Require Import NArith ZArith String List Bool Lia.
From Verif Require Import Libc Machine Bpf SeccompRet Asm Vm Promises Filters Kernel World Spec.
From Verif Require Import FragProofs PolicyProofs PolicyFacts CodeProofs PledgeProofs StackProofs WorldProofs.
Import ListNotations.
Local Open Scope N_scope.

(** * One step in two worlds *)

Section Sim.
(** How the filters of a task of the two worlds are related. *)
Variable Q : nat -> list (list sock_filter) -> list (list sock_filter) -> Prop.

Definition rel (t t' : thread) : Prop := same_but_filters t t' /\ Q (t_uid t) (t_filters t) (t_filters t').
Definition wrel (w w' : world) : Prop := w_next w = w_next w' /\ Forall2 rel (w_threads w) (w_threads w').

Lemma rel_uid : forall t t', rel t t' -> t_uid t' = t_uid t.
Proof. intros t t' [S _]. unfold same_but_filters in S. rewrite <- S. reflexivity. Qed.

Lemma wrel_find : forall w w' u, wrel w w' ->
  match find_thread w u, find_thread w' u with
  | Some t, Some t' => rel t t'
  | None, None => True
  | _, _ => False
  end.
Proof.
  intros w w' u [_ F]. unfold find_thread. induction F as [|t t' l l' R F IH]; [exact Logic.I|].
  cbn [find]. rewrite (rel_uid _ _ R). destruct (Nat.eqb (t_uid t) u); [exact R|exact IH].
Qed.

Lemma wrel_put : forall w w' t t', wrel w w' -> rel t t' -> wrel (put_thread w t) (put_thread w' t').
Proof.
  intros w w' t t' [N F] R. split; [exact N|]. cbn [put_thread w_threads]. rewrite (rel_uid _ _ R).
  induction F as [|x x' l l' X F IH]; [constructor|]. cbn [map]. constructor; [|exact IH].
  rewrite (rel_uid _ _ X). destruct (Nat.eqb (t_uid x) (t_uid t)); assumption.
Qed.

Lemma rel_filter : forall (p : thread -> bool) l l', Forall2 rel l l' ->
  (forall t t', rel t t' -> p t' = p t) -> Forall2 rel (filter p l) (filter p l').
Proof.
  intros p l l' F P. induction F as [|x x' l l' X F IH]; [constructor|].
  cbn [filter]. rewrite (P _ _ X). destruct (p x); [constructor; assumption|exact IH].
Qed.

Lemma rel_pid : forall t t', rel t t' -> t_pid t' = t_pid t.
Proof. intros t t' [S _]. unfold same_but_filters in S. rewrite <- S. reflexivity. Qed.

Lemma wrel_drop : forall w w' u, wrel w w' -> wrel (drop_thread w u) (drop_thread w' u).
Proof.
  intros w w' u [N F]. split; [exact N|]. apply rel_filter; [exact F|].
  intros t t' R. rewrite (rel_uid _ _ R). reflexivity.
Qed.

Lemma wrel_death : forall w w' t t' d, wrel w w' -> rel t t' -> wrel (apply_death w t d) (apply_death w' t' d).
Proof.
  intros w w' t t' d [N F] R. unfold apply_death. rewrite (rel_uid _ _ R), (rel_pid _ _ R).
  destruct d; [|apply wrel_drop; split; assumption|];
    (split; [exact N|]; apply rel_filter; [exact F|]; intros x x' X; rewrite (rel_pid _ _ X); reflexivity).
Qed.

Lemma wrel_run : forall w w' t t', wrel w w' -> rel t t' -> wrel (run_program w t) (run_program w' t').
Proof.
  intros w w' t t' [N F] R. split; [exact N|]. cbn [run_program w_threads].
  rewrite (rel_uid _ _ R), (rel_pid _ _ R).
  assert (E : rel (exec_thread t) (exec_thread t')).
  { destruct R as [S R]. unfold same_but_filters in S. split; [|exact R].
    rewrite <- S. reflexivity. }
  apply (rel_filter (fun t'0 => Nat.eqb (t_uid t'0) (t_uid t) || negb (t_pid t'0 =? t_pid t))) in F.
  - induction F as [|x x' l l' X F IH]; [constructor|]. cbn [map]. constructor; [|exact IH].
    rewrite (rel_uid _ _ X). destruct (Nat.eqb (t_uid x) (t_uid t)); [exact E|exact X].
  - intros x x' X. rewrite (rel_uid _ _ X), (rel_pid _ _ X). reflexivity.
Qed.

Lemma wrel_spawn : forall w w' t t' pid tid, wrel w w' -> rel t t' ->
  Q (w_next w) (t_filters t) (t_filters t') -> wrel (spawn w t pid tid) (spawn w' t' pid tid).
Proof.
  intros w w' t t' pid tid [N F] [S _] C. split; [cbn; rewrite N; reflexivity|].
  cbn [spawn w_threads]. constructor; [|exact F]. split; [|exact C].
  unfold same_but_filters in *. rewrite <- S, N. reflexivity.
Qed.

Lemma rel_set_call : forall t t' c, rel t t' -> rel (set_call t c) (set_call t' c).
Proof. intros t t' c [S R]. split; [|exact R]. unfold same_but_filters in *. rewrite <- S. reflexivity. Qed.
Lemma rel_set_nnp : forall t t', rel t t' -> rel (set_nnp t) (set_nnp t').
Proof. intros t t' [S R]. split; [|exact R]. unfold same_but_filters in *. rewrite <- S. reflexivity. Qed.
Lemma rel_set_cap : forall t t' b, rel t t' -> rel (set_cap t b) (set_cap t' b).
Proof. intros t t' b [S R]. split; [|exact R]. unfold same_but_filters in *. rewrite <- S. reflexivity. Qed.

(** A call that asks for no filter does the same in both. *)
Lemma effect_rel : forall w w' t t' d o, wrel w w' -> rel t t' -> ~ asks_for_filter d -> ~ asks_for_strict_mode d ->
  (In (EvSpawn (t_uid t) (w_next w)) (snd (sys_effect w t d o)) -> Q (w_next w) (t_filters t) (t_filters t')) ->
  snd (sys_effect w' t' d o) = snd (sys_effect w t d o) /\ wrel (fst (sys_effect w t d o)) (fst (sys_effect w' t' d o)).
Proof.
  intros w w' t t' d o W R NF NS SP.
  assert (NT : forall thr,
    (In (EvSpawn (t_uid t) (w_next w)) (snd (if o_refuse o then (w, [])
       else (spawn w t (if thr : bool then t_pid t else o_newid o) (o_newid o), [EvSpawn (t_uid t) (w_next w)]))) ->
       Q (w_next w) (t_filters t) (t_filters t')) ->
    snd (if o_refuse o then (w', []) else (spawn w' t' (if thr : bool then t_pid t' else o_newid o) (o_newid o), [EvSpawn (t_uid t') (w_next w')])) =
    snd (if o_refuse o then (w, []) else (spawn w t (if thr : bool then t_pid t else o_newid o) (o_newid o), [EvSpawn (t_uid t) (w_next w)])) /\
    wrel (fst (if o_refuse o then (w, []) else (spawn w t (if thr : bool then t_pid t else o_newid o) (o_newid o), [EvSpawn (t_uid t) (w_next w)])))
      (fst (if o_refuse o then (w', []) else (spawn w' t' (if thr : bool then t_pid t' else o_newid o) (o_newid o), [EvSpawn (t_uid t') (w_next w')])))).
  { intros thr. destruct (o_refuse o); cbn [fst snd].
    - intros _. split; [reflexivity|exact W].
    - intros X. rewrite (rel_uid _ _ R), (rel_pid _ _ R). destruct W as [N F]. rewrite <- N. split; [reflexivity|].
      apply wrel_spawn; [split; assumption|exact R|]. apply X. left. reflexivity. }
  revert SP. unfold sys_effect.
  destruct ((sd_nr d =? SYS_fork) || (sd_nr d =? SYS_vfork)); [exact (NT false)|].
  destruct (sd_nr d =? SYS_clone); [exact (NT (negb (N.land (sd_a0 d) CLONE_THREAD =? 0)))|].
  destruct (sd_nr d =? SYS_clone3); [exact (NT (o_thread o))|].
  clear NT. intros _.
  destruct (N.eqb_spec (sd_nr d) SYS_prctl) as [P|P].
  { cbn [fst snd]. split; [reflexivity|]. apply wrel_put; [exact W|]. unfold kernel_prctl.
    destruct (N.eqb_spec (lo32 (sd_a0 d)) PR_SET_SECCOMP) as [A|A].
    - destruct (N.eqb_spec (sd_a1 d) 2) as [B|B]; [exfalso; apply NF; left; split; [exact P|split; [exact A|exact B]]|].
      destruct (N.eqb_spec (sd_a1 d) 1) as [C|C]; [exfalso; apply NS; left; split; [exact P|split; [exact A|exact C]]|].
      exact R.
    - destruct (lo32 (sd_a0 d) =? PR_SET_NO_NEW_PRIVS); [|exact R].
      destruct ((sd_a1 d =? 1) && (sd_a2 d =? 0) && (sd_a3 d =? 0) && (sd_a4 d =? 0)); [|exact R].
      exact (rel_set_nnp _ _ R). }
  destruct (N.eqb_spec (sd_nr d) SYS_seccomp) as [S|S]; cbn [andb].
  { destruct (N.eqb_spec (lo32 (sd_a0 d)) 0) as [A|A]; cbn [andb].
    - assert (A1 : lo32 (sd_a0 d) =? 1 = false) by (rewrite A; reflexivity). rewrite A1.
      destruct (N.eqb_spec (lo32 (sd_a1 d)) 0) as [B|B]; cbn [andb].
      + destruct (N.eqb_spec (sd_a2 d) 0) as [C|C].
        * exfalso. apply NS. right. split; [exact S|]. split; [exact A|]. split; [exact B|exact C].
        * rewrite S. split; [reflexivity|exact W].
      + rewrite S. split; [reflexivity|exact W].
    - destruct (N.eqb_spec (lo32 (sd_a0 d)) 1) as [B|B].
      + exfalso. apply NF. right. split; [exact S|exact B].
      + rewrite S. split; [reflexivity|exact W]. }
  destruct (((sd_nr d =? SYS_execve) || (sd_nr d =? SYS_execveat)) && negb (o_refuse o)).
  { split; [reflexivity|apply wrel_run; assumption]. }
  destruct (sd_nr d =? SYS_exit); [split; [reflexivity|apply wrel_death; assumption]|].
  destruct (sd_nr d =? SYS_exit_group); [split; [reflexivity|apply wrel_death; assumption]|].
  split; [reflexivity|exact W].
Qed.

(** The rules that ask for an id are told the same. *)
Lemma told_same : forall prof amb t t' f, rel t t' ->
  step_calls t amb (PBuild [] Trap [] [f]) = step_calls t' amb (PBuild [] Trap [] [f]) ->
  filter_to_bpf prof (thread_env t amb) f = filter_to_bpf prof (thread_env t' amb) f.
Proof.
  intros prof amb t t' f [S _] H. unfold same_but_filters in S.
  destruct f; try reflexivity; cbn [step_calls] in H; injection H as _ H; cbn [filter_to_bpf].
  - unfold kill_self, thread_env. cbn [env_getpid]. unfold read_call. rewrite H, <- S. reflexivity.
  - unfold tkill_self, thread_env. cbn [env_gettid]. unfold read_call. rewrite H, <- S. reflexivity.
Qed.

(** A step of a pledge, but for the loading of a filter. *)
Lemma pledge_step_rel : forall prof amb t t' ph, rel t t' ->
  step_calls t amb ph = step_calls t' amb ph -> no_filter_asked (step_calls t amb ph) ->
  fst (pledge_step prof amb t ph) = fst (pledge_step prof amb t' ph) /\
  rel (snd (pledge_step prof amb t ph)) (snd (pledge_step prof amb t' ph)) /\
  t_filters (snd (pledge_step prof amb t ph)) = t_filters t /\ t_filters (snd (pledge_step prof amb t' ph)) = t_filters t'.
Proof.
  intros prof amb t t' ph R E NA. destruct ph as [ps v|ps v done todo|ps v prog|ps v prog]; cbn [pledge_step].
  - cbn [fst snd]. auto.
  - destruct todo as [|f todo]; cbn [fst snd]; [auto|].
    rewrite (told_same prof amb t t' f R); [auto|]. destruct f; exact E.
  - cbn [step_calls] in E. injection E as _ E. rewrite <- E.
    destruct (fate_of t amb (call_set_nnp amb)) as [|r|k]; cbn [fst snd]; auto.
    change (kernel_prctl (amb_oom amb) t (call_set_nnp amb) []) with (0%Z, set_nnp t).
    change (kernel_prctl (amb_oom amb) t' (call_set_nnp amb) []) with (0%Z, set_nnp t').
    cbn [fst snd]. split; [reflexivity|]. split; [exact (rel_set_nnp _ _ R)|]. auto.
  - cbn [step_calls] in E, NA. injection E as _ E. rewrite <- E.
    destruct (fate_of t amb (call_set_seccomp amb)) as [|r|k]; cbn [fst snd]; auto.
    exfalso. destruct (NA (t_uid t) (call_set_seccomp amb)) as [F _]; [left; reflexivity|].
    apply F. left. repeat split.
Qed.

Lemma calls_step : forall t amb ph, calls_among (step_calls t amb ph) = step_calls t amb ph.
Proof. intros t amb ph. destruct ph as [ps v|ps v done [|[] todo]|ps v prog|ps v prog]; reflexivity. Qed.

Lemma step_rel : forall prof w w' o, wrel w w' ->
  calls_among (snd (wstep prof w o)) = calls_among (snd (wstep prof w' o)) ->
  no_filter_asked (snd (wstep prof w o)) ->
  (forall t t' c, rel t t' -> In (EvSpawn (t_uid t) c) (snd (wstep prof w o)) -> Q c (t_filters t) (t_filters t')) ->
  snd (wstep prof w' o) = snd (wstep prof w o) /\ wrel (fst (wstep prof w o)) (fst (wstep prof w' o)).
Proof.
  intros prof w w' o W E NA SP. destruct o as [u ps v|u amb|u d o|u b|u]; cbn [wstep] in *.
  - pose proof (wrel_find w w' u W) as F.
    destruct (find_thread w u) as [t|], (find_thread w' u) as [t'|]; try contradiction; [|split; [reflexivity|exact W]].
    assert (C : t_call t' = t_call t) by (destruct F as [S _]; unfold same_but_filters in S; rewrite <- S; reflexivity).
    rewrite C. destruct (t_call t); cbn [fst snd]; (split; [reflexivity|]); [exact W|].
    apply wrel_put; [exact W|]. apply rel_set_call. exact F.
  - pose proof (wrel_find w w' u W) as F.
    destruct (find_thread w u) as [t|], (find_thread w' u) as [t'|]; try contradiction; [|split; [reflexivity|exact W]].
    assert (C : t_call t' = t_call t) by (destruct F as [S _]; unfold same_but_filters in S; rewrite <- S; reflexivity).
    rewrite C in *. destruct (t_call t) as [ph|]; [|split; [reflexivity|exact W]].
    assert (SE : step_calls t amb ph = step_calls t' amb ph).
    { clear NA SP. destruct (pledge_step prof amb t ph) as [[ph1|[r|e| |k]] x], (pledge_step prof amb t' ph) as [[ph1'|[r'|e'| |k']] x'];
        cbn [fst snd] in E; unfold calls_among in E; rewrite ?filter_app in E; fold (calls_among) in E;
        fold (calls_among (step_calls t amb ph)) in E; fold (calls_among (step_calls t' amb ph)) in E;
        rewrite !calls_step in E;
        repeat match type of E with context [if ?c then [] else _] => destruct c end;
        cbn [filter app] in E; rewrite ?app_nil_r in E; exact E. }
    assert (NS : no_filter_asked (step_calls t amb ph)).
    { intros x d I. apply (NA x d). destruct (pledge_step prof amb t ph) as [[ph1|[r|e| |k]] y]; cbn [snd];
        try apply in_or_app; auto. }
    destruct (pledge_step_rel prof amb t t' ph F SE NS) as (P1 & P2 & P3 & P4).
    pose proof (pledge_step prof amb t ph) as dummy. clear dummy.
    destruct (pledge_step prof amb t ph) as [r x], (pledge_step prof amb t' ph) as [r' x']. cbn [fst snd] in P1, P2, P3, P4.
    subst r'. rewrite <- SE.
    assert (I1 : t_pid t' = t_pid t /\ t_tid t' = t_tid t) by (destruct F as [S _]; unfold same_but_filters in S; rewrite <- S; auto).
    destruct I1 as [-> ->]. rewrite P3, P4, !Nat.eqb_refl.
    destruct r as [ph1|[r|e| |k]]; cbn [fst snd]; (split; [reflexivity|]);
      first [apply wrel_death; assumption|apply wrel_put; [exact W|apply rel_set_call; exact P2]].
  - pose proof (wrel_find w w' u W) as F.
    destruct (find_thread w u) as [t|] eqn:Fu, (find_thread w' u) as [t'|]; try contradiction; [|split; [reflexivity|exact W]].
    assert (EE : supervised_entry (o_sup o) (t_filters t) d = supervised_entry (o_sup o) (t_filters t') d).
    { clear - E. destruct (supervised_entry (o_sup o) (t_filters t) d), (supervised_entry (o_sup o) (t_filters t') d);
        try (destruct (sys_effect w t d o)); try (destruct (sys_effect w' t' d o));
        cbn in E; injection E; congruence. }
    rewrite <- EE in *. destruct (supervised_entry (o_sup o) (t_filters t) d) as [|r|k].
    + assert (A : ~ asks_for_filter d /\ ~ asks_for_strict_mode d).
      { apply (NA u d). destruct (sys_effect w t d o); left; reflexivity. }
      destruct (effect_rel w w' t t' d o W F (proj1 A) (proj2 A)) as [E1 E2].
      { intros I. apply (SP t t' _ F). destruct (sys_effect w t d o) as [x y]. right. exact I. }
      destruct (sys_effect w t d o) as [x y], (sys_effect w' t' d o) as [x' y']. cbn [fst snd] in *.
      rewrite E1. split; [reflexivity|exact E2].
    + split; [reflexivity|exact W].
    + split; [reflexivity|apply wrel_death; assumption].
  - pose proof (wrel_find w w' u W) as F.
    destruct (find_thread w u) as [t|], (find_thread w' u) as [t'|]; try contradiction; (split; [reflexivity|]);
      [|exact W].
    apply wrel_put; [exact W|]. apply rel_set_cap. exact F.
  - split; [reflexivity|]. apply wrel_drop. exact W.
Qed.

(** The calls of a step, from those of the task that makes it. *)
Definition calls_of (w : world) (o : op) : list event :=
  match o with
  | OStep u amb =>
      match find_thread w u with
      | Some t => match t_call t with Some ph => step_calls t amb ph | None => [] end
      | None => []
      end
  | OSys u d o =>
      match find_thread w u with
      | Some t => [EvCall u d (supervised_entry (o_sup o) (t_filters t) d)]
      | None => []
      end
  | _ => []
  end.
Lemma effect_calls : forall w t d o, calls_among (snd (sys_effect w t d o)) = [].
Proof.
  intros w t d o. unfold sys_effect.
  repeat match goal with |- context [if ?c then _ else _] => destruct c end; try reflexivity.
  all: destruct (attach_filter _ _ _ _); try reflexivity.
  all: repeat match goal with |- context [if ?c then _ else _] => destruct c end; reflexivity.
Qed.
Lemma calls_of_step : forall prof w o, calls_among (snd (wstep prof w o)) = calls_of w o.
Proof.
  intros prof w [u ps v|u amb|u d o|u b|u]; cbn [wstep calls_of]; try reflexivity.
  - destruct (find_thread w u) as [t|]; reflexivity.
  - destruct (find_thread w u) as [t|]; [|reflexivity]. destruct (t_call t) as [ph|]; [|reflexivity].
    destruct (pledge_step prof amb t ph) as [[ph1|[r|e| |k]] x]; cbn [snd]; unfold calls_among; rewrite ?filter_app;
      fold (calls_among (step_calls t amb ph)); rewrite calls_step;
      repeat match goal with |- context [if ?c then [] else _] => destruct c end;
      cbn [filter app]; rewrite ?app_nil_r; reflexivity.
  - destruct (find_thread w u) as [t|]; [|reflexivity].
    pose proof (effect_calls w t d o) as X.
    destruct (supervised_entry (o_sup o) (t_filters t) d); try reflexivity.
    destruct (sys_effect w t d o) as [w1 evs]. cbn [snd] in *. unfold calls_among in *. cbn [filter]. rewrite X. reflexivity.
  - destruct (find_thread w u); reflexivity.
Qed.

Lemma calls_count : forall w w' o, wrel w w' -> length (calls_of w o) = length (calls_of w' o).
Proof.
  intros w w' [u ps v|u amb|u d o|u b|u] W; cbn [calls_of]; try reflexivity.
  - pose proof (wrel_find w w' u W) as F.
    destruct (find_thread w u) as [t|], (find_thread w' u) as [t'|]; try contradiction; [|reflexivity].
    assert (C : t_call t' = t_call t) by (destruct F as [S _]; unfold same_but_filters in S; rewrite <- S; reflexivity).
    rewrite C. destruct (t_call t) as [[ps v|ps v done [|[] todo]|ps v prog|ps v prog]|]; reflexivity.
  - pose proof (wrel_find w w' u W) as F.
    destruct (find_thread w u) as [t|], (find_thread w' u) as [t'|]; try contradiction; reflexivity.
Qed.

Lemma calls_agree : forall w w' o, wrel w w' ->
  (forall u d e t t' s, In (EvCall u d e) (calls_of w o) -> rel t t' -> t_uid t = u ->
     supervised_entry s (t_filters t) d = supervised_entry s (t_filters t') d) ->
  calls_of w o = calls_of w' o.
Proof.
  intros w w' [u ps v|u amb|u d o|u b|u] W H; cbn [calls_of] in *; try reflexivity.
  - pose proof (wrel_find w w' u W) as F.
    destruct (find_thread w u) as [t|] eqn:Fu, (find_thread w' u) as [t'|]; try contradiction; [|reflexivity].
    assert (C : t_call t' = t_call t) by (destruct F as [S _]; unfold same_but_filters in S; rewrite <- S; reflexivity).
    rewrite C. destruct (t_call t) as [ph|]; [|reflexivity].
    assert (G : forall d, In (EvCall (t_uid t) d (fate_of t amb d)) (step_calls t amb ph) -> fate_of t' amb d = fate_of t amb d).
    { intros d I. symmetry. exact (H _ _ _ t t' (amb_sup amb) I F eq_refl). }
    destruct ph as [ps v|ps v done [|[] todo]|ps v prog|ps v prog]; try reflexivity; cbn [step_calls] in *;
      rewrite (rel_uid _ _ F), (G _ (or_introl eq_refl)); reflexivity.
  - pose proof (wrel_find w w' u W) as F.
    destruct (find_thread w u) as [t|] eqn:Fu, (find_thread w' u) as [t'|]; try contradiction; [|reflexivity].
    unfold find_thread in Fu. apply find_some in Fu. destruct Fu as [_ Fu]. apply Nat.eqb_eq in Fu.
    rewrite (H u d _ t t' (o_sup o) (or_introl eq_refl) F Fu). reflexivity.
Qed.
End Sim.

(** * Whole histories *)

Lemma no_filter_app : forall a b, no_filter_asked (a ++ b) -> no_filter_asked a /\ no_filter_asked b.
Proof. intros a b H. split; intros u d I; apply (H u d); apply in_or_app; auto. Qed.

Lemma app_inj_length : forall A (a b c d : list A), length a = length c -> a ++ b = c ++ d -> a = c /\ b = d.
Proof.
  intros A a. induction a as [|x a IH]; intros b [|y c] d L E; cbn in *; try discriminate; [auto|].
  injection E as -> E. injection L as L. destruct (IH b c d L E) as [-> ->]. auto.
Qed.

Lemma c119_answers : forall prof w w' ops,
  alike_worlds w w' ->
  calls_among (snd (wrun prof w ops)) = calls_among (snd (wrun prof w' ops)) ->
  no_filter_asked (snd (wrun prof w ops)) ->
  snd (wrun prof w' ops) = snd (wrun prof w ops) /\ alike_worlds (fst (wrun prof w ops)) (fst (wrun prof w' ops)).
Proof.
  intros prof w w' ops A. 
  assert (X : forall a b, alike_worlds a b <-> wrel (fun _ _ _ => True) a b).
  { intros a b. unfold alike_worlds, wrel, rel. split; intros [N F]; (split; [exact N|]);
      (induction F; constructor; [tauto|assumption]). }
  rewrite X in *. clear X. revert w w' A. induction ops as [|o ops IH]; intros w w' A E NA; cbn [wrun] in *.
  - split; [reflexivity|exact A].
  - destruct (wstep prof w o) as [w1 e1] eqn:S. destruct (wstep prof w' o) as [w1' e1'] eqn:S'.
    pose proof (calls_of_step prof w o) as C. pose proof (calls_of_step prof w' o) as C'. rewrite S in C. rewrite S' in C'.
    pose proof (step_rel _ prof w w' o A) as SR. rewrite S, S' in SR. cbn [fst snd] in C, C', SR.
    destruct (wrun prof w1 ops) as [w2 e2] eqn:R. destruct (wrun prof w1' ops) as [w2' e2'] eqn:R'. cbn [fst snd] in *.
    unfold calls_among in E. rewrite !filter_app in E. fold (calls_among e1) (calls_among e1') (calls_among e2) (calls_among e2') in E.
    apply no_filter_app in NA. destruct NA as [NA NB].
    assert (L : length (calls_among e1) = length (calls_among e1')) by (rewrite C, C'; eapply calls_count; exact A).
    apply app_inj_length in E; [|exact L]. destruct E as [Ea Eb].
    destruct SR as [-> SR]; [exact Ea|exact NA|auto|].
    specialize (IH w1 w1' SR). rewrite R, R' in IH. cbn [fst snd] in IH.
    destruct IH as [-> IH]; [exact Eb|exact NB|]. split; [reflexivity|exact IH].
Qed.

(** A filter that allows a call has no say. *)
Lemma added_silent : forall prog fs fs' d, added prog fs fs' -> kernel_eval prog d = 0x7fff0000 ->
  forall r, run_filters_from r fs' d = run_filters_from r fs d.
Proof.
  intros prog fs fs' d A K. induction A as [|f fs fs' A IH|fs fs' A IH]; intros r; cbn [run_filters_from].
  - reflexivity.
  - apply IH.
  - rewrite K. pose proof (action_rank_max r) as M.
    destruct (Z.ltb_spec (action_rank 0x7fff0000) (action_rank r)); [lia|]. apply IH.
Qed.
Lemma supervised_all : forall s fs d, supervised_entry s fs d = entry_under s (run_filters fs d).
Proof. intros s [|f fs] d; reflexivity. Qed.

Lemma c119_unnoticed : forall prof pid tid ps v prog U w w' ops prof',
  filter_for prof pid tid ps v prog -> also_under U prog w w' ->
  (forall p c, In (EvSpawn p c) (snd (wrun prof' w ops)) -> U p -> U c) ->
  (forall u d e, U u -> In (EvCall u d e) (snd (wrun prof' w ops)) -> native d /\ granted ps pid tid d) ->
  no_filter_asked (snd (wrun prof' w ops)) ->
  snd (wrun prof' w' ops) = snd (wrun prof' w ops) /\
  also_under U prog (fst (wrun prof' w ops)) (fst (wrun prof' w' ops)).
Proof.
  intros prof pid tid ps v prog U w w' ops prof' HF A. 
  assert (X : forall a b, also_under U prog a b <->
    wrel (fun u fs fs' => fs' = fs \/ U u /\ added prog fs fs') a b) by reflexivity.
  rewrite X in *. clear X. revert w w' A. induction ops as [|o ops IH]; intros w w' A SP G NA; cbn [wrun] in *.
  - split; [reflexivity|exact A].
  - destruct (wstep prof' w o) as [w1 e1] eqn:S. destruct (wstep prof' w' o) as [w1' e1'] eqn:S'.
    pose proof (calls_of_step prof' w o) as C. pose proof (calls_of_step prof' w' o) as C'. rewrite S in C. rewrite S' in C'.
    pose proof (step_rel _ prof' w w' o A) as SR. rewrite S, S' in SR. cbn [fst snd] in C, C', SR.
    destruct (wrun prof' w1 ops) as [w2 e2] eqn:R. destruct (wrun prof' w1' ops) as [w2' e2'] eqn:R'. cbn [fst snd] in *.
    apply no_filter_app in NA. destruct NA as [NA NB].
    assert (E : calls_of w o = calls_of w' o).
    { apply (calls_agree _ w w' o A). intros u d e t t' s I [_ Q] Ut. destruct Q as [Q|[Q1 Q2]]; [rewrite Q; reflexivity|].
      rewrite !supervised_all. unfold run_filters. rewrite (added_silent prog _ _ d Q2); [reflexivity|].
      rewrite <- C in I. apply filter_In in I. destruct I as [I _]. rewrite Ut in Q1.
      destruct (G u d e Q1 (in_or_app _ _ _ (or_introl I))) as [N Gr].
      exact (proj1 (c15 prof pid tid ps v prog d HF N) Gr). }
    destruct SR as [-> SR].
    { rewrite C, C'. exact E. }
    { exact NA. }
    { intros t t' c [_ [Q|[Q1 Q2]]] I; [left; exact Q|right]. split; [|exact Q2].
      apply (SP (t_uid t) c); [apply in_or_app; left; exact I|exact Q1]. }
    specialize (IH w1 w1' SR). rewrite R, R' in IH. cbn [fst snd] in IH.
    destruct IH as [-> IH]; [| |exact NB|split; [reflexivity|exact IH]].
    + intros p c I. apply (SP p c). apply in_or_app. right. exact I.
    + intros u d e Uu I. apply (G u d e Uu). apply in_or_app. right. exact I.
Qed.

Lemma wrun_app : forall prof ops1 ops2 w, wrun prof w (ops1 ++ ops2) =
  (fst (wrun prof (fst (wrun prof w ops1)) ops2), snd (wrun prof w ops1) ++ snd (wrun prof (fst (wrun prof w ops1)) ops2)).
Proof.
  intros prof ops1 ops2. induction ops1 as [|o ops1 IH]; intros w; cbn [app wrun].
  - cbn [fst snd app]. destruct (wrun prof w ops2). reflexivity.
  - destruct (wstep prof w o) as [w1 e1]. rewrite (IH w1). destruct (wrun prof w1 ops1) as [w2 e2]. cbn [fst snd].
    destruct (wrun prof w2 ops2). cbn [fst snd]. rewrite app_assoc. reflexivity.
Qed.

Lemma c119_refused : forall prof w ops1 u d o ops2 r,
  In (EvCall u d (Fake r)) (snd (wstep prof (fst (wrun prof w ops1)) (OSys u d o))) ->
  fst (wrun prof w (ops1 ++ OSys u d o :: ops2)) = fst (wrun prof w (ops1 ++ ops2)) /\
  exists e1 e2, snd (wrun prof w (ops1 ++ OSys u d o :: ops2)) = e1 ++ EvCall u d (Fake r) :: e2 /\
    snd (wrun prof w (ops1 ++ ops2)) = e1 ++ e2.
Proof.
  intros prof w ops1 u d o ops2 r H. rewrite !wrun_app. cbn [fst snd]. set (w1 := fst (wrun prof w ops1)) in *.
  assert (E : wstep prof w1 (OSys u d o) = (w1, [EvCall u d (Fake r)])).
  { cbn [wstep] in *. destruct (find_thread w1 u) as [t|]; [|destruct H].
    destruct (supervised_entry (o_sup o) (t_filters t) d) as [|r'|k].
    - pose proof (effect_calls w1 t d o) as X. destruct (sys_effect w1 t d o) as [w2 evs]. cbn [snd] in *.
      destruct H as [H|H]; [discriminate H|]. exfalso.
      assert (Y : In (EvCall u d (Fake r)) (calls_among evs)) by (apply filter_In; auto). rewrite X in Y. exact Y.
    - cbn in H. destruct H as [H|[]]. injection H as ->. reflexivity.
    - cbn in H. destruct H as [H|[]]. discriminate H. }
  cbn [wrun]. rewrite E. destruct (wrun prof w1 ops2) as [w2 e2]. cbn [fst snd app].
  split; [reflexivity|]. exists (snd (wrun prof w ops1)), e2. split; reflexivity.
Qed.
