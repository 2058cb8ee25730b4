(** Processes do not influence each other (C120). *)
From Coq Require Import NArith ZArith String List Bool Lia.
From Verif Require Import Libc Machine Bpf SeccompRet Asm Vm Promises Filters Kernel World Spec.
From Verif Require Import FragProofs PolicyProofs CodeProofs PledgeProofs StackProofs WorldProofs HistoryProofs DeathProofs
  LiveProofs.
Import ListNotations.
Local Open Scope N_scope.

Lemma filter_map : forall (f : thread -> thread) (g : thread -> bool) l,
  (forall x, In x l -> g (f x) = g x) -> filter g (map f l) = map f (filter g l).
Proof.
  intros f g l H. induction l as [|x l IH]; [reflexivity|]. cbn [map filter]. rewrite (H x (or_introl eq_refl)).
  rewrite IH by (intros y I; apply H; right; exact I). destruct (g x); reflexivity.
Qed.
Lemma filter_swap : forall (f g : thread -> bool) l, filter g (filter f l) = filter f (filter g l).
Proof.
  intros f g l. induction l as [|x l IH]; [reflexivity|]. cbn [filter].
  destruct (f x) eqn:F, (g x) eqn:G; cbn [filter]; rewrite ?F, ?G, IH; reflexivity.
Qed.
Lemma filter_all : forall (f : thread -> bool) l, (forall x, In x l -> f x = true) -> filter f l = l.
Proof.
  intros f l H. induction l as [|x l IH]; [reflexivity|]. cbn [filter]. rewrite (H x (or_introl eq_refl)), IH; [reflexivity|].
  intros y I. apply H. right. exact I.
Qed.
Lemma map_same : forall (f : thread -> thread) l, (forall x, In x l -> f x = x) -> map f l = l.
Proof.
  intros f l H. induction l as [|x l IH]; [reflexivity|]. cbn [map]. rewrite (H x (or_introl eq_refl)), IH; [reflexivity|].
  intros y I. apply H. right. exact I.
Qed.

Lemma in_threads_of : forall p w t, In t (threads_of p w) <-> In t (w_threads w) /\ t_pid t = p.
Proof. intros p w t. unfold threads_of. rewrite filter_In, N.eqb_eq. reflexivity. Qed.

(** What the changes of a world do to the tasks of one process. *)
Section Changes.
Variables (w : world) (t : thread).
Hypothesis D : distinct w.
Hypothesis It : In t (w_threads w).

Lemma same_uid : forall x, In x (w_threads w) -> t_uid x = t_uid t -> x = t.
Proof. intros x I U. exact (nodup_same w t x D It I U). Qed.

Lemma of_put : forall p t1, t_uid t1 = t_uid t -> t_pid t1 = t_pid t ->
  threads_of p (put_thread w t1) = map (fun x => if Nat.eqb (t_uid x) (t_uid t1) then t1 else x) (threads_of p w).
Proof.
  intros p t1 U P. unfold threads_of. cbn [put_thread w_threads]. apply filter_map. intros x I.
  destruct (Nat.eqb_spec (t_uid x) (t_uid t1)) as [E|E]; [|reflexivity].
  rewrite (same_uid x I) by congruence. rewrite P. reflexivity.
Qed.
Lemma of_put_other : forall p t1, t_uid t1 = t_uid t -> t_pid t1 = t_pid t -> t_pid t <> p ->
  threads_of p (put_thread w t1) = threads_of p w.
Proof.
  intros p t1 U P N. rewrite of_put by assumption. apply map_same. intros x I. apply in_threads_of in I.
  destruct I as [I X]. destruct (Nat.eqb_spec (t_uid x) (t_uid t1)) as [E|E]; [|reflexivity].
  exfalso. apply N. rewrite <- X. rewrite (same_uid x I) by congruence. reflexivity.
Qed.
Lemma of_death : forall p k, threads_of p (apply_death w t k) =
  filter (fun x => match k with DeathThread => negb (Nat.eqb (t_uid x) (t_uid t)) | _ => negb (t_pid x =? t_pid t) end)
    (threads_of p w).
Proof. intros p k. unfold threads_of. destruct k; cbn [apply_death drop_thread drop_process w_threads]; apply filter_swap. Qed.
Lemma of_death_other : forall p k, t_pid t <> p -> threads_of p (apply_death w t k) = threads_of p w.
Proof.
  intros p k N. rewrite of_death. apply filter_all. intros x I. apply in_threads_of in I. destruct I as [I X].
  assert (A : negb (Nat.eqb (t_uid x) (t_uid t)) = true).
  { destruct (Nat.eqb_spec (t_uid x) (t_uid t)) as [E|E]; [|reflexivity]. exfalso. apply N. rewrite <- X.
    rewrite (same_uid x I E). reflexivity. }
  assert (B : negb (t_pid x =? t_pid t) = true).
  { destruct (N.eqb_spec (t_pid x) (t_pid t)) as [E|E]; [|reflexivity]. exfalso. congruence. }
  destruct k; assumption.
Qed.
Lemma of_run : forall p, threads_of p (run_program w t) =
  map (fun x => if Nat.eqb (t_uid x) (t_uid t) then exec_thread t else x)
    (filter (fun x => Nat.eqb (t_uid x) (t_uid t) || negb (t_pid x =? t_pid t)) (threads_of p w)).
Proof.
  intros p. unfold threads_of. cbn [run_program w_threads]. rewrite filter_map, filter_swap; [reflexivity|].
  intros x I. apply filter_In in I. destruct I as [I _].
  destruct (Nat.eqb_spec (t_uid x) (t_uid t)) as [E|E]; [|reflexivity]. rewrite (same_uid x I E). reflexivity.
Qed.
Lemma of_run_other : forall p, t_pid t <> p -> threads_of p (run_program w t) = threads_of p w.
Proof.
  intros p N. rewrite of_run. rewrite filter_all, map_same; [reflexivity| |].
  - intros x I. apply in_threads_of in I. destruct I as [I X].
    destruct (Nat.eqb_spec (t_uid x) (t_uid t)) as [E|E]; [|reflexivity].
    exfalso. apply N. rewrite <- X. rewrite (same_uid x I E). reflexivity.
  - intros x I. apply in_threads_of in I. destruct I as [I X].
    destruct (N.eqb_spec (t_pid x) (t_pid t)) as [E|E]; [exfalso; congruence|]. apply orb_true_r.
Qed.
Lemma of_sync : forall p fs, threads_of p (sync_threads w t fs) =
  map (fun x => if t_pid x =? t_pid t then let t1 := set_filters x fs in if t_nnp t then set_nnp t1 else t1 else x)
    (threads_of p w).
Proof.
  intros p fs. unfold threads_of. cbn [sync_threads w_threads]. apply filter_map. intros x _.
  destruct (t_pid x =? t_pid t); [|reflexivity]. destruct (t_nnp t); reflexivity.
Qed.
Lemma of_sync_other : forall p fs, t_pid t <> p -> threads_of p (sync_threads w t fs) = threads_of p w.
Proof.
  intros p fs N. rewrite of_sync. apply map_same. intros x I. apply in_threads_of in I. destruct I as [_ X].
  destruct (N.eqb_spec (t_pid x) (t_pid t)) as [E|E]; [exfalso; congruence|reflexivity].
Qed.
Lemma of_sync_can : forall p, t_pid t = p ->
  can_sync w t = forallb (fun x => older_part (t_filters x) (t_filters t)) (threads_of p w).
Proof.
  intros p P. unfold can_sync, threads_of. rewrite P. clear. induction (w_threads w) as [|x l IH]; [reflexivity|].
  cbn [forallb filter]. rewrite IH. destruct (t_pid x =? p); reflexivity.
Qed.
End Changes.

Lemma of_spawn : forall p w t q n, threads_of p (spawn w t q n) =
  (if q =? p then [mkThread (w_next w) q n (t_nnp t) (t_cap t) (t_filters t) None] else []) ++ threads_of p w.
Proof. intros p w t q n. unfold threads_of. cbn [spawn w_threads filter t_pid]. destruct (q =? p); reflexivity. Qed.

Lemma prctl_ids : forall oom t d prog, t_uid (snd (kernel_prctl oom t d prog)) = t_uid t /\
  t_pid (snd (kernel_prctl oom t d prog)) = t_pid t.
Proof.
  intros oom t d prog. unfold kernel_prctl, enter_strict.
  repeat match goal with
  | |- context [if ?c then _ else _] => destruct c
  | |- context [match ?c with inl _ => _ | inr _ => _ end] => destruct c
  | |- context [match ?c with [] => _ | _ :: _ => _ end] => destruct c
  end; split; reflexivity.
Qed.
Lemma strict_ids : forall t, t_uid (snd (enter_strict t)) = t_uid t /\ t_pid (snd (enter_strict t)) = t_pid t.
Proof. intros t. unfold enter_strict. destruct (t_filters t); split; reflexivity. Qed.
Lemma step_ids : forall prof amb t ph, t_uid (snd (pledge_step prof amb t ph)) = t_uid t /\
  t_pid (snd (pledge_step prof amb t ph)) = t_pid t.
Proof.
  intros prof amb t ph. destruct ph as [ps v|ps v done [|f todo]|ps v prog|ps v prog]; cbn [pledge_step]; try (split; reflexivity).
  - destruct (fate_of t amb (call_set_nnp amb)); split; reflexivity.
  - pose proof (prctl_ids (amb_oom amb) t (call_set_seccomp amb) (fprog_of prog)) as X.
    destruct (fate_of t amb (call_set_seccomp amb)); try (split; reflexivity).
    destruct (kernel_prctl (amb_oom amb) t (call_set_seccomp amb) (fprog_of prog)) as [r x]. exact X.
Qed.

(** A call of another process that creates nobody. *)
Lemma effect_others : forall w t d o p, distinct w -> In t (w_threads w) -> t_pid t <> p ->
  (forall c x, ~ In (EvSpawn c x) (snd (sys_effect w t d o))) ->
  threads_of p (fst (sys_effect w t d o)) = threads_of p w /\ w_next (fst (sys_effect w t d o)) = w_next w.
Proof.
  intros w t d o p D It N. unfold sys_effect.
  assert (NT : forall q, (forall c x, ~ In (EvSpawn c x) (snd (if o_refuse o then (w, [])
       else (spawn w t q (o_newid o), [EvSpawn (t_uid t) (w_next w)])))) ->
     threads_of p (fst (if o_refuse o then (w, []) else (spawn w t q (o_newid o), [EvSpawn (t_uid t) (w_next w)]))) = threads_of p w /\
     w_next (fst (if o_refuse o then (w, []) else (spawn w t q (o_newid o), [EvSpawn (t_uid t) (w_next w)]))) = w_next w).
  { intros q H. destruct (o_refuse o); [split; reflexivity|]. exfalso. apply (H (t_uid t) (w_next w)). left. reflexivity. }
  destruct ((sd_nr d =? SYS_fork) || (sd_nr d =? SYS_vfork)); [exact (NT _)|].
  destruct (sd_nr d =? SYS_clone); [exact (NT _)|].
  destruct (sd_nr d =? SYS_clone3); [exact (NT _)|]. clear NT. intros _.
  destruct (prctl_ids (o_refuse o) t d (o_payload o)) as [P1 P2]. destruct (strict_ids t) as [S1 S2].
  repeat match goal with
  | |- context [if ?c then _ else _] => destruct c
  | |- context [match attach_filter ?a ?b ?c ?d with inl _ => _ | inr _ => _ end] => destruct (attach_filter a b c d)
  end; cbn [fst snd]; (split; [|reflexivity || (destruct w; reflexivity)]); try reflexivity.
  all: first [apply (of_put_other w t); auto|apply (of_sync_other w t); auto|apply (of_run_other w t); auto|apply (of_death_other w t); auto].
Qed.

Lemma c120_others : forall prof w o p,
  distinct w -> acts_in p w o = false ->
  (forall c x, ~ In (EvSpawn c x) (snd (wstep prof w o))) ->
  threads_of p (fst (wstep prof w o)) = threads_of p w /\ w_next (fst (wstep prof w o)) = w_next w.
Proof.
  intros prof w o p D A NS.
  assert (F : forall t, find_thread w (whose o) = Some t -> In t (w_threads w) /\ t_pid t <> p).
  { intros t F. apply find_thread_spec in F. destruct F as [I U]. split; [exact I|]. intros P.
    unfold acts_in in A. assert (X : existsb (fun t => Nat.eqb (t_uid t) (whose o)) (threads_of p w) = true).
    { apply existsb_exists. exists t. split; [apply in_threads_of; auto|]. apply Nat.eqb_eq. exact U. }
    congruence. }
  destruct o as [u ps v|u amb|u d o|u b|u]; cbn [wstep whose] in *.
  - destruct (find_thread w u) as [t|]; [|split; reflexivity]. destruct (F t eq_refl) as [It N]. 
    destruct (t_call t); cbn [fst]; [split; reflexivity|]. split; [|reflexivity]. apply (of_put_other w t); auto.
  - destruct (find_thread w u) as [t|]; [|split; reflexivity]. destruct (F t eq_refl) as [It N].
    destruct (t_call t) as [ph|]; [|split; reflexivity].
    destruct (step_ids prof amb t ph) as [P1 P2].
    destruct (pledge_step prof amb t ph) as [[ph1|[r|e| |k]] x]; cbn [fst snd] in *; (split; [|reflexivity || (destruct k; reflexivity)]);
      first [apply (of_put_other w t); auto|apply (of_death_other w t); auto].
  - destruct (find_thread w u) as [t|]; [|split; reflexivity]. destruct (F t eq_refl) as [It N].
    destruct (supervised_entry (o_sup o) (t_filters t) d) as [|r|k].
    + pose proof (effect_others w t d o p D It N) as X. destruct (sys_effect w t d o) as [w1 evs]. cbn [fst snd] in *.
      apply X. intros c x I. apply (NS c x). right. exact I.
    + split; reflexivity.
    + split; [apply (of_death_other w t); auto|destruct k; reflexivity].
  - destruct (find_thread w u) as [t|]; [|split; reflexivity]. destruct (F t eq_refl) as [It N].
    split; [|reflexivity]. apply (of_put_other w t); auto.
  - split; [|reflexivity]. unfold threads_of. cbn [drop_thread w_threads fst]. rewrite filter_swap. apply filter_all.
    intros x I. destruct (Nat.eqb_spec (t_uid x) u) as [E|E]; [|reflexivity]. exfalso.
    unfold acts_in in A. cbn [whose] in A.
    assert (X : existsb (fun t => Nat.eqb (t_uid t) u) (threads_of p w) = true).
    { apply existsb_exists. exists x. split; [exact I|apply Nat.eqb_eq; exact E]. }
    congruence.
Qed.

(** A step of the process itself, in two worlds where it is the same. *)
Definition agree (p : N) (w v : world) : Prop := threads_of p v = threads_of p w /\ w_next v = w_next w.

Lemma effect_own : forall w v t d o p, distinct w -> distinct v -> In t (w_threads w) -> In t (w_threads v) ->
  t_pid t = p -> agree p w v ->
  snd (sys_effect v t d o) = snd (sys_effect w t d o) /\ agree p (fst (sys_effect w t d o)) (fst (sys_effect v t d o)).
Proof.
  intros w v t d o p Dw Dv Iw Iv P [A N]. unfold sys_effect.
  assert (NT : forall q,
    snd (if o_refuse o then (v, []) else (spawn v t q (o_newid o), [EvSpawn (t_uid t) (w_next v)])) =
    snd (if o_refuse o then (w, []) else (spawn w t q (o_newid o), [EvSpawn (t_uid t) (w_next w)])) /\
    agree p (fst (if o_refuse o then (w, []) else (spawn w t q (o_newid o), [EvSpawn (t_uid t) (w_next w)])))
      (fst (if o_refuse o then (v, []) else (spawn v t q (o_newid o), [EvSpawn (t_uid t) (w_next v)])))).
  { intros q. destruct (o_refuse o); cbn [fst snd]; [split; [reflexivity|split; assumption]|].
    rewrite N. split; [reflexivity|]. split; [rewrite !of_spawn, A, N; reflexivity|cbn; rewrite N; reflexivity]. }
  destruct ((sd_nr d =? SYS_fork) || (sd_nr d =? SYS_vfork)); [exact (NT _)|].
  destruct (sd_nr d =? SYS_clone); [exact (NT _)|].
  destruct (sd_nr d =? SYS_clone3); [exact (NT _)|]. clear NT.
  destruct (prctl_ids (o_refuse o) t d (o_payload o)) as [P1 P2]. destruct (strict_ids t) as [S1 S2].
  assert (PUT : forall t1, t_uid t1 = t_uid t -> t_pid t1 = t_pid t -> agree p (put_thread w t1) (put_thread v t1)).
  { intros t1 U1 U2. split; [|exact N]. rewrite (of_put w t Dw Iw), (of_put v t Dv Iv), A by assumption. reflexivity. }
  assert (DEATH : forall k, agree p (apply_death w t k) (apply_death v t k)).
  { intros k. split; [rewrite !of_death, A; reflexivity|destruct k; exact N]. }
  destruct (sd_nr d =? SYS_prctl); [split; [reflexivity|apply PUT; assumption]|].
  destruct ((sd_nr d =? SYS_seccomp) && ((lo32 (sd_a0 d) =? 0) && (lo32 (sd_a1 d) =? 0) && (sd_a2 d =? 0)));
    [split; [reflexivity|apply PUT; assumption]|].
  destruct ((sd_nr d =? SYS_seccomp) && (lo32 (sd_a0 d) =? 1)).
  { destruct (attach_filter (o_refuse o) (t_nnp t || t_cap t) (t_filters t) (o_payload o)) as [e|fs];
      [split; [reflexivity|split; assumption]|].
    destruct (N.testbit (sd_a1 d) 0); [|split; [reflexivity|apply PUT; reflexivity]].
    rewrite (of_sync_can w t p P), (of_sync_can v t p P), A.
    destruct (forallb (fun x => older_part (t_filters x) (t_filters t)) (threads_of p w)); cbn [fst snd]; (split; [reflexivity|]);
      [|split; assumption]. split; [rewrite !of_sync, A; reflexivity|exact N]. }
  destruct (((sd_nr d =? SYS_execve) || (sd_nr d =? SYS_execveat)) && negb (o_refuse o)).
  { split; [reflexivity|]. split; [|exact N]. cbn [fst]. rewrite (of_run w t Dw Iw), (of_run v t Dv Iv), A. reflexivity. }
  destruct (sd_nr d =? SYS_exit); [split; [reflexivity|apply DEATH]|].
  destruct (sd_nr d =? SYS_exit_group); [split; [reflexivity|apply DEATH]|].
  split; [reflexivity|split; assumption].
Qed.

Lemma c120_own : forall prof w v o p,
  distinct w -> distinct v -> threads_of p v = threads_of p w -> w_next v = w_next w -> acts_in p w o = true ->
  snd (wstep prof v o) = snd (wstep prof w o) /\
  threads_of p (fst (wstep prof v o)) = threads_of p (fst (wstep prof w o)) /\
  w_next (fst (wstep prof v o)) = w_next (fst (wstep prof w o)).
Proof.
  intros prof w v o p Dw Dv A N AI. unfold acts_in in AI. apply existsb_exists in AI. destruct AI as (t & It & U).
  apply Nat.eqb_eq in U. assert (Iv := It). rewrite <- A in Iv. apply in_threads_of in It. destruct It as [Iw P].
  apply in_threads_of in Iv. destruct Iv as [Iv _].
  assert (Fw : find_thread w (whose o) = Some t).
  { destruct (find_thread w (whose o)) as [t'|] eqn:F.
    - apply find_thread_spec in F. destruct F as [I' U']. f_equal. apply (nodup_same w); congruence.
    - exfalso. unfold find_thread in F. apply (find_none _ _ F) in Iw. apply Nat.eqb_neq in Iw. contradiction. }
  assert (Fv : find_thread v (whose o) = Some t).
  { destruct (find_thread v (whose o)) as [t'|] eqn:F.
    - apply find_thread_spec in F. destruct F as [I' U']. f_equal. apply (nodup_same v); congruence.
    - exfalso. unfold find_thread in F. apply (find_none _ _ F) in Iv. apply Nat.eqb_neq in Iv. contradiction. }
  assert (PUT : forall t1, t_uid t1 = t_uid t -> t_pid t1 = t_pid t -> agree p (put_thread w t1) (put_thread v t1)).
  { intros t1 U1 U2. split; [|exact N]. rewrite (of_put w t Dw Iw), (of_put v t Dv Iv), A by assumption. reflexivity. }
  assert (DEATH : forall k, agree p (apply_death w t k) (apply_death v t k)).
  { intros k. split; [rewrite !of_death, A; reflexivity|destruct k; exact N]. }
  change (snd (wstep prof v o) = snd (wstep prof w o) /\ agree p (fst (wstep prof w o)) (fst (wstep prof v o))).
  destruct o as [u ps v0|u amb|u d o|u b|u]; cbn [wstep whose] in *; rewrite ?Fw, ?Fv.
  - split; [reflexivity|]. destruct (t_call t); cbn [fst]; [split; assumption|]. apply PUT; reflexivity.
  - destruct (t_call t) as [ph|]; [|split; [reflexivity|split; assumption]].
    destruct (step_ids prof amb t ph) as [P1 P2].
    destruct (pledge_step prof amb t ph) as [[ph1|[r|e| |k]] x]; cbn [fst snd] in *; (split; [reflexivity|]);
      first [apply PUT; assumption|apply DEATH].
  - destruct (supervised_entry (o_sup o) (t_filters t) d) as [|r|k].
    + destruct (effect_own w v t d o p Dw Dv Iw Iv P (conj A N)) as [E1 E2].
      destruct (sys_effect w t d o) as [w1 e1], (sys_effect v t d o) as [v1 e1']. cbn [fst snd] in *.
      rewrite E1. split; [reflexivity|exact E2].
    + split; [reflexivity|split; assumption].
    + split; [reflexivity|apply DEATH].
  - split; [reflexivity|]. apply PUT; reflexivity.
  - split; [reflexivity|]. split; [|exact N]. unfold threads_of in *. cbn [drop_thread w_threads fst].
    rewrite !(filter_swap _ (fun t0 => t_pid t0 =? p)), A. reflexivity.
Qed.

(** What is observed is the doing of the task chosen. *)
Lemma ev_actor : forall prof w o ev, In ev (snd (wstep prof w o)) -> actor ev = whose o.
Proof.
  intros prof w o ev. destruct o as [u ps v|u amb|u d o|u b|u]; cbn [wstep whose].
  - destruct (find_thread w u); intros [].
  - destruct (find_thread w u) as [t|] eqn:F; [|intros []]. apply find_thread_spec in F. destruct F as [_ U].
    destruct (t_call t) as [ph|]; [|intros []].
    assert (C : In ev (step_calls t amb ph) -> actor ev = u).
    { rewrite <- U. clear. destruct ph as [ps v|ps v done [|[] todo]|ps v prog|ps v prog]; cbn; intuition (subst; reflexivity). }
    destruct (pledge_step prof amb t ph) as [[ph1|[r|e| |k]] x]; cbn [snd]; try exact C;
      (intros I; apply in_app_or in I; destruct I as [I|I]; [exact (C I)|]; apply in_app_or in I; destruct I as [I|[<-|[]]]; [|reflexivity];
       destruct (Nat.eqb (length (t_filters x)) (length (t_filters t))); [destruct I|destruct I as [<-|[]]; reflexivity]).
  - destruct (find_thread w u) as [t|] eqn:F; [|intros []]. apply find_thread_spec in F. destruct F as [_ U].
    destruct (supervised_entry (o_sup o) (t_filters t) d) as [|r|k]; try (intros [<-|[]]; reflexivity).
    assert (C : forall ev, In ev (snd (sys_effect w t d o)) -> actor ev = u).
    { intros e'. rewrite <- U. unfold sys_effect.
      repeat match goal with
      | |- context [if ?c then _ else _] => destruct c
      | |- context [match attach_filter ?a ?b ?c ?d with inl _ => _ | inr _ => _ end] => destruct (attach_filter a b c d)
      end; cbn; intuition (subst; reflexivity). }
    destruct (sys_effect w t d o) as [w1 evs]. cbn [snd] in *. intros [<-|I]; [reflexivity|exact (C ev I)].
  - destruct (find_thread w u); intros [].
  - intros [].
Qed.

Lemma filter_ev_all : forall (g : event -> bool) l, (forall x, In x l -> g x = true) -> filter g l = l.
Proof.
  intros f l H. induction l as [|x l IH]; [reflexivity|]. cbn [filter]. rewrite (H x (or_introl eq_refl)), IH; [reflexivity|].
  intros y I. apply H. right. exact I.
Qed.
Lemma filter_ev_none : forall (g : event -> bool) l, (forall x, In x l -> g x = false) -> filter g l = [].
Proof.
  intros f l H. induction l as [|x l IH]; [reflexivity|]. cbn [filter]. rewrite (H x (or_introl eq_refl)). apply IH.
  intros y I. apply H. right. exact I.
Qed.

Lemma history_alone : forall prof p mine ops w v,
  sound w -> sound v -> threads_of p v = threads_of p w -> w_next v = w_next w ->
  (forall ops1 ops2 t, ops = ops1 ++ ops2 -> In t (w_threads (fst (wrun prof w ops1))) ->
     mine (t_uid t) = (t_pid t =? p)) ->
  (forall c x, In (EvSpawn c x) (snd (wrun prof w ops)) -> mine c = true) ->
  let alone := wrun prof v (choices_of prof p w ops) in
  threads_of p (fst alone) = threads_of p (fst (wrun prof w ops)) /\
  w_next (fst alone) = w_next (fst (wrun prof w ops)) /\
  snd alone = filter (fun ev => mine (actor ev)) (snd (wrun prof w ops)).
Proof.
  intros prof p mine ops. induction ops as [|o ops IH]; intros w v Sw Sv A N M NS; cbn [choices_of wrun] in *.
  - cbn. auto.
  - destruct (wstep prof w o) as [w1 e1] eqn:S. destruct (wrun prof w1 ops) as [w2 e2] eqn:R. cbn [fst snd] in *.
    pose proof (ev_actor prof w o) as EA. rewrite S in EA. cbn [snd] in EA.
    destruct (wstep_sound prof w o w1 e1 Sw S) as (S1 & _ & _ & Y).
    assert (M1 : forall ops1 ops2 t, ops = ops1 ++ ops2 -> In t (w_threads (fst (wrun prof w1 ops1))) -> mine (t_uid t) = (t_pid t =? p)).
    { intros ops1 ops2 t E I. apply (M (o :: ops1) ops2 t); [rewrite E; reflexivity|]. cbn [wrun]. rewrite S.
      destruct (wrun prof w1 ops1). exact I. }
    assert (NS1 : forall c x, In (EvSpawn c x) (snd (wrun prof w1 ops)) -> mine c = true).
    { intros c x I. apply (NS c x). rewrite R in I. apply in_or_app. right. exact I. }
    assert (W : forall t, In t (w_threads w) -> mine (t_uid t) = (t_pid t =? p)) by (intros t I; exact (M [] (o :: ops) t eq_refl I)).
    rewrite filter_app.
    destruct (acts_in p w o) eqn:AI; cbn [app wrun].
    + destruct (c120_own prof w v o p (proj1 Sw) (proj1 Sv) A N AI) as (E1 & E2 & E3). rewrite S in E1, E2, E3. cbn [fst snd] in E1, E2, E3.
      destruct (wstep prof v o) as [v1 e1'] eqn:Sv1. cbn [fst snd] in E1, E2, E3. subst e1'.
      destruct (wstep_sound prof v o v1 e1 Sv Sv1) as (S2 & _).
      specialize (IH w1 v1 S1 S2 E2 E3 M1 NS1). rewrite R in IH. cbn [fst snd] in IH.
      destruct (wrun prof v1 (choices_of prof p w1 ops)) as [v2 e2']. cbn [fst snd] in *.
      destruct IH as (I1 & I2 & I3). split; [exact I1|]. split; [exact I2|]. rewrite I3. f_equal. symmetry. apply filter_ev_all.
      intros ev I. rewrite (EA ev I). unfold acts_in in AI. apply existsb_exists in AI. destruct AI as (t & It & U).
      apply in_threads_of in It. destruct It as [It P]. apply Nat.eqb_eq in U. rewrite <- U, (W t It), P. apply N.eqb_refl.
    + assert (NM : forall ev, In ev e1 -> mine (actor ev) = false).
      { intros ev I. destruct (Y ev I) as (y & Iy & Uy). rewrite <- Uy, (W y Iy). apply N.eqb_neq. intros P.
        assert (X : existsb (fun t => Nat.eqb (t_uid t) (whose o)) (threads_of p w) = true).
        { apply existsb_exists. exists y. split; [apply in_threads_of; auto|]. apply Nat.eqb_eq. rewrite Uy. exact (EA ev I). }
        unfold acts_in in AI. congruence. }
      destruct (c120_others prof w o p (proj1 Sw) AI) as [E1 E2].
      { rewrite S. intros c x I. cbn [snd] in I. specialize (NM _ I). cbn [actor] in NM.
        rewrite (NS c x) in NM; [discriminate|]. apply in_or_app. left. exact I. }
      rewrite S in E1, E2. cbn [fst] in E1, E2.
      specialize (IH w1 v S1 Sv ltac:(congruence) ltac:(congruence) M1 NS1). rewrite R in IH. cbn [fst snd] in IH.
      destruct IH as (I1 & I2 & I3). split; [exact I1|]. split; [exact I2|]. rewrite I3.
      rewrite (filter_ev_none _ e1 NM). reflexivity.
Qed.

Lemma c120_history : forall prof p mine ops w v,
  distinct w -> Forall (fun t => (t_uid t < w_next w)%nat) (w_threads w) ->
  distinct v -> Forall (fun t => (t_uid t < w_next v)%nat) (w_threads v) ->
  threads_of p v = threads_of p w -> w_next v = w_next w ->
  (forall ops1 ops2 t, ops = ops1 ++ ops2 -> In t (w_threads (fst (wrun prof w ops1))) ->
     mine (t_uid t) = (t_pid t =? p)) ->
  (forall c x, In (EvSpawn c x) (snd (wrun prof w ops)) -> mine c = true) ->
  let alone := wrun prof v (choices_of prof p w ops) in
  threads_of p (fst alone) = threads_of p (fst (wrun prof w ops)) /\
  w_next (fst alone) = w_next (fst (wrun prof w ops)) /\
  snd alone = filter (fun ev => mine (actor ev)) (snd (wrun prof w ops)).
Proof. intros prof p mine ops w v D1 F1 D2 F2. apply history_alone; split; assumption. Qed.
