(** A process runs as if alone, whatever others create (C120). *)
From Coq Require Import NArith ZArith String List Bool Lia.
From Verif Require Import Libc Machine Bpf SeccompRet Asm Vm Promises Filters Kernel World Spec.
From Verif Require Import FragProofs PolicyProofs CodeProofs PledgeProofs StackProofs WorldProofs HistoryProofs DeathProofs
  LiveProofs ApartFacts RenameSpec.
Import ListNotations.
Local Open Scope N_scope.

(** * What a thread does does not depend on its name *)

Lemma prctl_named : forall f oom t d prog, kernel_prctl oom (named f t) d prog =
  (fst (kernel_prctl oom t d prog), named f (snd (kernel_prctl oom t d prog))).
Proof.
  intros f oom t d prog. unfold kernel_prctl, enter_strict. cbn [named t_nnp t_cap t_filters].
  repeat match goal with
  | |- context [if ?c then _ else _] => destruct c
  | |- context [match ?c with inl _ => _ | inr _ => _ end] => destruct c
  | |- context [match ?c with [] => _ | _ :: _ => _ end] => destruct c
  end; reflexivity.
Qed.
Lemma strict_named : forall f t, enter_strict (named f t) = (fst (enter_strict t), named f (snd (enter_strict t))).
Proof. intros f t. unfold enter_strict. cbn [named t_filters]. destruct (t_filters t); reflexivity. Qed.
Lemma step_named : forall f prof amb t ph, pledge_step prof amb (named f t) ph =
  (fst (pledge_step prof amb t ph), named f (snd (pledge_step prof amb t ph))).
Proof.
  intros f prof amb t ph. destruct ph as [ps v|ps v done [|g todo]|ps v prog|ps v prog]; cbn [pledge_step]; try reflexivity.
  - change (fate_of (named f t) amb) with (fate_of t amb).
    destruct (fate_of t amb (call_set_nnp amb)); reflexivity.
  - change (fate_of (named f t) amb) with (fate_of t amb).
    destruct (fate_of t amb (call_set_seccomp amb)); try reflexivity.
    rewrite prctl_named. destruct (kernel_prctl (amb_oom amb) t (call_set_seccomp amb) (fprog_of prog)); reflexivity.
Qed.
Lemma calls_named : forall f t amb ph, step_calls (named f t) amb ph = map (named_event f) (step_calls t amb ph).
Proof. intros f t amb ph. destruct ph as [ps v|ps v done [|[] todo]|ps v prog|ps v prog]; reflexivity. Qed.

(** * Lists of threads under other names *)

Definition inj (f : nat -> nat) (l : list thread) : Prop :=
  forall x y, In x l -> In y l -> f (t_uid x) = f (t_uid y) -> t_uid x = t_uid y.

Lemma inj_eqb : forall f l x y, inj f l -> In x l -> In y l -> Nat.eqb (f (t_uid x)) (f (t_uid y)) = Nat.eqb (t_uid x) (t_uid y).
Proof.
  intros f l x y J Ix Iy. destruct (Nat.eqb_spec (t_uid x) (t_uid y)) as [E|E].
  - rewrite E. apply Nat.eqb_refl.
  - apply Nat.eqb_neq. intros X. apply E, J; assumption.
Qed.
Lemma filter_map_in : forall (f : thread -> thread) (g h : thread -> bool) l,
  (forall x, In x l -> g (f x) = h x) -> filter g (map f l) = map f (filter h l).
Proof.
  intros f g h l. induction l as [|x l IH]; intros H; [reflexivity|]. cbn [map filter]. rewrite (H x (or_introl eq_refl)).
  rewrite IH by (intros y I; apply H; right; exact I). destruct (h x); reflexivity.
Qed.

Section Own.
Variables (w v : world) (t : thread) (f : nat -> nat) (p : N).
Hypothesis Dw : distinct w.
Hypothesis Dv : distinct v.
Hypothesis It : In t (threads_of p w).
Hypothesis A : threads_of p v = map (named f) (threads_of p w).
Hypothesis J : inj f (threads_of p w).

Lemma It_w : In t (w_threads w). Proof. apply in_threads_of in It. apply It. Qed.
Lemma It_v : In (named f t) (w_threads v).
Proof. apply (in_threads_of p). rewrite A. apply in_map. exact It. Qed.

Definition same (w' v' : world) : Prop := threads_of p v' = map (named f) (threads_of p w').

Lemma own_put : forall t1, t_uid t1 = t_uid t -> t_pid t1 = t_pid t -> same (put_thread w t1) (put_thread v (named f t1)).
Proof.
  intros t1 U P. unfold same. rewrite (of_put w t Dw It_w), (of_put v (named f t) Dv It_v), A;
    [|cbn [named t_uid]; congruence|exact P|exact U|exact P].
  rewrite !map_map. apply map_ext_in. intros x Ix. cbn [named t_uid]. rewrite U, (inj_eqb f _ x t J Ix It).
  destruct (Nat.eqb (t_uid x) (t_uid t)); reflexivity.
Qed.
Lemma own_death : forall k, same (apply_death w t k) (apply_death v (named f t) k).
Proof.
  intros k. unfold same. rewrite !of_death, A. apply filter_map_in. intros x Ix. cbn [named t_uid t_pid].
  rewrite (inj_eqb f _ x t J Ix It). reflexivity.
Qed.
Lemma own_drop : same (drop_thread w (t_uid t)) (drop_thread v (f (t_uid t))).
Proof. exact (own_death DeathThread). Qed.
Lemma own_run : same (run_program w t) (run_program v (named f t)).
Proof.
  unfold same. rewrite (of_run w t Dw It_w), (of_run v (named f t) Dv It_v), A.
  rewrite (filter_map_in (named f) _ (fun x => Nat.eqb (t_uid x) (t_uid t) || negb (t_pid x =? t_pid t))).
  - rewrite !map_map. apply map_ext_in. intros x Ix. apply filter_In in Ix. destruct Ix as [Ix _]. cbn [named t_uid].
    rewrite (inj_eqb f _ x t J Ix It). destruct (Nat.eqb (t_uid x) (t_uid t)); reflexivity.
  - intros x Ix. cbn [named t_uid t_pid]. rewrite (inj_eqb f _ x t J Ix It). reflexivity.
Qed.
Lemma own_sync : forall fs, same (sync_threads w t fs) (sync_threads v (named f t) fs).
Proof.
  intros fs. unfold same. rewrite !of_sync, A, !map_map. apply map_ext_in. intros x Ix. cbn [named t_pid t_nnp].
  destruct (t_pid x =? t_pid t); [|reflexivity]. destruct (t_nnp t); reflexivity.
Qed.
Lemma own_can : can_sync v (named f t) = can_sync w t.
Proof.
  assert (P : t_pid t = p) by (apply in_threads_of in It; apply It).
  rewrite (of_sync_can w t p P), (of_sync_can v (named f t) p P), A.
  generalize (threads_of p w). induction l as [|x l IH]; [reflexivity|]. cbn [map forallb]. rewrite IH. reflexivity.
Qed.
End Own.

(** The names after a step in which, maybe, somebody is created. *)
Definition next_name (f : nat -> nat) (n m : nat) : nat -> nat := fun u => if Nat.eqb u n then m else f u.

Lemma named_same : forall f g l, (forall x, In x l -> f (t_uid x) = g (t_uid x)) -> map (named f) l = map (named g) l.
Proof. intros f g l H. apply map_ext_in. intros x I. unfold named. rewrite (H x I). reflexivity. Qed.

Lemma next_old : forall f n m (l : list thread), Forall (fun t => (t_uid t < n)%nat) l ->
  map (named (next_name f n m)) l = map (named f) l.
Proof.
  intros f n m l H. apply named_same. intros x I. rewrite Forall_forall in H. specialize (H x I). cbn beta in H.
  unfold next_name. destruct (Nat.eqb_spec (t_uid x) n); [lia|reflexivity].
Qed.

Lemma old_of : forall p w, Forall (fun t => (t_uid t < w_next w)%nat) (w_threads w) ->
  Forall (fun t => (t_uid t < w_next w)%nat) (threads_of p w).
Proof.
  intros p w H. rewrite Forall_forall in *. intros x I. apply in_threads_of in I. apply H, I.
Qed.

(** A call of a thread of the process. *)
Lemma effect_named : forall w v t d o f p, sound w -> sound v -> In t (threads_of p w) ->
  threads_of p v = map (named f) (threads_of p w) -> inj f (threads_of p w) ->
  let f' := next_name f (w_next w) (w_next v) in
  snd (sys_effect v (named f t) d o) = map (named_event f') (snd (sys_effect w t d o)) /\
  threads_of p (fst (sys_effect v (named f t) d o)) = map (named f') (threads_of p (fst (sys_effect w t d o))).
Proof.
  intros w v t d o f p Sw Sv It A J f'.
  assert (Iw : In t (w_threads w)) by (apply in_threads_of in It; apply It).
  assert (Old : forall l, Forall (fun t => (t_uid t < w_next w)%nat) l -> map (named f') l = map (named f) l)
    by (intros l; apply next_old).
  assert (Keep : forall (w' v' : world), w_next w' = w_next w -> sound w' -> same f p w' v' ->
    threads_of p v' = map (named f') (threads_of p w')).
  { intros w' v' N [_ S] E. rewrite E. symmetry. apply Old. rewrite <- N. apply old_of. exact S. }
  assert (Snd : sound (fst (sys_effect w t d o))).
  { destruct (sys_effect w t d o) as [w1 evs] eqn:E. exact (proj1 (sys_effect_sound w t d o w1 evs Sw Iw E)). }
  revert Snd. unfold sys_effect.
  assert (Ut : (t_uid t < w_next w)%nat) by (destruct Sw as [_ F]; rewrite Forall_forall in F; apply F; exact Iw).
  assert (NT : forall q,
    sound (fst (if o_refuse o then (w, []) else (spawn w t q (o_newid o), [EvSpawn (t_uid t) (w_next w)]))) ->
    snd (if o_refuse o then (v, []) else (spawn v (named f t) q (o_newid o), [EvSpawn (t_uid (named f t)) (w_next v)])) =
    map (named_event f') (snd (if o_refuse o then (w, []) else (spawn w t q (o_newid o), [EvSpawn (t_uid t) (w_next w)]))) /\
    threads_of p (fst (if o_refuse o then (v, []) else (spawn v (named f t) q (o_newid o), [EvSpawn (t_uid (named f t)) (w_next v)]))) =
    map (named f') (threads_of p (fst (if o_refuse o then (w, []) else (spawn w t q (o_newid o), [EvSpawn (t_uid t) (w_next w)]))))).
  { intros q S. destruct (o_refuse o); cbn [fst snd].
    - split; [reflexivity|]. rewrite Old; [exact A|]. apply old_of, Sw.
    - split.
      + cbn [map named_event named t_uid]. unfold f', next_name. rewrite Nat.eqb_refl.
        destruct (Nat.eqb_spec (t_uid t) (w_next w)); [lia|reflexivity].
      + rewrite !of_spawn, map_app, A, (Old (threads_of p w)) by (apply old_of, Sw). f_equal. destruct (q =? p); [|reflexivity].
        cbn [map]. unfold named. cbn [t_uid t_pid t_tid t_nnp t_cap t_filters t_call]. unfold f', next_name. rewrite Nat.eqb_refl.
        reflexivity. }
  destruct ((sd_nr d =? SYS_fork) || (sd_nr d =? SYS_vfork)); [exact (NT _)|].
  destruct (sd_nr d =? SYS_clone); [exact (NT _)|].
  destruct (sd_nr d =? SYS_clone3); [exact (NT _)|]. clear NT.
  destruct (prctl_ids (o_refuse o) t d (o_payload o)) as [P1 P2]. destruct (strict_ids t) as [S1 S2].
  rewrite prctl_named, strict_named. cbn [snd].
  change (t_nnp (named f t)) with (t_nnp t). change (t_cap (named f t)) with (t_cap t).
  change (t_filters (named f t)) with (t_filters t).
  rewrite (own_can w v t f p It A).
  destruct (sd_nr d =? SYS_prctl).
  { intros S. split; [reflexivity|]. apply Keep; [reflexivity|exact S|]. cbn [fst]. apply (own_put w v t f p); assumption || apply Sw || apply Sv. }
  destruct ((sd_nr d =? SYS_seccomp) && ((lo32 (sd_a0 d) =? 0) && (lo32 (sd_a1 d) =? 0) && (sd_a2 d =? 0))).
  { intros S. split; [reflexivity|]. apply Keep; [reflexivity|exact S|]. cbn [fst]. apply (own_put w v t f p); assumption || apply Sw || apply Sv. }
  destruct ((sd_nr d =? SYS_seccomp) && (lo32 (sd_a0 d) =? 1)).
  { destruct (attach_filter (o_refuse o) (t_nnp t || t_cap t) (t_filters t) (o_payload o)) as [e|fs].
    { intros S. split; [reflexivity|]. apply Keep; [reflexivity|exact S|exact A]. }
    destruct (N.testbit (sd_a1 d) 0).
    - intros S. split; [reflexivity|]. apply Keep; [destruct (can_sync w t); reflexivity|exact S|]. cbn [fst].
      destruct (can_sync w t); [|exact A]. apply (own_sync w v t f p). exact A.
    - intros S. split; [reflexivity|]. apply Keep; [reflexivity|exact S|]. cbn [fst].
      apply (own_put w v t f p (proj1 Sw) (proj1 Sv) It A J (set_filters t fs)); reflexivity. }
  destruct (((sd_nr d =? SYS_execve) || (sd_nr d =? SYS_execveat)) && negb (o_refuse o)).
  { intros S. split; [reflexivity|]. apply Keep; [reflexivity|exact S|]. cbn [fst]. apply (own_run w v t f p); assumption || apply Sw || apply Sv. }
  destruct (sd_nr d =? SYS_exit).
  { intros S. split; [reflexivity|]. apply Keep; [reflexivity|exact S|]. cbn [fst]. apply (own_death w v t f p); assumption. }
  destruct (sd_nr d =? SYS_exit_group).
  { intros S. split; [reflexivity|]. apply Keep; [reflexivity|exact S|]. cbn [fst]. apply (own_death w v t f p); assumption. }
  intros S. split; [reflexivity|]. apply Keep; [reflexivity|exact S|exact A].
Qed.

(** Other names are different names: they are names of different threads. *)
Lemma nodup_inj : forall (g : thread -> nat) l x y, NoDup (map g l) -> In x l -> In y l -> g x = g y -> x = y.
Proof.
  intros g l x y. induction l as [|z l IH]; intros ND Ix Iy E; [destruct Ix|]. cbn [map] in ND. inversion ND as [|? ? N1 N2]; subst.
  destruct Ix as [->|Ix], Iy as [->|Iy]; [reflexivity| | |apply IH; assumption]; exfalso; apply N1.
  - rewrite E. apply in_map. exact Iy.
  - rewrite <- E. apply in_map. exact Ix.
Qed.
Lemma nodup_filter : forall (g : thread -> bool) l, NoDup (map t_uid l) -> NoDup (map t_uid (filter g l)).
Proof.
  intros g l. induction l as [|x l IH]; intros ND; [constructor|]. cbn [map] in ND. inversion ND as [|? ? N1 N2]; subst.
  cbn [filter]. destruct (g x); [|apply IH; assumption]. cbn [map]. constructor; [|apply IH; assumption].
  intros I. apply N1. apply in_map_iff in I. destruct I as (y & E & I). apply filter_In in I. rewrite <- E. apply in_map, I.
Qed.
Lemma names_differ : forall p w v f, distinct v -> threads_of p v = map (named f) (threads_of p w) -> inj f (threads_of p w).
Proof.
  intros p w v f D A x y Ix Iy E. f_equal. apply (nodup_inj (fun t => f (t_uid t)) (threads_of p w)); try assumption.
  replace (map (fun t => f (t_uid t)) (threads_of p w)) with (map t_uid (threads_of p v)).
  - apply nodup_filter. exact D.
  - rewrite A, map_map. reflexivity.
Qed.

Lemma of_find : forall w t u, distinct w -> In t (w_threads w) -> t_uid t = u -> find_thread w u = Some t.
Proof.
  intros w t u D I U. destruct (find_thread w u) as [t'|] eqn:F.
  - apply find_thread_spec in F. destruct F as [I' U']. f_equal. apply (nodup_same w); congruence.
  - exfalso. unfold find_thread in F. apply (find_none _ _ F) in I. apply Nat.eqb_neq in I. contradiction.
Qed.

(** A step of the process, in two worlds in which it is the same but for the names. *)
Lemma own_named : forall prof w v o f p, sound w -> sound v ->
  threads_of p v = map (named f) (threads_of p w) -> acts_in p w o = true ->
  let f' := next_name f (w_next w) (w_next v) in
  snd (wstep prof v (named_op f o)) = map (named_event f') (snd (wstep prof w o)) /\
  threads_of p (fst (wstep prof v (named_op f o))) = map (named f') (threads_of p (fst (wstep prof w o))).
Proof.
  intros prof w v o f p Sw Sv A AI f'. assert (J := names_differ p w v f (proj1 Sv) A).
  unfold acts_in in AI. apply existsb_exists in AI. destruct AI as (t & It & U). apply Nat.eqb_eq in U.
  assert (Iw := It). apply in_threads_of in Iw. destruct Iw as [Iw P].
  assert (Iv := It_v w v t f p It A).
  assert (Fw := of_find w t (whose o) (proj1 Sw) Iw U).
  assert (Fv : find_thread v (f (whose o)) = Some (named f t)).
  { apply of_find; [apply Sv|exact Iv|]. cbn [named t_uid]. rewrite U. reflexivity. }
  assert (Ut : (t_uid t < w_next w)%nat) by (destruct Sw as [_ F]; rewrite Forall_forall in F; apply F; exact Iw).
  assert (Ff : f' (t_uid t) = f (t_uid t)).
  { unfold f', next_name. destruct (Nat.eqb_spec (t_uid t) (w_next w)); [lia|reflexivity]. }
  assert (Keep : forall (w' v' : world), w_next w' = w_next w -> sound w' -> same f p w' v' ->
    threads_of p v' = map (named f') (threads_of p w')).
  { intros w' v' N [_ S] E. rewrite E. symmetry. apply next_old. rewrite <- N. apply old_of. exact S. }
  assert (Snd : sound (fst (wstep prof w o))).
  { destruct (wstep prof w o) as [w1 e1] eqn:E. exact (proj1 (wstep_sound prof w o w1 e1 Sw E)). }
  assert (PUT : forall t1, t_uid t1 = t_uid t -> t_pid t1 = t_pid t -> same f p (put_thread w t1) (put_thread v (named f t1))).
  { intros t1 U1 U2. apply (own_put w v t f p (proj1 Sw) (proj1 Sv) It A J); assumption. }
  assert (DEATH : forall k, same f p (apply_death w t k) (apply_death v (named f t) k)).
  { intros k. apply (own_death w v t f p); assumption. }
  assert (DN : forall k, w_next (apply_death w t k) = w_next w) by (intros []; reflexivity).
  revert Snd.
  destruct o as [u ps v0|u amb|u d o|u b|u]; cbn [wstep whose named_op] in *; rewrite ?Fw, ?Fv; subst u.
  - cbn [named t_call]. destruct (t_call t); cbn [fst snd]; intros S; (split; [reflexivity|]); apply Keep; try reflexivity; try exact S.
    + exact A.
    + exact (PUT (set_call t _) eq_refl eq_refl).
  - change (t_call (named f t)) with (t_call t). destruct (t_call t) as [ph|].
    2:{ intros S. split; [reflexivity|]. apply Keep; [reflexivity|exact S|exact A]. }
    destruct (step_ids prof amb t ph) as [P1 P2]. rewrite step_named, calls_named.
    assert (CE : map (named_event f) (step_calls t amb ph) = map (named_event f') (step_calls t amb ph)).
    { rewrite <- !calls_named. unfold step_calls, named. rewrite Ff. reflexivity. }
    destruct (pledge_step prof amb t ph) as [[ph1|[r|e| |k]] x]; cbn [fst snd] in *; intros S; rewrite CE;
      (split; [rewrite ?map_app; cbn [map named_event named t_filters t_pid t_tid]; rewrite ?Ff; try reflexivity;
               destruct (Nat.eqb _ _); cbn [map named_event]; rewrite ?Ff; reflexivity|]);
      apply Keep; try reflexivity; try exact S; try apply DN; try apply DEATH.
    all: match goal with |- same _ _ (put_thread _ ?t1) _ => exact (PUT t1 P1 P2) end.
  - change (t_filters (named f t)) with (t_filters t).
    destruct (supervised_entry (o_sup o) (t_filters t) d) as [|r|k].
    + destruct (effect_named w v t d o f p Sw Sv It A J) as [E1 E2]. fold f' in E1, E2.
      destruct (sys_effect w t d o) as [w1 e1], (sys_effect v (named f t) d o) as [v1 e1']. cbn [fst snd] in *.
      rewrite E1. intros _. split; [cbn [map named_event]; rewrite Ff; reflexivity|exact E2].
    + intros S. split; [cbn [map named_event snd]; rewrite Ff; reflexivity|]. apply Keep; [reflexivity|exact S|exact A].
    + intros S. split; [cbn [map named_event snd]; rewrite Ff; reflexivity|]. apply Keep; [apply DN|exact S|apply DEATH].
  - intros S. split; [reflexivity|]. apply Keep; [reflexivity|exact S|]. exact (PUT (mkThread _ _ _ _ _ _ _) eq_refl eq_refl).
  - intros S. split; [reflexivity|]. apply Keep; [reflexivity|exact S|]. apply (own_drop w v t f p); assumption.
Qed.

(** The names in what a step shows are names given by then. *)
Lemma event_old : forall prof w o c x, In (EvSpawn c x) (snd (wstep prof w o)) -> (x < w_next (fst (wstep prof w o)))%nat.
Proof.
  intros prof w o c x. destruct o as [u ps v|u amb|u d o|u b|u]; cbn [wstep].
  - destruct (find_thread w u); intros [].
  - destruct (find_thread w u) as [t|]; [|intros []]. destruct (t_call t) as [ph|]; [|intros []].
    assert (C : In (EvSpawn c x) (step_calls t amb ph) -> False).
    { destruct ph as [ps v|ps v done [|[] todo]|ps v prog|ps v prog]; cbn; intuition discriminate. }
    destruct (pledge_step prof amb t ph) as [[ph1|[r|e| |k]] y]; cbn [snd]; intros I; exfalso; try exact (C I);
      (apply in_app_or in I; destruct I as [I|I]; [exact (C I)|]; apply in_app_or in I; destruct I as [I|[I|[]]]; [|discriminate];
       destruct (Nat.eqb _ _); [destruct I|destruct I as [I|[]]; discriminate]).
  - destruct (find_thread w u) as [t|]; [|intros []].
    destruct (supervised_entry (o_sup o) (t_filters t) d) as [|r|k]; try (intros [I|[]]; discriminate).
    assert (C : In (EvSpawn c x) (snd (sys_effect w t d o)) -> (x < w_next (fst (sys_effect w t d o)))%nat).
    { unfold sys_effect.
      repeat match goal with
      | |- context [if ?c then _ else _] => destruct c
      | |- context [match attach_filter ?a ?b ?c ?d with inl _ => _ | inr _ => _ end] => destruct (attach_filter a b c d)
      end; cbn; try tauto; intros [I|[]]; injection I as _ <-; lia. }
    destruct (sys_effect w t d o) as [w1 e1]. cbn [fst snd] in *. intros [I|I]; [discriminate|exact (C I)].
  - destruct (find_thread w u); intros [].
  - intros [].
Qed.

(** A step of another process that creates somebody creates nobody here. *)
Lemma other_step : forall prof w o p, sound w -> acts_in p w o = false ->
  (forall c x t, In (EvSpawn c x) (snd (wstep prof w o)) -> In t (w_threads (fst (wstep prof w o))) -> t_uid t = x -> t_pid t <> p) ->
  threads_of p (fst (wstep prof w o)) = threads_of p w.
Proof.
  intros prof w o p Sw AI NS. assert (D := proj1 Sw).
  assert (O : forall t, find_thread w (whose o) = Some t -> In t (w_threads w) /\ t_uid t = whose o /\ t_pid t <> p).
  { intros t F. apply find_thread_spec in F. destruct F as [I U]. split; [exact I|]. split; [exact U|]. intros P.
    unfold acts_in in AI. assert (X : existsb (fun t => Nat.eqb (t_uid t) (whose o)) (threads_of p w) = true).
    { apply existsb_exists. exists t. split; [apply in_threads_of; auto|apply Nat.eqb_eq; exact U]. }
    congruence. }
  destruct o as [u ps v|u amb|u d o|u b|u].
  1,2,4,5: apply (c120_others prof w _ p D AI).
  1: cbn [wstep]; intros c x; destruct (find_thread w u); intros [].
  2: cbn [wstep]; intros c x; destruct (find_thread w u); intros [].
  2: cbn [wstep]; intros c x [].
  { intros c x I. exfalso. assert (L := event_old prof w _ c x I). cbn [wstep] in I, L. revert I.
    destruct (find_thread w u) as [t|]; [|intros []]. destruct (t_call t) as [ph|]; [|intros []].
    assert (C : In (EvSpawn c x) (step_calls t amb ph) -> False).
    { destruct ph as [ps v|ps v done [|[] todo]|ps v prog|ps v prog]; cbn; intuition discriminate. }
    destruct (pledge_step prof amb t ph) as [[ph1|[r|e| |k]] y]; cbn [snd]; intros I; try exact (C I);
      (apply in_app_or in I; destruct I as [I|I]; [exact (C I)|]; apply in_app_or in I; destruct I as [I|[I|[]]]; [|discriminate];
       destruct (Nat.eqb _ _); [destruct I|destruct I as [I|[]]; discriminate]). }
  revert NS. cbn [whose] in O. cbn [wstep]. destruct (find_thread w u) as [t|]; [|reflexivity]. destruct (O t eq_refl) as (It & Ut & Np).
  destruct (supervised_entry (o_sup o) (t_filters t) d) as [|r|k]; [|reflexivity|intros _; apply (of_death_other w t D It); exact Np].
  destruct (sys_effect w t d o) as [w1 e1] eqn:SE. cbn [fst snd]. intros NS.
  assert (E1 : w1 = fst (sys_effect w t d o)) by (rewrite SE; reflexivity).
  destruct (sys_effect_events _ _ _ _ _ _ SE) as [Z|Z].
  - rewrite E1. apply effect_others; try assumption. rewrite SE, Z. intros c x [].
  - subst e1. assert (NP : forall q, threads_of p (spawn w t q (o_newid o)) = threads_of p w \/ q = p).
    { intros q. rewrite of_spawn. destruct (N.eqb_spec q p); [right; assumption|left; reflexivity]. }
    assert (IN : forall q, In (mkThread (w_next w) q (o_newid o) (t_nnp t) (t_cap t) (t_filters t) None) (w_threads (spawn w t q (o_newid o)))).
    { intros q. left. reflexivity. }
    revert SE. unfold sys_effect.
    repeat match goal with
    | |- context [if ?c then _ else _] => destruct c
    | |- context [match attach_filter ?a ?b ?c ?d with inl _ => _ | inr _ => _ end] => destruct (attach_filter a b c d)
    end; intros SE; try discriminate SE; injection SE as <-;
      (match goal with |- threads_of p (spawn w t ?q _) = _ => destruct (NP q) as [X|X]; [exact X|] end;
       exfalso; eapply NS; [right; left; reflexivity|apply IN|reflexivity|exact X]).
Qed.

Lemma same_events : forall f g n evs,
  (forall u, (u < n)%nat -> f u = g u) -> (forall ev, In ev evs -> (actor ev < n)%nat) ->
  (forall c x, In (EvSpawn c x) evs -> (x < n)%nat) -> map (named_event f) evs = map (named_event g) evs.
Proof.
  intros f g n evs E Ac Sp. apply map_ext_in. intros ev I. assert (L := Ac ev I).
  destruct ev as [u d e|u c|u q t ps v|u ps v r]; cbn [named_event actor] in *; rewrite (E u L); try reflexivity.
  rewrite (E c (Sp u c I)). reflexivity.
Qed.

Lemma alone_named : forall prof p mine ops w v f,
  sound w -> sound v -> threads_of p v = map (named f) (threads_of p w) ->
  (forall ops1 ops2 t, ops = ops1 ++ ops2 -> In t (w_threads (fst (wrun prof w ops1))) -> mine (t_uid t) = (t_pid t =? p)) ->
  (forall c x, In (EvSpawn c x) (snd (wrun prof w ops)) -> mine c = false -> mine x = false) ->
  exists g, (forall n, (n < w_next w)%nat -> g n = f n) /\
    let alone := wrun prof v (map (named_op g) (choices_of prof p w ops)) in
    threads_of p (fst alone) = map (named g) (threads_of p (fst (wrun prof w ops))) /\
    snd alone = map (named_event g) (filter (fun ev => mine (actor ev)) (snd (wrun prof w ops))).
Proof.
  intros prof p mine ops. induction ops as [|o ops IH]; intros w v f Sw Sv A M NS.
  - exists f. split; [reflexivity|]. split; [exact A|reflexivity].
  - cbn [wrun choices_of] in *.
    destruct (wstep prof w o) as [w1 e1] eqn:S. destruct (wrun prof w1 ops) as [w2 e2] eqn:R. cbn [fst snd] in *.
    pose proof (ev_actor prof w o) as EA. rewrite S in EA. cbn [snd] in EA.
    pose proof (event_old prof w o) as EO. rewrite S in EO. cbn [fst snd] in EO.
    destruct (wstep_sound prof w o w1 e1 Sw S) as (S1 & Le & _ & Y).
    assert (M1 : forall ops1 ops2 t, ops = ops1 ++ ops2 -> In t (w_threads (fst (wrun prof w1 ops1))) -> mine (t_uid t) = (t_pid t =? p)).
    { intros ops1 ops2 t E I. apply (M (o :: ops1) ops2 t); [rewrite E; reflexivity|]. cbn [wrun]. rewrite S.
      destruct (wrun prof w1 ops1). exact I. }
    assert (NS1 : forall c x, In (EvSpawn c x) (snd (wrun prof w1 ops)) -> mine c = false -> mine x = false).
    { intros c x I. apply (NS c x). rewrite R in I. apply in_or_app. right. exact I. }
    assert (W : forall t, In t (w_threads w) -> mine (t_uid t) = (t_pid t =? p)) by (intros t I; exact (M [] (o :: ops) t eq_refl I)).
    assert (W1 : forall t, In t (w_threads w1) -> mine (t_uid t) = (t_pid t =? p)) by (intros t I; exact (M1 [] ops t eq_refl I)).
    assert (AcOld : forall ev, In ev e1 -> (actor ev < w_next w)%nat).
    { intros ev I. destruct (Y ev I) as (y & Iy & <-). destruct Sw as [_ F]. rewrite Forall_forall in F. apply F. exact Iy. }
    destruct (acts_in p w o) eqn:AI.
    + destruct (own_named prof w v o f p Sw Sv A AI) as (E1 & E2).
      set (f1 := next_name f (w_next w) (w_next v)) in *. rewrite S in E1, E2. cbn [fst snd] in E1, E2.
      destruct (wstep prof v (named_op f o)) as [v1 e1'] eqn:Sv1. cbn [fst snd] in E1, E2.
      destruct (wstep_sound prof v _ v1 e1' Sv Sv1) as (S2 & _).
      specialize (IH w1 v1 f1 S1 S2 E2 M1 NS1). rewrite R in IH. cbn [fst snd] in IH. destruct IH as (g & G1 & G2 & G3).
      assert (Gf : forall n, (n < w_next w)%nat -> g n = f n).
      { intros n L. rewrite G1 by lia. unfold f1, next_name. destruct (Nat.eqb_spec n (w_next w)); [lia|reflexivity]. }
      exists g. split; [exact Gf|]. cbn [app map wrun].
      assert (Wo : (whose o < w_next w)%nat).
      { unfold acts_in in AI. apply existsb_exists in AI. destruct AI as (t & It & U). apply Nat.eqb_eq in U. rewrite <- U.
        apply in_threads_of in It. destruct Sw as [_ F]. rewrite Forall_forall in F. apply F, It. }
      replace (named_op g o) with (named_op f o) by (destruct o; cbn [named_op whose] in *; rewrite Gf by exact Wo; reflexivity).
      rewrite Sv1. destruct (wrun prof v1 (map (named_op g) (choices_of prof p w1 ops))) as [v2 e2']. cbn [fst snd] in *.
      split; [exact G2|]. rewrite G3, filter_app, map_app, E1. f_equal.
      rewrite (filter_ev_all _ e1).
      * apply (same_events f1 g (w_next w1)); [intros u L; symmetry; apply G1; exact L| |exact EO].
        intros ev I. specialize (AcOld ev I). lia.
      * intros ev I. rewrite (EA ev I). unfold acts_in in AI. apply existsb_exists in AI. destruct AI as (t & It & U).
        apply in_threads_of in It. destruct It as [It P]. apply Nat.eqb_eq in U. rewrite <- U, (W t It), P. apply N.eqb_refl.
    + assert (NM : forall ev, In ev e1 -> mine (actor ev) = false).
      { intros ev I. destruct (Y ev I) as (y & Iy & Uy). rewrite <- Uy, (W y Iy). apply N.eqb_neq. intros P.
        assert (X : existsb (fun t => Nat.eqb (t_uid t) (whose o)) (threads_of p w) = true).
        { apply existsb_exists. exists y. split; [apply in_threads_of; auto|]. apply Nat.eqb_eq. rewrite Uy. exact (EA ev I). }
        unfold acts_in in AI. congruence. }
      assert (E1 : threads_of p w1 = threads_of p w).
      { pose proof (other_step prof w o p Sw AI) as X. rewrite S in X. cbn [fst snd] in X. apply X.
        intros c x t I It U P. assert (MX : mine x = false).
        { apply (NS c x); [apply in_or_app; left; exact I|]. exact (NM _ I). }
        rewrite <- U, (W1 t It), P, N.eqb_refl in MX. discriminate. }
      rewrite <- E1 in A. specialize (IH w1 v f S1 Sv A M1 NS1). rewrite R in IH. cbn [fst snd] in IH.
      destruct IH as (g & G1 & G2 & G3). exists g. split; [intros n L; apply G1; lia|]. cbn [app map].
      split; [exact G2|]. rewrite G3, filter_app, (filter_ev_none _ e1 NM). reflexivity.
Qed.

Lemma c120_renamed : forall prof p mine ops w v,
  distinct w -> Forall (fun t => (t_uid t < w_next w)%nat) (w_threads w) ->
  distinct v -> Forall (fun t => (t_uid t < w_next v)%nat) (w_threads v) ->
  threads_of p v = threads_of p w ->
  (forall ops1 ops2 t, ops = ops1 ++ ops2 -> In t (w_threads (fst (wrun prof w ops1))) ->
     mine (t_uid t) = (t_pid t =? p)) ->
  (forall c x, In (EvSpawn c x) (snd (wrun prof w ops)) -> mine c = false -> mine x = false) ->
  exists f, (forall n, (n < w_next w)%nat -> f n = n) /\
    let alone := wrun prof v (map (named_op f) (choices_of prof p w ops)) in
    threads_of p (fst alone) = map (named f) (threads_of p (fst (wrun prof w ops))) /\
    snd alone = map (named_event f) (filter (fun ev => mine (actor ev)) (snd (wrun prof w ops))).
Proof.
  intros prof p mine ops w v D1 F1 D2 F2 A. apply (alone_named prof p mine ops w v (fun n => n)); [split; assumption..|].
  rewrite A. symmetry. apply map_same. intros []; reflexivity.
Qed.
