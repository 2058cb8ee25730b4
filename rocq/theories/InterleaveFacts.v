(** In which order processes take their steps does not matter (C121). *)
From Coq Require Import NArith ZArith String List Bool Lia.
From Verif Require Import Libc Machine Bpf SeccompRet Asm Vm Promises Filters Kernel World Spec.
From Verif Require Import FragProofs PolicyProofs CodeProofs PledgeProofs StackProofs WorldProofs HistoryProofs DeathProofs
  LiveProofs ApartFacts.
Import ListNotations.
Local Open Scope N_scope.

(** * The tasks of a world, in order, are among those before *)

Definition ids (t : thread) : nat * N := (t_uid t, t_pid t).
Definition left (w w' : world) : Prop :=
  w_next w' = w_next w /\ exists keep, map ids (w_threads w') = filter keep (map ids (w_threads w)).

Lemma filter_true : forall A (l : list A), filter (fun _ => true) l = l.
Proof. induction l as [|x l IH]; [reflexivity|]. cbn [filter]. rewrite IH. reflexivity. Qed.
Lemma filter_filter : forall A (f g : A -> bool) l, filter f (filter g l) = filter (fun x => g x && f x) l.
Proof.
  intros A f g l. induction l as [|x l IH]; [reflexivity|]. cbn [filter]. destruct (g x); cbn [filter andb]; rewrite IH; reflexivity.
Qed.
Lemma map_filter : forall (k : nat * N -> bool) l, map ids (filter (fun t => k (ids t)) l) = filter k (map ids l).
Proof.
  intros k l. induction l as [|x l IH]; [reflexivity|]. cbn [filter map]. destruct (k (ids x)); cbn [map]; rewrite IH; reflexivity.
Qed.

Lemma left_refl : forall w, left w w.
Proof. intros w. split; [reflexivity|]. exists (fun _ => true). rewrite filter_true. reflexivity. Qed.
Lemma left_trans : forall w w1 w2, left w w1 -> left w1 w2 -> left w w2.
Proof.
  intros w w1 w2 [N1 [k1 E1]] [N2 [k2 E2]]. split; [congruence|].
  exists (fun x => k1 x && k2 x). rewrite E2, E1. apply filter_filter.
Qed.

Lemma left_put : forall w t t1, distinct w -> In t (w_threads w) -> t_uid t1 = t_uid t -> t_pid t1 = t_pid t ->
  left w (put_thread w t1).
Proof.
  intros w t t1 D I U P. split; [reflexivity|]. exists (fun _ => true). rewrite filter_true.
  cbn [put_thread w_threads]. rewrite map_map. apply map_ext_in. intros x Ix.
  destruct (Nat.eqb_spec (t_uid x) (t_uid t1)) as [E|E]; [|reflexivity].
  unfold ids. rewrite (nodup_same w t x D I Ix) by congruence. congruence.
Qed.
Lemma left_death : forall w t k, left w (apply_death w t k).
Proof.
  intros w t k. split; [destruct k; reflexivity|].
  exists (fun x => match k with DeathThread => negb (Nat.eqb (fst x) (t_uid t)) | _ => negb (snd x =? t_pid t) end).
  destruct k; cbn [apply_death drop_thread drop_process w_threads];
    (rewrite <- map_filter; reflexivity).
Qed.
Lemma left_drop : forall w u, left w (drop_thread w u).
Proof.
  intros w u. split; [reflexivity|]. exists (fun x => negb (Nat.eqb (fst x) u)).
  cbn [drop_thread w_threads]. rewrite <- map_filter. reflexivity.
Qed.
Lemma left_run : forall w t, distinct w -> In t (w_threads w) -> left w (run_program w t).
Proof.
  intros w t D I. split; [reflexivity|]. exists (fun x => Nat.eqb (fst x) (t_uid t) || negb (snd x =? t_pid t)).
  cbn [run_program w_threads]. rewrite <- map_filter, map_map. apply map_ext_in. intros x Ix.
  apply filter_In in Ix. destruct Ix as [Ix _].
  destruct (Nat.eqb_spec (t_uid x) (t_uid t)) as [E|E]; [|reflexivity].
  rewrite (nodup_same w t x D I Ix E). reflexivity.
Qed.
Lemma left_sync : forall w t fs, left w (sync_threads w t fs).
Proof.
  intros w t fs. split; [reflexivity|]. exists (fun _ => true). rewrite filter_true.
  cbn [sync_threads w_threads]. rewrite map_map. apply map_ext_in. intros x _.
  destruct (t_pid x =? t_pid t); [|reflexivity]. destruct (t_nnp t); reflexivity.
Qed.

Definition nobody_new (evs : list event) : Prop := forall c x, ~ In (EvSpawn c x) evs.

Lemma effect_left : forall w t d o, distinct w -> In t (w_threads w) -> nobody_new (snd (sys_effect w t d o)) ->
  left w (fst (sys_effect w t d o)).
Proof.
  intros w t d o D It. unfold sys_effect.
  assert (NT : forall q, nobody_new (snd (if o_refuse o then (w, [])
       else (spawn w t q (o_newid o), [EvSpawn (t_uid t) (w_next w)]))) ->
     left w (fst (if o_refuse o then (w, []) else (spawn w t q (o_newid o), [EvSpawn (t_uid t) (w_next w)])))).
  { intros q H. destruct (o_refuse o); [apply left_refl|]. exfalso. apply (H (t_uid t) (w_next w)). left. reflexivity. }
  destruct ((sd_nr d =? SYS_fork) || (sd_nr d =? SYS_vfork)); [exact (NT _)|].
  destruct (sd_nr d =? SYS_clone); [exact (NT _)|].
  destruct (sd_nr d =? SYS_clone3); [exact (NT _)|]. clear NT. intros _.
  destruct (prctl_ids (o_refuse o) t d (o_payload o)) as [P1 P2]. destruct (strict_ids t) as [S1 S2].
  repeat match goal with
  | |- context [if ?c then _ else _] => destruct c
  | |- context [match attach_filter ?a ?b ?c ?d with inl _ => _ | inr _ => _ end] => destruct (attach_filter a b c d)
  end; cbn [fst snd];
  first [apply left_refl|apply left_death|apply left_sync|apply left_run; assumption|apply (left_put w t); auto].
Qed.

Lemma wstep_left : forall prof w o, distinct w -> nobody_new (snd (wstep prof w o)) -> left w (fst (wstep prof w o)).
Proof.
  intros prof w o D NS.
  assert (F : forall t, find_thread w (whose o) = Some t -> In t (w_threads w)).
  { intros t F. apply find_thread_spec in F. apply F. }
  destruct o as [u ps v|u amb|u d o|u b|u]; cbn [wstep whose] in *.
  - destruct (find_thread w u) as [t|]; [|apply left_refl]. specialize (F t eq_refl).
    destruct (t_call t); cbn [fst]; [apply left_refl|]. apply (left_put w t); auto.
  - destruct (find_thread w u) as [t|]; [|apply left_refl]. specialize (F t eq_refl).
    destruct (t_call t) as [ph|]; [|apply left_refl].
    destruct (step_ids prof amb t ph) as [P1 P2].
    destruct (pledge_step prof amb t ph) as [[ph1|[r|e| |k]] x]; cbn [fst snd] in *;
      first [apply (left_put w t); auto|apply left_death].
  - destruct (find_thread w u) as [t|]; [|apply left_refl]. specialize (F t eq_refl).
    destruct (supervised_entry (o_sup o) (t_filters t) d) as [|r|k].
    + pose proof (effect_left w t d o D F) as X. destruct (sys_effect w t d o) as [w1 evs]. cbn [fst snd] in *.
      apply X. intros c x I. apply (NS c x). right. exact I.
    + apply left_refl.
    + apply left_death.
  - destruct (find_thread w u) as [t|]; [|apply left_refl]. specialize (F t eq_refl). apply (left_put w t); auto.
  - apply left_drop.
Qed.

Lemma wrun_left : forall prof ops w, sound w -> nobody_new (snd (wrun prof w ops)) ->
  left w (fst (wrun prof w ops)) /\ sound (fst (wrun prof w ops)).
Proof.
  intros prof ops. induction ops as [|o ops IH]; intros w S NS; cbn [wrun] in *; [split; [apply left_refl|exact S]|].
  pose proof (wstep_left prof w o (proj1 S)) as L.
  destruct (wstep prof w o) as [w1 e1] eqn:E1. cbn [fst snd] in *.
  destruct (wstep_sound prof w o w1 e1 S E1) as (S1 & _).
  specialize (IH w1 S1). destruct (wrun prof w1 ops) as [w2 e2]. cbn [fst snd] in *.
  destruct IH as [I1 I2]; [intros c x I; apply (NS c x), in_or_app; right; exact I|].
  split; [|exact I2]. apply (left_trans w w1 w2); [|exact I1].
  apply L. intros c x I. apply (NS c x), in_or_app. left. exact I.
Qed.

(** * Worlds with the same tasks in every process are the same *)

Lemma same_list : forall a b : list thread, NoDup (map t_uid a) -> map t_uid a = map t_uid b ->
  (forall x, In x a -> In x b) -> a = b.
Proof.
  induction a as [|x a IH]; intros [|y b] N E H; cbn [map] in *; try discriminate; [reflexivity|].
  injection E as E1 E2. assert (N' := N). apply NoDup_cons_iff in N'. destruct N' as [N1 N2].
  assert (x = y).
  { destruct (H x (or_introl eq_refl)) as [E|I]; [congruence|]. exfalso. apply N1. rewrite E2. apply in_map. exact I. }
  subst y. f_equal. apply IH; [exact N2|exact E2|]. intros z Iz. destruct (H z (or_intror Iz)) as [<-|I]; [|exact I].
  exfalso. apply N1. apply in_map. exact Iz.
Qed.

Lemma same_world : forall w a b, distinct w -> left w a -> left w b -> distinct a ->
  (forall p, threads_of p a = threads_of p b) -> a = b.
Proof.
  intros w a b D [N1 [k1 E1]] [N2 [k2 E2]] Da T.
  assert (I : forall x, In x (w_threads a) <-> In x (w_threads b)).
  { intros x. assert (X : In x (threads_of (t_pid x) a) <-> In x (threads_of (t_pid x) b)) by (rewrite T; reflexivity).
    rewrite !in_threads_of in X. tauto. }
  assert (E : map ids (w_threads a) = map ids (w_threads b)).
  { rewrite E1, E2. apply filter_ext_in. intros i Ii.
    assert (X : In i (map ids (w_threads a)) <-> In i (map ids (w_threads b))).
    { rewrite !in_map_iff. split; intros (x & U & J); exists x; (split; [exact U|]); apply I; exact J. }
    rewrite E1, E2, !filter_In in X. destruct (k1 i), (k2 i); intuition discriminate. }
  assert (L : w_threads a = w_threads b).
  { apply same_list; [exact Da| |intros x; apply I].
    change t_uid with (fun t => fst (ids t)). rewrite <- !(map_map ids fst), E. reflexivity. }
  destruct a as [la na], b as [lb nb]. cbn in *. congruence.
Qed.

(** * Two histories that differ in the order only *)

Lemma whose_process : forall prof w ops p, sound w -> nobody_new (snd (wrun prof w ops)) ->
  forall ops1 ops2 t, ops = ops1 ++ ops2 -> In t (w_threads (fst (wrun prof w ops1))) ->
  existsb (fun x => Nat.eqb (t_uid x) (t_uid t)) (threads_of p w) = (t_pid t =? p).
Proof.
  intros prof w ops p S NS ops1 ops2 t -> It.
  assert (NS1 : nobody_new (snd (wrun prof w ops1))).
  { intros c x I. apply (NS c x). rewrite (wrun_app prof ops1 ops2 w _ _ (surjective_pairing _)).
    cbn [snd]. apply in_or_app. left. exact I. }
  destruct (wrun_left prof ops1 w S NS1) as [[_ [k E]] _].
  assert (J : In (ids t) (map ids (w_threads w))).
  { assert (J : In (ids t) (map ids (w_threads (fst (wrun prof w ops1))))) by (apply in_map; exact It).
    rewrite E in J. apply filter_In in J. apply J. }
  apply in_map_iff in J. destruct J as (y & U & Iy). injection U as U P. rewrite <- P.
  destruct (N.eqb_spec (t_pid y) p) as [Q|Q].
  - apply existsb_exists. exists y. split; [apply in_threads_of; auto|]. apply Nat.eqb_eq. exact U.
  - destruct (existsb (fun x => Nat.eqb (t_uid x) (t_uid t)) (threads_of p w)) eqn:X; [|reflexivity]. exfalso.
    apply existsb_exists in X. destruct X as (z & Iz & Uz). apply Nat.eqb_eq in Uz. apply in_threads_of in Iz.
    destruct Iz as [Iz Pz]. apply Q. rewrite (nodup_same w z y (proj1 S) Iz Iy) by congruence. exact Pz.
Qed.

Lemma c121_histories : forall prof w ops ops',
  distinct w -> Forall (fun t => (t_uid t < w_next w)%nat) (w_threads w) ->
  (forall c x, ~ In (EvSpawn c x) (snd (wrun prof w ops))) ->
  (forall c x, ~ In (EvSpawn c x) (snd (wrun prof w ops'))) ->
  (forall p, choices_of prof p w ops' = choices_of prof p w ops) ->
  fst (wrun prof w ops') = fst (wrun prof w ops) /\
  forall p, let of_p ev := existsb (fun t => Nat.eqb (t_uid t) (actor ev)) (threads_of p w) in
    filter of_p (snd (wrun prof w ops')) = filter of_p (snd (wrun prof w ops)).
Proof.
  intros prof w ops ops' D Fa NS NS' C. assert (S : sound w) by (split; assumption).
  assert (H : forall p, threads_of p (fst (wrun prof w ops')) = threads_of p (fst (wrun prof w ops)) /\
    filter (fun ev => existsb (fun t => Nat.eqb (t_uid t) (actor ev)) (threads_of p w)) (snd (wrun prof w ops')) =
    filter (fun ev => existsb (fun t => Nat.eqb (t_uid t) (actor ev)) (threads_of p w)) (snd (wrun prof w ops))).
  { intros p.
    destruct (history_alone prof p (fun u => existsb (fun t => Nat.eqb (t_uid t) u) (threads_of p w)) ops w w S S eq_refl eq_refl
                (whose_process prof w ops p S NS)) as (A1 & _ & A3); [intros c x I; elim (NS c x I)|].
    destruct (history_alone prof p (fun u => existsb (fun t => Nat.eqb (t_uid t) u) (threads_of p w)) ops' w w S S eq_refl eq_refl
                (whose_process prof w ops' p S NS')) as (B1 & _ & B3); [intros c x I; elim (NS' c x I)|].
    rewrite C in B1, B3. split; congruence. }
  split; [|intros p; exact (proj2 (H p))].
  destruct (wrun_left prof ops w S NS) as [L _]. destruct (wrun_left prof ops' w S NS') as [L' S'].
  apply (same_world w); [exact D|exact L'|exact L|apply S'|intros p; exact (proj1 (H p))].
Qed.

Lemma c121_commute : forall prof w o1 o2 t1 t2,
  distinct w -> Forall (fun t => (t_uid t < w_next w)%nat) (w_threads w) ->
  In t1 (w_threads w) -> t_uid t1 = whose o1 -> In t2 (w_threads w) -> t_uid t2 = whose o2 ->
  t_pid t1 <> t_pid t2 ->
  (forall c x, ~ In (EvSpawn c x) (snd (wstep prof w o1))) ->
  (forall c x, ~ In (EvSpawn c x) (snd (wstep prof w o2))) ->
  fst (wrun prof w [o1; o2]) = fst (wrun prof w [o2; o1]) /\
  snd (wrun prof w [o1; o2]) = snd (wstep prof w o1) ++ snd (wstep prof w o2) /\
  snd (wrun prof w [o2; o1]) = snd (wstep prof w o2) ++ snd (wstep prof w o1).
Proof.
  intros prof w o1 o2 t1 t2 D Fa I1 U1 I2 U2 P N1 N2. assert (S : sound w) by (split; assumption).
  assert (IN : forall t o, In t (w_threads w) -> t_uid t = whose o -> forall p, acts_in p w o = (t_pid t =? p)).
  { intros t o It U p. unfold acts_in. rewrite <- U. 
    apply (whose_process prof w [] p S (fun _ _ I => I) [] [] t eq_refl It). }
  assert (X : forall o o' t t', In t (w_threads w) -> t_uid t = whose o -> In t' (w_threads w) -> t_uid t' = whose o' ->
    t_pid t <> t_pid t' -> nobody_new (snd (wstep prof w o)) ->
    snd (wrun prof w [o; o']) = snd (wstep prof w o) ++ snd (wstep prof w o') /\
    (forall p, choices_of prof p w [o; o'] = (if t_pid t =? p then [o] else []) ++ (if t_pid t' =? p then [o'] else []))).
  { clear - S IN. intros o o' t t' It U It' U' NE NS.
    pose proof (c120_others prof w o (t_pid t') (proj1 S)) as A. rewrite (IN t o It U (t_pid t')) in A.
    apply N.eqb_neq in NE. specialize (A NE NS).
    pose proof (fun p => IN t o It U p) as IN1. pose proof (wstep_left prof w o (proj1 S) NS) as L.
    cbn [wrun choices_of].
    destruct (wstep prof w o) as [w1 e1] eqn:E1. destruct (wstep_sound prof w o w1 e1 S E1) as (S1 & _). cbn [fst snd] in *.
    destruct A as [A1 A2].
    assert (AI : acts_in (t_pid t') w o' = true) by (rewrite (IN t' o' It' U'); apply N.eqb_refl).
    pose proof (c120_own prof w w1 o' (t_pid t') (proj1 S) (proj1 S1) A1 A2 AI) as (B1 & _ & _).
    destruct (wstep prof w1 o') as [w2 e2]. cbn [fst snd] in *. rewrite app_nil_r.
    split; [congruence|]. intros p. rewrite IN1. rewrite app_nil_r. f_equal.
    assert (Q : acts_in p w1 o' = (t_pid t' =? p)); [|rewrite Q; reflexivity].
    assert (It1 : In t' (w_threads w1)).
    { apply (in_threads_of (t_pid t')). rewrite A1. apply in_threads_of. auto. }
    unfold acts_in. rewrite <- U'. apply (whose_process prof w1 [] p S1 (fun _ _ I => I) [] [] t' eq_refl It1). }
  destruct (X o1 o2 t1 t2 I1 U1 I2 U2 P N1) as [X1 X2].
  destruct (X o2 o1 t2 t1 I2 U2 I1 U1 (not_eq_sym P) N2) as [Y1 Y2].
  split; [|split; assumption]. symmetry. apply (c121_histories prof w [o1; o2] [o2; o1] D Fa).
  - rewrite X1. intros c x I. apply in_app_or in I. destruct I as [I|I]; [exact (N1 _ _ I)|exact (N2 _ _ I)].
  - rewrite Y1. intros c x I. apply in_app_or in I. destruct I as [I|I]; [exact (N2 _ _ I)|exact (N1 _ _ I)].
  - intros p. rewrite X2, Y2. destruct (N.eqb_spec (t_pid t1) p), (N.eqb_spec (t_pid t2) p); try reflexivity. congruence.
Qed.
