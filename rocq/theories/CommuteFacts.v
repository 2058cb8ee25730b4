(** Steps of different threads commute (C122). *)
From Coq Require Import NArith ZArith String List Bool Lia.
From Verif Require Import Libc Machine Bpf SeccompRet Asm Vm Promises Filters Kernel World Spec.
From Verif Require Import FragProofs PolicyProofs CodeProofs PledgeProofs StackProofs WorldProofs HistoryProofs DeathProofs
  LiveProofs ApartFacts InterleaveFacts CommuteSpec.
Import ListNotations.
Local Open Scope N_scope.

(** * What a step does, as far as it depends on the thread alone *)

Inductive kind := Same | Put (t1 : thread) | Ends (k : death) | Runs | Creates (p n : N).
Definition act (w : world) (t : thread) (k : kind) : world :=
  match k with
  | Same => w | Put t1 => put_thread w t1 | Ends d => apply_death w t d | Runs => run_program w t
  | Creates p n => spawn w t p n
  end.
Definition fair (t : thread) (k : kind) : Prop :=
  match k with Put t1 => t_uid t1 = t_uid t /\ t_pid t1 = t_pid t | _ => True end.

Lemma effect_kind : forall t d o, (sd_nr d =? SYS_seccomp) && N.testbit (sd_a1 d) 0 = false ->
  exists k (evs : nat -> list event), fair t k /\ forall w, sys_effect w t d o = (act w t k, evs (w_next w)).
Proof.
  intros t d o SY. unfold sys_effect.
  assert (NT : forall q, exists k (evs : nat -> list event), fair t k /\ forall w : world,
    (if o_refuse o then (w, []) else (spawn w t q (o_newid o), [EvSpawn (t_uid t) (w_next w)])) = (act w t k, evs (w_next w))).
  { intros q. destruct (o_refuse o).
    - exists Same, (fun _ => []). split; [exact I|reflexivity].
    - exists (Creates q (o_newid o)), (fun n => [EvSpawn (t_uid t) n]). split; [exact I|reflexivity]. }
  destruct ((sd_nr d =? SYS_fork) || (sd_nr d =? SYS_vfork)); [exact (NT _)|].
  destruct (sd_nr d =? SYS_clone); [exact (NT _)|].
  destruct (sd_nr d =? SYS_clone3); [exact (NT _)|]. clear NT.
  destruct (prctl_ids (o_refuse o) t d (o_payload o)) as [P1 P2]. destruct (strict_ids t) as [S1 S2].
  assert (NE : forall k, fair t k -> exists k0 (evs : nat -> list event), fair t k0 /\ forall w, (act w t k, @nil event) = (act w t k0, evs (w_next w))).
  { intros k Fk. exists k, (fun _ => []). split; [exact Fk|reflexivity]. }
  destruct (sd_nr d =? SYS_prctl); [exact (NE (Put _) (conj P1 P2))|].
  destruct ((sd_nr d =? SYS_seccomp) && ((lo32 (sd_a0 d) =? 0) && (lo32 (sd_a1 d) =? 0) && (sd_a2 d =? 0)));
    [exact (NE (Put _) (conj S1 S2))|].
  destruct ((sd_nr d =? SYS_seccomp) && (lo32 (sd_a0 d) =? 1)) eqn:SC.
  { apply andb_true_iff in SC. destruct SC as [SC _]. rewrite SC in SY. cbn [andb] in SY. rewrite SY.
    destruct (attach_filter (o_refuse o) (t_nnp t || t_cap t) (t_filters t) (o_payload o)) as [e|fs];
      [exact (NE Same I)|]. apply (NE (Put (set_filters t fs))). split; reflexivity. }
  destruct (((sd_nr d =? SYS_execve) || (sd_nr d =? SYS_execveat)) && negb (o_refuse o)); [exact (NE Runs I)|].
  destruct (sd_nr d =? SYS_exit); [exact (NE (Ends DeathThread) I)|].
  destruct (sd_nr d =? SYS_exit_group); [exact (NE (Ends DeathProcess) I)|]. exact (NE Same I).
Qed.

Lemma step_kind : forall prof o t, t_uid t = whose o -> syncs o = false ->
  exists k (evs : nat -> list event), fair t k /\
    forall w, find_thread w (whose o) = Some t -> wstep prof w o = (act w t k, evs (w_next w)).
Proof.
  intros prof o t U SY.
  assert (NE : forall k (e : list event), fair t k -> exists k0 (evs : nat -> list event), fair t k0 /\
    forall w, find_thread w (whose o) = Some t -> (act w t k, e) = (act w t k0, evs (w_next w))).
  { intros k e Fk. exists k, (fun _ => e). split; [exact Fk|reflexivity]. }
  destruct o as [u ps v|u amb|u d o|u b|u]; cbn [wstep whose syncs] in *.
  - destruct (t_call t) eqn:C.
    + exists Same, (fun _ => []). split; [exact I|]. intros w F. rewrite F, C. reflexivity.
    + exists (Put (set_call t (Some (PStart ps v)))), (fun _ => []). split; [split; reflexivity|]. intros w F. rewrite F, C. reflexivity.
  - destruct (t_call t) as [ph|] eqn:C.
    2: { exists Same, (fun _ => []). split; [exact I|]. intros w F. rewrite F, C. reflexivity. }
    destruct (step_ids prof amb t ph) as [P1 P2].
    destruct (pledge_step prof amb t ph) as [[ph1|[r|e| |k]] x] eqn:PS; cbn [snd] in P1, P2.
    1: exists (Put (set_call x (Some ph1))). 2,3,4: exists (Put (set_call x None)). 5: exists (Ends k).
    all: eexists (fun _ => _); (split; [first [exact I|split; assumption]|]); intros w F; rewrite F, C, PS; reflexivity.
  - destruct (effect_kind t d o SY) as (k & evs & Fk & E).
    destruct (supervised_entry (o_sup o) (t_filters t) d) as [|r|k'] eqn:SE.
    + exists k, (fun n => EvCall u d Proceed :: evs n). split; [exact Fk|]. intros w F. rewrite F, SE, E. reflexivity.
    + exists Same, (fun _ => [EvCall u d (Fake r)]). split; [exact I|]. intros w F. rewrite F, SE. reflexivity.
    + exists (Ends k'), (fun _ => [EvCall u d (Kill k')]). split; [exact I|]. intros w F. rewrite F, SE. reflexivity.
  - exists (Put (set_cap t b)), (fun _ => []). split; [split; reflexivity|]. intros w F. rewrite F. reflexivity.
  - exists (Ends DeathThread), (fun _ => []). split; [exact I|]. intros w F. cbn [act apply_death]. rewrite U. reflexivity.
Qed.

Lemma step_none : forall prof w o, find_thread w (whose o) = None -> wstep prof w o = (w, []).
Proof.
  intros prof w o F. destruct o as [u ps v|u amb|u d o|u b|u]; cbn [wstep whose] in *; try (rewrite F; reflexivity).
  f_equal. unfold drop_thread. destruct w as [l n]. cbn [w_threads w_next] in *. f_equal. apply filter_all. intros x I.
  unfold find_thread in F. apply (find_none _ _ F) in I. rewrite I. reflexivity.
Qed.

(** * A thread alone in its process *)

Definition lonely (w : world) (t : thread) : Prop := forall x, In x (w_threads w) -> t_pid x = t_pid t -> t_uid x = t_uid t.

Lemma lonely_death : forall w t k, lonely w t -> (forall x, In x (w_threads w) -> t_uid x = t_uid t -> t_pid x = t_pid t) ->
  apply_death w t k = drop_thread w (t_uid t).
Proof.
  intros w t k L D. destruct k; cbn [apply_death]; try reflexivity; unfold drop_process, drop_thread; f_equal; apply filter_ext_in;
    intros x I; f_equal; destruct (N.eqb_spec (t_pid x) (t_pid t)) as [E|E], (Nat.eqb_spec (t_uid x) (t_uid t)) as [E'|E'];
    try reflexivity; exfalso; [apply E', L; assumption|apply E, D; assumption|apply E', L; assumption|apply E, D; assumption].
Qed.
Lemma lonely_run : forall w t, lonely w t -> run_program w t = put_thread w (exec_thread t).
Proof.
  intros w t L. unfold run_program, put_thread. f_equal. cbn [exec_thread t_uid]. f_equal. apply filter_all. intros x I.
  destruct (N.eqb_spec (t_pid x) (t_pid t)) as [E|E]; [|apply orb_true_r].
  rewrite (L x I E), Nat.eqb_refl. reflexivity.
Qed.

(** A step that keeps to itself replaces or removes the thread, in any world that differs in the other thread only. *)
Definition simple (t : thread) (k : kind) : kind :=
  match k with Ends _ => Ends DeathThread | Runs => Put (exec_thread t) | _ => k end.
Definition plain (k : kind) : Prop :=
  match k with Same | Put _ | Ends DeathThread => True | _ => False end.

Lemma put_others : forall w t1 x, t_uid x <> t_uid t1 -> (In x (w_threads (put_thread w t1)) <-> In x (w_threads w)).
Proof.
  intros w t1 x N. cbn [put_thread w_threads]. rewrite in_map_iff. split.
  - intros (y & E & I). destruct (Nat.eqb_spec (t_uid y) (t_uid t1)) as [U|U]; subst; [contradiction|exact I].
  - intros I. exists x. split; [|exact I]. apply Nat.eqb_neq in N. rewrite N. reflexivity.
Qed.
Lemma drop_others : forall w u x, t_uid x <> u -> (In x (w_threads (drop_thread w u)) <-> In x (w_threads w)).
Proof.
  intros w u x N. cbn [drop_thread w_threads]. rewrite filter_In. apply Nat.eqb_neq in N. rewrite N. cbn. tauto.
Qed.

Lemma keep_lonely : forall w t k, sound w -> In t (w_threads w) ->
  (forall x, t_uid x <> t_uid t -> (In x (w_threads (act w t k)) <-> In x (w_threads w))) ->
  match k with
  | Same | Put _ | Ends DeathThread => True
  | Ends _ | Runs => lonely w t
  | Creates _ _ => False
  end.
Proof.
  intros w t k [D Fa] It K. destruct k as [|t1|[]| |p n]; try exact I; cbn [act apply_death] in K.
  - intros x Ix P. destruct (Nat.eq_dec (t_uid x) (t_uid t)) as [E|E]; [exact E|]. exfalso.
    apply (K x E) in Ix. cbn [drop_process w_threads] in Ix. apply filter_In in Ix. destruct Ix as [_ Ix].
    rewrite P, N.eqb_refl in Ix. discriminate.
  - intros x Ix P. destruct (Nat.eq_dec (t_uid x) (t_uid t)) as [E|E]; [exact E|]. exfalso.
    apply (K x E) in Ix. cbn [drop_process w_threads] in Ix. apply filter_In in Ix. destruct Ix as [_ Ix].
    rewrite P, N.eqb_refl in Ix. discriminate.
  - intros x Ix P. destruct (Nat.eq_dec (t_uid x) (t_uid t)) as [E|E]; [exact E|]. exfalso.
    apply (K x E) in Ix. cbn [run_program w_threads] in Ix. apply in_map_iff in Ix. destruct Ix as (y & Ey & Iy).
    destruct (Nat.eqb_spec (t_uid y) (t_uid t)) as [U|U]; [apply E; rewrite <- Ey; reflexivity|]. subst y.
    apply filter_In in Iy. destruct Iy as [_ Iy]. rewrite P, N.eqb_refl in Iy. apply Nat.eqb_neq in U. rewrite U in Iy. discriminate.
  - rewrite Forall_forall in Fa. set (c := mkThread (w_next w) p n (t_nnp t) (t_cap t) (t_filters t) None).
    assert (L := Fa t It). cbn beta in L.
    assert (X : In c (w_threads w)).
    { apply (K c); [cbn; lia|]. cbn [spawn w_threads]. left. reflexivity. }
    apply Fa in X. cbn in X. lia.
Qed.

Lemma act_simple : forall w v t k, sound w -> In t (w_threads w) ->
  (forall x, t_uid x <> t_uid t -> (In x (w_threads (act w t k)) <-> In x (w_threads w))) ->
  left w v -> act v t k = act v t (simple t k) /\ plain (simple t k).
Proof.
  intros w v t k S It K [_ [keep E]]. pose proof (keep_lonely w t k S It K) as L.
  assert (B : forall x, In x (w_threads v) -> exists y, In y (w_threads w) /\ t_uid y = t_uid x /\ t_pid y = t_pid x).
  { intros x Ix. assert (J : In (ids x) (map ids (w_threads v))) by (apply in_map; exact Ix). rewrite E in J.
    apply filter_In in J. destruct J as [J _]. apply in_map_iff in J. destruct J as (y & Ey & Iy). injection Ey as E1 E2.
    exists y. auto. }
  assert (LV : lonely w t -> lonely v t).
  { intros Lw x Ix P. destruct (B x Ix) as (y & Iy & Uy & Py). rewrite <- Uy. apply Lw; congruence. }
  assert (UV : forall x, In x (w_threads v) -> t_uid x = t_uid t -> t_pid x = t_pid t).
  { intros x Ix U. destruct (B x Ix) as (y & Iy & Uy & Py). rewrite <- Py. rewrite (nodup_same w t y (proj1 S) It Iy) by congruence.
    reflexivity. }
  destruct k as [|t1|[]| |p n]; cbn [simple plain act]; try (split; [reflexivity|exact I]); try contradiction.
  - split; [apply lonely_death; auto|exact I].
  - split; [apply lonely_death; auto|exact I].
  - split; [apply lonely_run; auto|exact I].
Qed.

(** Replacing and removing different threads commute. *)
Lemma plain_commute : forall w t1 k1 t2 k2, plain k1 -> fair t1 k1 -> plain k2 -> fair t2 k2 -> t_uid t1 <> t_uid t2 ->
  act (act w t1 k1) t2 k2 = act (act w t2 k2) t1 k1.
Proof.
  intros [l n] t1 k1 t2 k2 P1 F1 P2 F2 N.
  destruct k1 as [|x1|[]| |]; cbn [plain] in P1; try contradiction;
  destruct k2 as [|x2|[]| |]; cbn [plain] in P2; try contradiction; try reflexivity;
  cbn [fair] in F1, F2; cbn [act apply_death put_thread drop_thread w_threads w_next]; unfold put_thread, drop_thread; cbn [w_threads w_next];
  f_equal; induction l as [|y l IH]; try reflexivity; cbn [map filter].
  - destruct F1 as [F1 _], F2 as [F2 _]. rewrite IH. f_equal.
    destruct (Nat.eqb_spec (t_uid y) (t_uid x1)) as [A|A], (Nat.eqb_spec (t_uid y) (t_uid x2)) as [B|B]; try congruence;
      repeat match goal with |- context [Nat.eqb ?a ?b] => destruct (Nat.eqb_spec a b); try congruence end.
  - destruct F1 as [F1 _]. 
    destruct (Nat.eqb_spec (t_uid y) (t_uid x1)) as [A|A].
    + assert (E1 : Nat.eqb (t_uid x1) (t_uid t2) = false) by (apply Nat.eqb_neq; congruence).
      assert (E2 : Nat.eqb (t_uid y) (t_uid t2) = false) by (apply Nat.eqb_neq; congruence).
      rewrite E1, E2. cbn [negb map]. apply Nat.eqb_eq in A. rewrite A, IH. reflexivity.
    + destruct (Nat.eqb (t_uid y) (t_uid t2)); cbn [negb map]; [exact IH|]. apply Nat.eqb_neq in A. rewrite A, IH. reflexivity.
  - destruct F2 as [F2 _]. 
    destruct (Nat.eqb_spec (t_uid y) (t_uid x2)) as [A|A].
    + assert (E1 : Nat.eqb (t_uid x2) (t_uid t1) = false) by (apply Nat.eqb_neq; congruence).
      assert (E2 : Nat.eqb (t_uid y) (t_uid t1) = false) by (apply Nat.eqb_neq; congruence).
      rewrite E1, E2. cbn [negb map]. apply Nat.eqb_eq in A. rewrite A, IH. reflexivity.
    + destruct (Nat.eqb (t_uid y) (t_uid t1)); cbn [negb map]; [exact IH|]. apply Nat.eqb_neq in A. rewrite A, IH. reflexivity.
  - destruct (Nat.eqb (t_uid y) (t_uid t1)) eqn:A, (Nat.eqb (t_uid y) (t_uid t2)) eqn:B; cbn [negb filter]; rewrite ?A, ?B; cbn [negb]; rewrite ?IH; reflexivity.
Qed.

Lemma fair_simple : forall t k, fair t k -> fair t (simple t k).
Proof. intros t k F. destruct k; cbn [simple fair] in *; auto. Qed.

Lemma keeps_find : forall prof w o u, sound w -> keeps_to_itself prof w o -> u <> whose o ->
  find_thread (fst (wstep prof w o)) u = find_thread w u.
Proof.
  intros prof w o u S K N. destruct (wstep prof w o) as [w1 e1] eqn:E.
  destruct (wstep_sound prof w o w1 e1 S E) as (S1 & _). cbn [fst].
  assert (H : forall x, t_uid x = u -> (In x (w_threads w1) <-> In x (w_threads w))).
  { intros x U. unfold keeps_to_itself in K. rewrite E in K. apply K. congruence. }
  destruct (find_thread w u) as [t|] eqn:F.
  - apply find_thread_spec in F. destruct F as [I U]. rewrite <- U. apply find_of; [exact S1|]. apply H; assumption.
  - destruct (find_thread w1 u) as [t|] eqn:F1; [|reflexivity]. exfalso. apply find_thread_spec in F1. destruct F1 as [I U].
    apply (H t U) in I. unfold find_thread in F. apply (find_none _ _ F) in I. rewrite U, Nat.eqb_refl in I. discriminate.
Qed.

Lemma c122_commute : forall prof w o1 o2,
  distinct w -> Forall (fun t => (t_uid t < w_next w)%nat) (w_threads w) ->
  keeps_to_itself prof w o1 -> keeps_to_itself prof w o2 -> whose o1 <> whose o2 ->
  syncs o1 = false -> syncs o2 = false ->
  fst (wrun prof w [o1; o2]) = fst (wrun prof w [o2; o1]) /\
  snd (wrun prof w [o1; o2]) = snd (wstep prof w o1) ++ snd (wstep prof w o2) /\
  snd (wrun prof w [o2; o1]) = snd (wstep prof w o2) ++ snd (wstep prof w o1).
Proof.
  intros prof w o1 o2 D Fa K1 K2 N Y1 Y2. assert (S : sound w) by (split; assumption).
  assert (R : forall o o', wrun prof w [o; o'] =
    (fst (wstep prof (fst (wstep prof w o)) o'), snd (wstep prof w o) ++ snd (wstep prof (fst (wstep prof w o)) o'))).
  { intros o o'. cbn [wrun]. destruct (wstep prof w o) as [a b]. cbn [fst snd]. destruct (wstep prof a o'). rewrite app_nil_r. reflexivity. }
  rewrite !R. cbn [fst snd].
  pose proof (keeps_find prof w o1 (whose o2) S K1 (not_eq_sym N)) as G2.
  pose proof (keeps_find prof w o2 (whose o1) S K2 N) as G1.
  destruct (find_thread w (whose o1)) as [t1|] eqn:F1.
  2: { rewrite (step_none prof w o1 F1). rewrite (step_none prof _ o1 G1). cbn [fst snd]. rewrite app_nil_r. auto. }
  destruct (find_thread w (whose o2)) as [t2|] eqn:F2.
  2: { rewrite (step_none prof w o2 F2). rewrite (step_none prof _ o2 G2). cbn [fst snd]. rewrite app_nil_r. auto. }
  destruct (find_thread_spec _ _ _ F1) as [I1 U1]. destruct (find_thread_spec _ _ _ F2) as [I2 U2].
  destruct (step_kind prof o1 t1 U1 Y1) as (k1 & e1 & R1 & E1). destruct (step_kind prof o2 t2 U2 Y2) as (k2 & e2 & R2 & E2).
  unfold keeps_to_itself in K1, K2. rewrite (E1 w F1) in *. rewrite (E2 w F2) in *. cbn [fst snd] in *.
  rewrite (E2 _ G2), (E1 _ G1). cbn [fst snd]. rewrite <- U1 in K1. rewrite <- U2 in K2.
  destruct (act_simple w w t1 k1 S I1 K1 (left_refl w)) as [A1 P1].
  destruct (act_simple w w t2 k2 S I2 K2 (left_refl w)) as [A2 P2].
  assert (LK : forall t k, fair t k -> plain k -> In t (w_threads w) -> left w (act w t k)).
  { intros t [|x|[]| |p n] Fk Pk It; cbn [plain fair act apply_death] in *; try contradiction;
      [apply left_refl|apply (left_put w t); tauto|apply left_drop]. }
  assert (L1 : left w (act w t1 k1)) by (rewrite A1; apply LK; [apply fair_simple|..]; assumption).
  assert (L2 : left w (act w t2 k2)) by (rewrite A2; apply LK; [apply fair_simple|..]; assumption).
  destruct (act_simple w _ t2 k2 S I2 K2 L1) as [B2 _]. destruct (act_simple w _ t1 k1 S I1 K1 L2) as [B1 _].
  rewrite (proj1 L1), (proj1 L2). split; [|split; reflexivity].
  rewrite B1, B2, A1, A2. apply plain_commute; try assumption; try (apply fair_simple; assumption). congruence.
Qed.

(** * Which steps keep to themselves *)

Lemma c122_keeps : forall prof w o,
  distinct w -> Forall (fun t => (t_uid t < w_next w)%nat) (w_threads w) -> syncs o = false ->
  (forall ev, In ev (snd (wstep prof w o)) ->
     match ev with
     | EvSpawn _ _ | EvCall _ _ (Kill DeathProcess) | EvCall _ _ (Kill DeathSigsys) => False
     | EvCall _ d Proceed => ~ In (sd_nr d) [SYS_execve; SYS_execveat; SYS_exit_group]
     | _ => True
     end) ->
  keeps_to_itself prof w o.
Proof.
  intros prof w o D Fa SY H x N.
  assert (DT : forall t k, t_uid t = whose o -> k = DeathThread ->
    (In x (w_threads (apply_death w t k)) <-> In x (w_threads w))).
  { intros t k U ->. cbn [apply_death]. apply drop_others. congruence. }
  assert (PT : forall t1, t_uid t1 = whose o -> (In x (w_threads (put_thread w t1)) <-> In x (w_threads w))).
  { intros t1 U. apply put_others. congruence. }
  assert (DK : forall u d k, In (EvCall u d (Kill k)) (snd (wstep prof w o)) -> k = DeathThread).
  { intros u d k I. specialize (H _ I). cbn beta iota in H. destruct k; [contradiction|reflexivity|contradiction]. }
  destruct o as [u ps v|u amb|u d o|u b|u]; cbn [wstep whose syncs] in *.
  - destruct (find_thread w u) as [t|] eqn:F; [|reflexivity]. apply find_thread_spec in F. destruct F as [It U].
    destruct (t_call t); [reflexivity|]. apply PT. exact U.
  - destruct (find_thread w u) as [t|] eqn:F; [|reflexivity]. apply find_thread_spec in F. destruct F as [It U].
    destruct (t_call t) as [ph|]; [|reflexivity]. destruct (step_ids prof amb t ph) as [P1 _].
    destruct (pledge_step prof amb t ph) as [[ph1|[r|e| |k]] y] eqn:PS; cbn [fst snd] in *;
      try (apply PT; cbn [set_call t_uid]; congruence).
    apply DT; [exact U|]. destruct (died_event prof amb t ph k y PS) as [d I]. exact (DK _ _ _ I).
  - destruct (find_thread w u) as [t|] eqn:F; [|reflexivity]. apply find_thread_spec in F. destruct F as [It U].
    destruct (supervised_entry (o_sup o) (t_filters t) d) as [|r|k] eqn:SE; cbn [fst snd] in *.
    + assert (HC : ~ In (sd_nr d) [SYS_execve; SYS_execveat; SYS_exit_group]).
      { apply (H (EvCall u d Proceed)). destruct (sys_effect w t d o). left. reflexivity. }
      assert (NS : forall c y, ~ In (EvSpawn c y) (snd (sys_effect w t d o))).
      { intros c y I. apply (H (EvSpawn c y)). destruct (sys_effect w t d o). right. exact I. }
      assert (G : In x (w_threads (fst (sys_effect w t d o))) <-> In x (w_threads w));
        [|destruct (sys_effect w t d o); exact G].
      clear H DK. revert NS. unfold sys_effect.
      assert (NT : forall q, (forall c y, ~ In (EvSpawn c y) (snd (if o_refuse o then (w, [])
         else (spawn w t q (o_newid o), [EvSpawn (t_uid t) (w_next w)])))) ->
        (In x (w_threads (fst (if o_refuse o then (w, []) else (spawn w t q (o_newid o), [EvSpawn (t_uid t) (w_next w)])))) <->
         In x (w_threads w))).
      { intros q NS. destruct (o_refuse o); [reflexivity|]. exfalso. apply (NS (t_uid t) (w_next w)). left. reflexivity. }
      destruct ((sd_nr d =? SYS_fork) || (sd_nr d =? SYS_vfork)); [exact (NT _)|].
      destruct (sd_nr d =? SYS_clone); [exact (NT _)|].
      destruct (sd_nr d =? SYS_clone3); [exact (NT _)|]. clear NT. intros _.
      destruct (sd_nr d =? SYS_prctl).
      { apply PT. cbn [fst]. rewrite (proj1 (prctl_ids (o_refuse o) t d (o_payload o))). exact U. }
      destruct ((sd_nr d =? SYS_seccomp) && ((lo32 (sd_a0 d) =? 0) && (lo32 (sd_a1 d) =? 0) && (sd_a2 d =? 0))).
      { apply PT. rewrite (proj1 (strict_ids t)). exact U. }
      destruct ((sd_nr d =? SYS_seccomp) && (lo32 (sd_a0 d) =? 1)) eqn:SC.
      { apply andb_true_iff in SC. destruct SC as [SC _]. rewrite SC in SY. cbn [andb] in SY. rewrite SY.
        destruct (attach_filter (o_refuse o) (t_nnp t || t_cap t) (t_filters t) (o_payload o)); [reflexivity|]. apply PT. exact U. }
      assert (E1 : (sd_nr d =? SYS_execve) = false) by (apply N.eqb_neq; intros E; apply HC; rewrite E; left; reflexivity).
      assert (E2 : (sd_nr d =? SYS_execveat) = false) by (apply N.eqb_neq; intros E; apply HC; rewrite E; right; left; reflexivity).
      assert (E3 : (sd_nr d =? SYS_exit_group) = false) by (apply N.eqb_neq; intros E; apply HC; rewrite E; right; right; left; reflexivity).
      rewrite E1, E2, E3. cbn [orb andb]. destruct (sd_nr d =? SYS_exit); [|reflexivity]. apply DT; [exact U|reflexivity].
    + reflexivity.
    + apply DT; [exact U|]. exact (DK u d k (or_introl eq_refl)).
  - destruct (find_thread w u) as [t|] eqn:F; [|reflexivity]. apply find_thread_spec in F. destruct F as [It U].
    apply PT. exact U.
  - apply drop_others. exact N.
Qed.
