(** Histories of many threads: C40, C41. *)
From Coq Require Import NArith ZArith String List Bool Lia.
From Verif Require Import Libc Machine Bpf SeccompRet Asm Vm Promises Filters Kernel World Spec
  FragProofs PolicyProofs VmProofs KernelVmProofs CodeProofs PledgeProofs.
Import ListNotations.
Local Open Scope N_scope.

(** * Threads of a world *)

Lemma find_thread_spec : forall w u t, find_thread w u = Some t ->
  In t (w_threads w) /\ t_uid t = u.
Proof.
  intros w u t H. unfold find_thread in H. apply find_some in H. destruct H as [I E].
  apply Nat.eqb_eq in E. auto.
Qed.

Lemma put_thread_in : forall w t x, In x (w_threads (put_thread w t)) ->
  (x = t /\ exists y, In y (w_threads w) /\ t_uid y = t_uid t) \/
  (In x (w_threads w) /\ t_uid x <> t_uid t).
Proof.
  intros w t x H. cbn [put_thread w_threads] in H. apply in_map_iff in H.
  destruct H as (y & E & I). destruct (Nat.eqb_spec (t_uid y) (t_uid t)) as [U|U].
  - left. split; [auto|]. exists y. auto.
  - right. subst x. auto.
Qed.

(** Answers of getpid and gettid that are the ids [pid], [tid] of task [u] unless made up in
    [past]. *)
Definition heard (u : nat) (past : list event) (pid tid : N) (e : sysenv) : Prop :=
  (forall x, env_getpid e = Ok x -> answered u past SYS_getpid pid x) /\
  (forall x, env_gettid e = Ok x -> answered u past SYS_gettid tid x).
Definition heard_rules (u : nat) (past : list event) (pid tid : N)
  (rs : list (Filtered * (N * N))) : Prop := Forall (told (heard u past pid tid)) rs.

(** The rules compiled so far, or the program, of a pledge call in progress are those for its
    arguments, with such ids. *)
Definition call_ok (past : list event) (t : thread) : Prop :=
  match t_call t with
  | Some (PBuild ps v done todo) =>
      exists rs, done = map rfrag rs /\ map fst rs ++ todo = all_filters ps /\
        heard_rules (t_uid t) past (t_pid t) (t_tid t) rs
  | Some (PNnp ps v prog) | Some (PLoad ps v prog) =>
      exists rs, prog = gcode rs v /\ map fst rs = all_filters ps /\
        heard_rules (t_uid t) past (t_pid t) (t_tid t) rs
  | _ => True
  end.
Definition inv (past : list event) (w : world) : Prop :=
  Forall (fun t => call_ok past t /\ (t_uid t < w_next w)%nat) (w_threads w).

Lemma answered_app : forall u tr1 tr2 nr real x, answered u tr1 nr real x ->
  answered u (tr1 ++ tr2) nr real x.
Proof.
  intros u tr1 tr2 nr real x [->|(d & r & I & N & E)]; [left; reflexivity|right].
  exists d, r. split; [apply in_or_app; left; exact I|auto].
Qed.
Lemma told_mono : forall (E E' : sysenv -> Prop) r, (forall e, E e -> E' e) -> told E r -> told E' r.
Proof.
  intros E E' r M [A B]. split; intros X.
  - destruct (A X) as (e & He & Y). eauto.
  - destruct (B X) as (e & He & Y). eauto.
Qed.
Lemma heard_app : forall u tr1 tr2 pid tid rs, heard_rules u tr1 pid tid rs ->
  heard_rules u (tr1 ++ tr2) pid tid rs.
Proof.
  intros u tr1 tr2 pid tid rs F. eapply Forall_impl; [|exact F]. intros r. apply told_mono.
  intros e [A B]. split; intros x X; apply answered_app; auto.
Qed.
Lemma call_ok_app : forall past evs t, call_ok past t -> call_ok (past ++ evs) t.
Proof.
  intros past evs t H. unfold call_ok in *.
  destruct (t_call t) as [[ps v|ps v done todo|ps v prog|ps v prog]|]; auto;
    destruct H as (rs & E & M & F); exists rs; (split; [exact E|]); (split; [exact M|]);
    apply heard_app; exact F.
Qed.
Lemma inv_app : forall past evs w, inv past w -> inv (past ++ evs) w.
Proof.
  intros past evs w H. eapply Forall_impl; [|exact H]. intros t [C U]. split; [|exact U].
  apply call_ok_app. exact C.
Qed.
(** All threads of [us] have [prog]; nothing in [us] is a future identity. *)
Definition confined (w : world) (us : list nat) (prog : list sock_filter) : Prop :=
  (forall t, In t (w_threads w) -> In (t_uid t) us -> In prog (t_filters t)) /\
  (forall u, In u us -> (u < w_next w)%nat).

Lemma fresh_inv : forall w past, fresh_world w -> inv past w.
Proof.
  intros w past H. eapply Forall_impl; [|exact H]. intros t [C U]. split; [|exact U].
  unfold call_ok. rewrite C. exact I.
Qed.

Lemma inv_put : forall past w t, inv past w -> call_ok past t -> (t_uid t < w_next w)%nat ->
  inv past (put_thread w t).
Proof.
  intros past w t H C U. apply Forall_forall. intros x I. apply put_thread_in in I.
  destruct I as [[-> _]|[I _]]; [auto|]. unfold inv in H. rewrite Forall_forall in H. apply H. exact I.
Qed.
Lemma inv_filter : forall past w f, inv past w -> inv past (mkWorld (filter f (w_threads w)) (w_next w)).
Proof.
  intros past w f H. apply Forall_forall. intros x I. cbn [w_threads] in I. apply filter_In in I.
  unfold inv in H. rewrite Forall_forall in H. apply H. tauto.
Qed.
Lemma confined_put : forall w us prog t, confined w us prog ->
  (In (t_uid t) us -> In prog (t_filters t)) -> confined (put_thread w t) us prog.
Proof.
  intros w us prog t [C1 C2] H. split; [|exact C2]. intros x I U. apply put_thread_in in I.
  destruct I as [[-> _]|[I _]]; [apply H; exact U|apply C1; assumption].
Qed.
Lemma confined_filter : forall w us prog f, confined w us prog ->
  confined (mkWorld (filter f (w_threads w)) (w_next w)) us prog.
Proof.
  intros w us prog f [C1 C2]. split; [|exact C2]. intros x I. cbn [w_threads] in I.
  apply filter_In in I. apply C1. tauto.
Qed.
Lemma inv_death : forall past w t d, inv past w -> inv past (apply_death w t d).
Proof. intros past w t [| |] H; apply inv_filter; exact H. Qed.
Lemma confined_death : forall w us prog t d, confined w us prog -> confined (apply_death w t d) us prog.
Proof. intros w us prog t [| |] H; apply confined_filter; exact H. Qed.

(** * One step of a pledge *)

Lemma read_answered : forall t amb d x nr past tr,
  read_call t amb d = Ok x -> sd_nr d = nr -> In (EvCall (t_uid t) d (fate_of t amb d)) tr ->
  answered (t_uid t) (past ++ tr) nr (kernel_id t d) x.
Proof.
  intros t amb d x nr past tr R N I. unfold read_call in R.
  destruct (fate_of t amb d) as [|r|k]; [| |discriminate]; injection R as <-; [left; reflexivity|].
  right. exists d, r. split; [apply in_or_app; right; exact I|auto].
Qed.

Lemma rule_heard : forall prof t amb ps v done f todo part past,
  filter_to_bpf prof (thread_env t amb) f = Ok part ->
  exists r, part = rfrag r /\ fst r = f /\
    told (heard (t_uid t) (past ++ step_calls t amb (PBuild ps v done (f :: todo))) (t_pid t) (t_tid t)) r.
Proof.
  intros prof t amb ps v done f todo part past B. rewrite rule_built in B.
  unfold thread_env in B. cbn [env_getpid env_gettid] in B.
  destruct (is_kill f) eqn:K; [destruct f; try discriminate|
    destruct (is_tkill f) eqn:T; [destruct f; try discriminate|]].
  - destruct (read_call t amb (call_getpid amb)) as [x|er| |d] eqn:X; try discriminate.
    injection B as <-. exists (KillSelf, (x, 0)). repeat split; [|discriminate]. intros _.
    exists (mkEnv (Ok x) Panic). split; [|reflexivity]. split; [|discriminate].
    intros y Y. injection Y as <-. apply (read_answered t amb (call_getpid amb)); [exact X|reflexivity|].
    left. reflexivity.
  - destruct (read_call t amb (call_gettid amb)) as [x|er| |d] eqn:X; try discriminate.
    injection B as <-. exists (TkillSelf, (0, x)). repeat split; [discriminate|]. intros _.
    exists (mkEnv Panic (Ok x)). split; [|reflexivity]. split; [discriminate|].
    intros y Y. injection Y as <-. apply (read_answered t amb (call_gettid amb)); [exact X|reflexivity|].
    left. reflexivity.
  - exists (f, (0, 0)). split; [destruct f; try discriminate; injection B as <-; reflexivity|].
    split; [reflexivity|]. split; cbn [fst]; intros ->; discriminate.
Qed.

Lemma pledge_step_facts : forall prof amb t ph s t' past, call_ok past (set_call t (Some ph)) ->
  pledge_step prof amb t ph = (s, t') ->
  t_uid t' = t_uid t /\ t_pid t' = t_pid t /\ t_tid t' = t_tid t /\ (t_nnp t = true -> t_nnp t' = true) /\
  (forall ph', s = Continue ph' ->
     call_ok (past ++ step_calls t amb ph) (set_call t' (Some ph')) /\
     ph_promises ph' = ph_promises ph /\ ph_violation ph' = ph_violation ph) /\
  (t_filters t' = t_filters t \/
   s = Return_ (Ok tt) /\ (exists ps v prog, ph = PLoad ps v prog) /\
   exists rs, t_filters t' = gcode rs (ph_violation ph) :: t_filters t /\
     map fst rs = all_filters (ph_promises ph) /\
     heard_rules (t_uid t) past (t_pid t) (t_tid t) rs).
Proof.
  intros prof amb t ph s t' past C H.
  destruct ph as [ps v|ps v done todo|ps v prog|ps v prog]; cbn [pledge_step] in H.
  - injection H as <- <-. repeat (split; [reflexivity || tauto|]). split; [|left; reflexivity].
    intros ph' E. rewrite promises_to_filters_ok in E. injection E as <-.
    split; [|split; reflexivity]. exists []. repeat split. constructor.
  - destruct C as (rs & -> & M & F). cbn [set_call t_uid t_pid t_tid] in F.
    destruct todo as [|f todo]; injection H as <- <-; repeat (split; [reflexivity || tauto|]);
      (split; [|left; reflexivity]); intros ph' E.
    + change (proceed (assemble_parts prof (map rfrag rs) v) (fun prog => PNnp ps v prog) = Continue ph') in E.
      rewrite assemble_ok in E. injection E as <-. split; [|split; reflexivity].
      exists rs. rewrite app_nil_r in M. split; [reflexivity|]. split; [exact M|].
      apply heard_app. exact F.
    + destruct (filter_to_bpf prof (thread_env t amb) f) as [part|e| |d] eqn:B; try discriminate.
      injection E as <-. split; [|split; reflexivity].
      destruct (rule_heard prof t amb ps v (map rfrag rs) f todo part past B) as (r & -> & <- & T).
      exists (rs ++ [r]). rewrite !map_app. split; [reflexivity|].
      rewrite <- app_assoc. split; [exact M|]. apply Forall_app. split; [|constructor; [exact T|constructor]].
      apply heard_app. exact F.
  - rewrite prctl_nnp in H. assert (C' : forall t1, t_uid t1 = t_uid t -> t_pid t1 = t_pid t -> t_tid t1 = t_tid t ->
      call_ok (past ++ step_calls t amb (PNnp ps v prog)) (set_call t1 (Some (PLoad ps v prog)))).
    { intros t1 U P T. apply (call_ok_app past). unfold call_ok in *.
      cbn [set_call t_call t_uid t_pid t_tid] in *. rewrite U, P, T. exact C. }
    destruct (fate_of t amb (call_set_nnp amb)) as [|z|d]; injection H as <- <-;
      repeat (split; [reflexivity || tauto|]); (split; [|left; reflexivity]); intros ph' E.
    + change (Continue (PLoad ps v prog) = Continue ph') in E. injection E as <-.
      split; [apply C'; reflexivity|split; reflexivity].
    + unfold check_ret in E. destruct (_ =? 0)%Z; [|discriminate]. injection E as <-.
      split; [apply C'; reflexivity|split; reflexivity].
    + discriminate.
  - destruct C as (rs & -> & M & Id). destruct (fate_of t amb (call_set_seccomp amb)) as [|z|d].
    + rewrite prctl_load in H. destruct (attach_filter _ _ _ _) as [e|fs] eqn:A; injection H as <- <-.
      * repeat (split; [reflexivity || tauto|]). split; [|left; reflexivity]. unfold check_ret.
        intros ph'. destruct (_ =? 0)%Z; discriminate.
      * repeat (split; [reflexivity || tauto|]). split; [discriminate|]. right.
        split; [reflexivity|]. split; [eauto|]. exists rs.
        apply attach_accepted in A. destruct A as (K & -> & _).
        apply fprog_accepted in K. destruct K as [-> _]. split; [reflexivity|auto].
    + injection H as <- <-. repeat (split; [reflexivity || tauto|]). split; [|left; reflexivity].
      unfold check_ret. intros ph'. destruct (_ =? 0)%Z; discriminate.
    + injection H as <- <-. repeat (split; [reflexivity || tauto|]).
      split; [discriminate|left; reflexivity].
Qed.

(** * One step of the world *)

(** The calls of the events in [tr], made by tasks descending from [us], met a stack holding
    [prog], under a supervisor in [S]. *)
Definition guarded (S : supervisor -> Prop) (us : list nat) (tr : list event)
  (prog : list sock_filter) : Prop :=
  forall mid u d e rest, tr = mid ++ EvCall u d e :: rest -> In u (descendants us mid) ->
  exists fs s, In prog fs /\ S s /\ e = supervised_entry s fs d.
Definition op_in (S : supervisor -> Prop) (o : op) : Prop :=
  match o with OStep _ amb => S (amb_sup amb) | OSys _ _ o => S (o_sup o) | _ => True end.

Lemma guarded_nil : forall S us prog, guarded S us [] prog.
Proof. intros S us prog mid u d e rest E. destruct mid; discriminate. Qed.

Lemma descendants_app : forall tr1 tr2 us,
  descendants us (tr1 ++ tr2) = descendants (descendants us tr1) tr2.
Proof.
  induction tr1 as [|e tr1 IH]; intros tr2 us; [reflexivity|].
  cbn [app descendants]. destruct e; apply IH.
Qed.

Lemma app_split : forall A (a b c d : list A), a ++ b = c ++ d ->
  exists l, (a = c ++ l /\ d = l ++ b) \/ (c = a ++ l /\ b = l ++ d).
Proof.
  intros A. induction a as [|x a IHa]; intros b c d H.
  - exists c. right. auto.
  - destruct c as [|y c].
    + exists (x :: a). left. auto.
    + cbn [app] in H. injection H as <- H. destruct (IHa _ _ _ H) as (l & [[-> ->]|[-> ->]]);
        exists l; [left|right]; auto.
Qed.

Lemma guarded_app : forall S us tr1 tr2 prog,
  guarded S us tr1 prog -> guarded S (descendants us tr1) tr2 prog -> guarded S us (tr1 ++ tr2) prog.
Proof.
  intros S us tr1 tr2 prog G1 G2 mid u d e rest E I.
  destruct (app_split _ _ _ _ _ E) as (l & [[E1 E2]|[E1 E2]]).
  - destruct l as [|y l].
    + cbn [app] in E2. rewrite app_nil_r in E1. subst mid.
      apply (G2 [] u d e rest); [symmetry; exact E2|exact I].
    + cbn [app] in E2. injection E2 as <- E2. apply (G1 mid u d e l E1 I).
  - subst mid. rewrite descendants_app in I. apply (G2 l u d e rest E2 I).
Qed.

(** A list of calls by one task, none of which changes the descendants. *)
Lemma guarded_calls : forall (S : supervisor -> Prop) s us prog u fs tr, S s ->
  Forall (fun ev => exists d, ev = EvCall u d (supervised_entry s fs d)) tr ->
  (In u us -> In prog fs) -> guarded S us tr prog /\ descendants us tr = us.
Proof.
  intros S s us prog u fs tr Hs F H. split.
  - intros mid u' d e rest -> I.
    assert (D : descendants us mid = us).
    { apply Forall_app in F. destruct F as [F _]. clear - F.
      induction F as [|ev mid (d & ->) F IH]; [reflexivity|exact IH]. }
    rewrite D in I. apply Forall_app in F. destruct F as [_ F]. inversion F; subst.
    destruct H2 as (d' & E). injection E as -> -> ->. exists fs, s. auto.
  - induction F as [|ev tr (d & ->) F IH]; [reflexivity|exact IH].
Qed.

Lemma step_calls_form : forall t amb ph,
  Forall (fun ev => exists d, ev = EvCall (t_uid t) d (supervised_entry (amb_sup amb) (t_filters t) d))
         (step_calls t amb ph).
Proof.
  intros t amb ph. destruct ph as [ps v|ps v done todo|ps v prog|ps v prog]; cbn [step_calls];
    try (repeat constructor; eexists; reflexivity).
  destruct todo as [|f todo]; [constructor|].
  destruct f; repeat constructor; eexists; reflexivity.
Qed.

Lemma guarded_other : forall S us prog ev, (forall u d e, ev <> EvCall u d e) -> guarded S us [ev] prog.
Proof.
  intros S us prog ev H mid u d e rest E. destruct mid as [|x [|y mid]]; try discriminate.
  injection E as E _. exfalso. apply (H _ _ _ E).
Qed.

Lemma older_part_spec : forall fs gs, older_part fs gs = true -> exists l, gs = l ++ fs.
Proof.
  intros fs gs. revert fs. induction gs as [|g gs IH]; intros fs H; cbn [older_part] in H;
    destruct (list_eq_dec _ _ _) as [E|E]; cbn [orb] in H.
  - exists []. cbn. auto.
  - discriminate.
  - exists []. cbn. auto.
  - destruct (IH fs H) as (l & ->). exists (g :: l). reflexivity.
Qed.

Lemma can_sync_spec : forall w t x, can_sync w t = true -> In x (w_threads w) ->
  t_pid x = t_pid t -> exists l, t_filters t = l ++ t_filters x.
Proof.
  intros w t x H I E. unfold can_sync in H. rewrite forallb_forall in H. specialize (H x I).
  rewrite E, N.eqb_refl in H. apply older_part_spec. exact H.
Qed.

(** A task after a synchronisation. *)
Lemma sync_in : forall w t fs x, In x (w_threads (sync_threads w t fs)) ->
  exists y, In y (w_threads w) /\
  (x = y \/ t_pid y = t_pid t /\ (x = set_filters y fs \/ x = set_nnp (set_filters y fs))).
Proof.
  intros w t fs x H. cbn [sync_threads w_threads] in H. apply in_map_iff in H.
  destruct H as (y & E & I). exists y. split; [exact I|].
  destruct (N.eqb_spec (t_pid y) (t_pid t)) as [P|P]; [|left; auto].
  right. split; [exact P|]. destruct (t_nnp t); auto.
Qed.

(** Entering strict mode. *)
Lemma strict_cases : forall t, snd (enter_strict t) = t \/
  snd (enter_strict t) = set_filters t (strict_mode :: t_filters t).
Proof. intros t. unfold enter_strict. destruct (t_filters t); auto. Qed.

(** What a prctl can do to a task. *)
Lemma prctl_cases : forall oom t d prog,
  snd (kernel_prctl oom t d prog) = t \/ snd (kernel_prctl oom t d prog) = set_nnp t \/
  snd (kernel_prctl oom t d prog) = set_filters t (prog :: t_filters t) \/
  snd (kernel_prctl oom t d prog) = set_filters t (strict_mode :: t_filters t).
Proof.
  intros oom t d prog. unfold kernel_prctl. destruct (_ =? _).
  - destruct (_ =? _).
    2:{ destruct (_ =? _); [|left; reflexivity]. destruct (strict_cases t) as [->| ->]; auto. }
    destruct (attach_filter _ _ _ _) as [e|fs] eqn:A; [left; reflexivity|].
    apply attach_accepted in A. destruct A as (_ & -> & _). right. right. left. reflexivity.
  - destruct (_ =? _); [|left; reflexivity]. destruct (_ && _); [right; left|left]; reflexivity.
Qed.

(** The tasks after a program has been run. *)
Lemma run_program_in : forall w t x, In x (w_threads (run_program w t)) ->
  x = exec_thread t \/ (In x (w_threads w) /\ t_uid x <> t_uid t /\ t_pid x <> t_pid t).
Proof.
  intros w t x H. cbn [run_program w_threads] in H. apply in_map_iff in H. destruct H as (y & E & I).
  apply filter_In in I. destruct I as [I C].
  destruct (Nat.eqb_spec (t_uid y) (t_uid t)) as [U|U]; [left; auto|right]. subst y.
  cbn [orb] in C. apply negb_true_iff, N.eqb_neq in C. auto.
Qed.
Lemma run_program_kept : forall w t x, In t (w_threads w) ->
  x = exec_thread t \/ (In x (w_threads w) /\ t_uid x <> t_uid t /\ t_pid x <> t_pid t) ->
  In x (w_threads (run_program w t)).
Proof.
  intros w t x It H. cbn [run_program w_threads]. apply in_map_iff. destruct H as [->|(I & U & P)].
  - exists t. rewrite Nat.eqb_refl. split; [reflexivity|]. apply filter_In. rewrite Nat.eqb_refl. auto.
  - exists x. apply Nat.eqb_neq in U. rewrite U. split; [reflexivity|]. apply filter_In. split; [exact I|].
    rewrite U. cbn [orb]. apply negb_true_iff, N.eqb_neq. exact P.
Qed.

Lemma sys_effect_ok : forall S w t d o w' evs us prog past,
  inv past w -> confined w us prog -> In t (w_threads w) ->
  sys_effect w t d o = (w', evs) ->
  inv past w' /\ confined w' (descendants us evs) prog /\ guarded S us evs prog.
Proof.
  intros S w t d o w' evs us prog past Hi Hc It H.
  pose proof Hi as Hi'. unfold inv in Hi'. rewrite Forall_forall in Hi'.
  destruct (Hi' t It) as [Ct Ut].
  assert (Same : (w, []) = (w', evs) ->
     inv past w' /\ confined w' (descendants us evs) prog /\ guarded S us evs prog).
  { intros E. injection E as <- <-. split; [exact Hi|]. split; [exact Hc|apply guarded_nil]. }
  assert (New : forall b : bool,
     (if o_refuse o then (w, [])
      else (spawn w t (if b then t_pid t else o_newid o) (o_newid o), [EvSpawn (t_uid t) (w_next w)])) = (w', evs) ->
     inv past w' /\ confined w' (descendants us evs) prog /\ guarded S us evs prog).
  { intros b E. destruct (o_refuse o); [exact (Same E)|]. injection E as <- <-. split; [|split].
    - unfold inv, spawn. cbn [w_threads w_next]. constructor; [split; [exact I|cbn; lia]|].
      apply Forall_forall. intros x Ix. destruct (Hi' x Ix) as [A B]. split; [exact A|lia].
    - destruct Hc as [C1 C2]. cbn [descendants]. unfold spawn. split; cbn [w_threads w_next].
      + intros x [<-|Ix] Ux; cbn [t_uid t_filters] in *.
        * destruct (existsb (Nat.eqb (t_uid t)) us) eqn:X.
          -- apply existsb_exists in X. destruct X as (y & Y & Z). apply Nat.eqb_eq in Z.
             apply C1; [exact It|]. rewrite Z. exact Y.
          -- specialize (C2 _ Ux). lia.
        * apply C1; [exact Ix|]. destruct (existsb (Nat.eqb (t_uid t)) us); [|exact Ux].
          destruct Ux as [Ux|Ux]; [|exact Ux]. destruct (Hi' x Ix) as [_ B]. lia.
      + intros u Iu. destruct (existsb (Nat.eqb (t_uid t)) us).
        * destruct Iu as [<-|Iu]; [lia|]. specialize (C2 _ Iu). lia.
        * specialize (C2 _ Iu). lia.
    - apply guarded_other. discriminate. }
  assert (Put : forall t', t_uid t' = t_uid t -> call_ok past t' ->
     (In prog (t_filters t) -> In prog (t_filters t')) ->
     inv past (put_thread w t') /\ confined (put_thread w t') us prog /\ guarded S us [] prog).
  { intros t' U C P. split; [apply inv_put; [exact Hi|exact C|rewrite U; exact Ut]|].
    split; [|apply guarded_nil]. apply confined_put; [exact Hc|].
    rewrite U. intros X. apply P. exact (proj1 Hc t It X). }
  unfold sys_effect in H.
  destruct (_ || _); [exact (New false H)|].
  destruct (_ =? _); [exact (New _ H)|].
  destruct (_ =? _); [exact (New _ H)|].
  destruct (_ =? _).
  { injection H as <- <-.
    destruct (prctl_cases (o_refuse o) t d (o_payload o)) as [->|[->|[->| ->]]]; apply Put;
      try reflexivity; try exact Ct; auto; intros X; right; exact X. }
  destruct (_ && (_ && _ && _)).
  { injection H as <- <-. destruct (strict_cases t) as [->| ->]; apply Put;
      try reflexivity; try exact Ct; auto. intros X. right. exact X. }
  destruct (_ && _).
  2:{ destruct (_ && _).
      2:{ assert (Dea : forall k, (apply_death w t k, @nil event) = (w', evs) ->
            inv past w' /\ confined w' (descendants us evs) prog /\ guarded S us evs prog).
          { intros k E. injection E as <- <-.
            split; [apply inv_death; exact Hi|]. split; [apply confined_death; exact Hc|apply guarded_nil]. }
          destruct (_ =? _); [exact (Dea _ H)|]. destruct (_ =? _); [exact (Dea _ H)|]. exact (Same H). }
      injection H as <- <-. split; [|split; [|apply guarded_nil]].
      - apply Forall_forall. intros x Ix. apply run_program_in in Ix. destruct Ix as [->|(Ix & _)].
        + split; [exact I|exact Ut].
        + exact (Hi' x Ix).
      - destruct Hc as [C1 C2]. split; [|exact C2]. intros x Ix Ux. apply run_program_in in Ix.
        destruct Ix as [->|(Ix & _)]; [exact (C1 t It Ux)|exact (C1 x Ix Ux)]. }
  destruct (attach_filter _ _ _ _) as [x|fs] eqn:A; [exact (Same H)|].
  apply attach_accepted in A. destruct A as (_ & -> & _). destruct (N.testbit _ _).
  - destruct (can_sync w t) eqn:Cs; [|exact (Same H)]. injection H as <- <-.
    split; [|split; [|apply guarded_nil]].
    + apply Forall_forall. intros x Ix. apply sync_in in Ix. destruct Ix as (y & Iy & X).
      destruct (Hi' y Iy) as [Cy By]. destruct X as [->|[_ [->| ->]]]; split; assumption.
    + destruct Hc as [C1 C2]. split; [|exact C2]. intros x Ix Ux. apply sync_in in Ix.
      destruct Ix as (y & Iy & X).
      assert (Q : t_uid y = t_uid x -> t_pid y = t_pid t -> In prog (o_payload o :: t_filters t)).
      { intros U P. destruct (can_sync_spec w t y Cs Iy P) as (l & L). right. rewrite L.
        apply in_or_app. right. apply C1; [exact Iy|]. rewrite U. exact Ux. }
      destruct X as [->|[P [->| ->]]]; [apply C1; assumption|apply Q; auto|apply Q; auto].
  - injection H as <- <-. apply Put; [reflexivity|exact Ct|]. intros X. right. exact X.
Qed.

Lemma wstep_ok : forall S prof w o w' evs us prog past, op_in S o ->
  inv past w -> confined w us prog -> wstep prof w o = (w', evs) ->
  inv (past ++ evs) w' /\ confined w' (descendants us evs) prog /\ guarded S us evs prog.
Proof.
  intros S prof w o w' evs us prog past So Hi Hc H.
  assert (Id : (w, []) = (w', evs) ->
          inv (past ++ evs) w' /\ confined w' (descendants us evs) prog /\ guarded S us evs prog).
  { intros E. injection E as <- <-. split; [apply inv_app; exact Hi|]. split; [exact Hc|apply guarded_nil]. }
  assert (Hi' := Hi). unfold inv in Hi'. rewrite Forall_forall in Hi'.
  destruct o as [u ps v|u amb|u d o|u b|u]; cbn [wstep op_in] in H, So.
  - destruct (find_thread w u) as [t|] eqn:F; [|exact (Id H)].
    apply find_thread_spec in F. destruct F as [It Ut]. destruct (Hi' t It) as [Ct Bt].
    destruct (t_call t); [exact (Id H)|]. injection H as <- <-.
    split; [apply inv_app, inv_put; [exact Hi|exact I|exact Bt]|].
    split; [|apply guarded_nil]. apply confined_put; [exact Hc|].
    intros U. exact (proj1 Hc t It U).
  - destruct (find_thread w u) as [t|] eqn:F; [|exact (Id H)].
    apply find_thread_spec in F. destruct F as [It Ut]. destruct (Hi' t It) as [Ct Bt].
    destruct (t_call t) as [ph|] eqn:Cl; [|exact (Id H)].
    assert (Pf : In (t_uid t) us -> In prog (t_filters t)) by (apply (proj1 Hc); exact It).
    destruct (guarded_calls S _ us prog (t_uid t) (t_filters t) _ So (step_calls_form t amb ph) Pf) as [G D].
    assert (Ck : call_ok past (set_call t (Some ph))).
    { unfold call_ok in *. rewrite Cl in Ct. exact Ct. }
    destruct (pledge_step prof amb t ph) as [s t'] eqn:P.
    destruct (pledge_step_facts prof amb t ph s t' past Ck P) as (U' & _ & _ & _ & Ck' & F').
    assert (Pf' : In (t_uid t) us -> In prog (t_filters t')).
    { intros X. destruct F' as [->|(_ & _ & rs & -> & _)]; [|right]; auto. }
    assert (Done : forall evs',
      inv (past ++ step_calls t amb ph ++ evs') (put_thread w (set_call t' None)) /\
      (descendants us evs' = us -> guarded S us evs' prog ->
       confined (put_thread w (set_call t' None)) (descendants us (step_calls t amb ph ++ evs')) prog /\
       guarded S us (step_calls t amb ph ++ evs') prog)).
    { intros evs'. split.
      - apply inv_put; [apply inv_app; exact Hi|exact I|]. cbn. rewrite U'. exact Bt.
      - intros D' G'. rewrite descendants_app, D, D'. split.
        + apply confined_put; [exact Hc|]. cbn. rewrite U'. exact Pf'.
        + apply guarded_app; [exact G|]. rewrite D. exact G'. }
    assert (Tail : forall r, descendants us
        ((if Nat.eqb (length (t_filters t')) (length (t_filters t)) then []
          else [EvInstalled u (t_pid t) (t_tid t) (ph_promises ph) (ph_violation ph)]) ++
         [EvReturned u (ph_promises ph) (ph_violation ph) r]) = us /\
       guarded S us ((if Nat.eqb (length (t_filters t')) (length (t_filters t)) then []
          else [EvInstalled u (t_pid t) (t_tid t) (ph_promises ph) (ph_violation ph)]) ++
         [EvReturned u (ph_promises ph) (ph_violation ph) r]) prog).
    { intros r. destruct (Nat.eqb _ _); cbn [app].
      - split; [reflexivity|]. apply guarded_other. discriminate.
      - split; [reflexivity|].
        apply (guarded_app S us [_] [_]); apply guarded_other; discriminate. }
    destruct s as [ph'|r].
    + injection H as <- <-. split; [|split; [|exact G]].
      * apply inv_put; [apply inv_app; exact Hi|apply Ck'; reflexivity|]. cbn. rewrite U'. exact Bt.
      * rewrite D. apply confined_put; [exact Hc|]. cbn. rewrite U'. exact Pf'.
    + destruct r as [x|e| |d].
      * injection H as <- <-. destruct (Tail (Ok x)) as [T1 T2].
        match goal with |- context [step_calls t amb ph ++ ?l] => destruct (Done l) as [D1 D2] end.
        split; [exact D1|]. apply D2; assumption.
      * injection H as <- <-. destruct (Tail (Err e)) as [T1 T2].
        match goal with |- context [step_calls t amb ph ++ ?l] => destruct (Done l) as [D1 D2] end.
        split; [exact D1|]. apply D2; assumption.
      * injection H as <- <-. destruct (Tail Panic) as [T1 T2].
        match goal with |- context [step_calls t amb ph ++ ?l] => destruct (Done l) as [D1 D2] end.
        split; [exact D1|]. apply D2; assumption.
      * injection H as <- <-. split; [apply inv_death, inv_app; exact Hi|].
        rewrite D. split; [apply confined_death; exact Hc|exact G].
  - destruct (find_thread w u) as [t|] eqn:F; [|exact (Id H)].
    apply find_thread_spec in F. destruct F as [It Ut].
    assert (Pf : In u us -> In prog (t_filters t)) by (intros X; apply (proj1 Hc); [exact It|rewrite Ut; exact X]).
    destruct (guarded_calls S _ us prog u (t_filters t) [EvCall u d (supervised_entry (o_sup o) (t_filters t) d)] So)
      as [G D]; [repeat constructor; eexists; reflexivity|exact Pf|].
    destruct (supervised_entry (o_sup o) (t_filters t) d) as [|z|k].
    + destruct (sys_effect w t d o) as [w1 evs1] eqn:E1. injection H as <- <-.
      destruct (sys_effect_ok S _ _ _ _ _ _ us prog past Hi Hc It E1) as (S1 & S2 & S3).
      split; [apply inv_app; exact S1|]. split; [exact S2|].
      apply (guarded_app S us [_] evs1); [exact G|exact S3].
    + injection H as <- <-. split; [apply inv_app; exact Hi|]. split; [exact Hc|exact G].
    + injection H as <- <-. split; [apply inv_death, inv_app; exact Hi|].
      split; [apply confined_death; exact Hc|exact G].
  - destruct (find_thread w u) as [t|] eqn:F; [|exact (Id H)].
    apply find_thread_spec in F. destruct F as [It Ut]. destruct (Hi' t It) as [Ct Bt].
    injection H as <- <-. split; [apply inv_app, inv_put; [exact Hi|exact Ct|exact Bt]|].
    split; [|apply guarded_nil]. apply confined_put; [exact Hc|].
    intros U. exact (proj1 Hc t It U).
  - injection H as <- <-. split; [apply inv_app, inv_filter; exact Hi|].
    split; [apply confined_filter; exact Hc|apply guarded_nil].
Qed.

Lemma wrun_ok : forall S prof ops w w' tr us prog past, Forall (op_in S) ops ->
  inv past w -> confined w us prog -> wrun prof w ops = (w', tr) ->
  inv (past ++ tr) w' /\ confined w' (descendants us tr) prog /\ guarded S us tr prog.
Proof.
  intros S prof. induction ops as [|o ops IH]; intros w w' tr us prog past So Hi Hc H; cbn [wrun] in H.
  - injection H as <- <-. split; [apply inv_app; exact Hi|]. split; [exact Hc|apply guarded_nil].
  - destruct (wstep prof w o) as [w1 e1] eqn:S1. destruct (wrun prof w1 ops) as [w2 e2] eqn:S2.
    injection H as <- <-. inversion So; subst.
    destruct (wstep_ok S _ _ _ _ _ us prog past H1 Hi Hc S1) as (A1 & A2 & A3).
    destruct (IH _ _ _ _ prog _ H2 A1 A2 S2) as (B1 & B2 & B3).
    split; [rewrite app_assoc; exact B1|]. split; [rewrite descendants_app; exact B2|].
    apply guarded_app; assumption.
Qed.

Definition anybody (_ : supervisor) : Prop := True.
Lemma op_anybody : forall o, op_in anybody o.
Proof. intros o. destruct o; exact I. Qed.

Lemma wstep_inv : forall prof w o w' evs past, inv past w -> wstep prof w o = (w', evs) ->
  inv (past ++ evs) w'.
Proof.
  intros prof w o w' evs past Hi H.
  refine (proj1 (wstep_ok anybody prof w o w' evs [] [] past (op_anybody o) Hi _ H)).
  split; intros; contradiction.
Qed.

(** * Where a pledge is installed *)

Lemma no_installed : forall tr1 u pid tid ps v tr2 l,
  Forall (fun ev => forall u pid tid ps v, ev <> EvInstalled u pid tid ps v) l ->
  l = tr1 ++ EvInstalled u pid tid ps v :: tr2 -> False.
Proof.
  intros tr1 u pid tid ps v tr2 l F ->. apply Forall_app in F. destruct F as [_ F].
  inversion F; subst. apply (H1 u pid tid ps v). reflexivity.
Qed.

Lemma sys_effect_events : forall w t d o w' evs, sys_effect w t d o = (w', evs) ->
  evs = [] \/ evs = [EvSpawn (t_uid t) (w_next w)].
Proof.
  intros w t d o w' evs S. unfold sys_effect in S.
  repeat match type of S with
  | (if ?c then _ else _) = _ => destruct c
  | (match ?c with _ => _ end) = _ => destruct c
  end; injection S as _ <-; auto.
Qed.

Lemma wstep_installed : forall prof w o w' evs tr1 u pid tid ps v tr2 past,
  inv past w -> wstep prof w o = (w', evs) -> evs = tr1 ++ EvInstalled u pid tid ps v :: tr2 ->
  exists rs, map fst rs = all_filters ps /\ heard_rules u (past ++ tr1) pid tid rs /\
  confined w' [u] (gcode rs v) /\
  tr2 = [EvReturned u ps v (Ok tt)].
Proof.
  intros prof w o w' evs tr1 u pid tid ps v tr2 past Hi H E.
  assert (Hi' := Hi). unfold inv in Hi'. rewrite Forall_forall in Hi'.
  assert (No : Forall (fun ev => forall u pid tid ps v, ev <> EvInstalled u pid tid ps v) evs -> False).
  { intros F. eapply no_installed; eassumption. }
  destruct o as [u0 ps0 v0|u0 amb|u0 d o|u0 b|u0]; cbn [wstep] in H.
  - destruct (find_thread w u0) as [t|]; [|injection H as _ <-; exfalso; apply No; constructor].
    injection H as _ <-. exfalso. apply No. constructor.
  - destruct (find_thread w u0) as [t|] eqn:F; [|injection H as _ <-; exfalso; apply No; constructor].
    apply find_thread_spec in F. destruct F as [It Ut]. destruct (Hi' t It) as [Ct Bt].
    destruct (t_call t) as [ph|] eqn:Cl; [|injection H as _ <-; exfalso; apply No; constructor].
    assert (Cs : Forall (fun ev => forall u pid tid ps v, ev <> EvInstalled u pid tid ps v) (step_calls t amb ph)).
    { eapply Forall_impl; [|apply step_calls_form]. intros ev (d & ->). discriminate. }
    assert (Ck : call_ok past (set_call t (Some ph))).
    { unfold call_ok in *. rewrite Cl in Ct. exact Ct. }
    destruct (pledge_step prof amb t ph) as [s t'] eqn:P.
    destruct (pledge_step_facts prof amb t ph s t' past Ck P) as (U' & _ & _ & _ & _ & F').
    destruct s as [ph'|r]; [injection H as _ <-; exfalso; apply No; exact Cs|].
    destruct F' as [F'|(R & _ & rs & F' & Mr & Hon)].
    { exfalso. destruct r as [x|e| |d]; injection H as _ <-; apply No; try exact Cs;
        rewrite F', Nat.eqb_refl; (apply Forall_app; split; [exact Cs|]); repeat constructor; discriminate. }
    injection R as ->. injection H as <- <-.
    assert (Z : Nat.eqb (length (t_filters t')) (length (t_filters t)) = false)
      by (apply Nat.eqb_neq; rewrite F'; cbn; lia).
    rewrite Z in E. cbn [app] in E.
    assert (Q : u0 = u /\ t_pid t = pid /\ t_tid t = tid /\ ph_promises ph = ps /\ ph_violation ph = v /\
                tr2 = [EvReturned u ps v (Ok tt)]).
    { clear - E Cs. revert tr1 E. induction Cs as [|ev l Hev Cs IH]; intros tr1 E; cbn [app] in E.
      - destruct tr1 as [|x tr1]; [injection E as -> -> -> -> -> <-; auto|].
        + repeat (split; [reflexivity|]). reflexivity.
        + injection E as _ E. destruct tr1 as [|y tr1]; [discriminate|].
          injection E as _ E. destruct tr1; discriminate.
      - destruct tr1 as [|x tr1]; [injection E as -> _; exfalso; eapply Hev; reflexivity|].
        injection E as _ E. apply (IH _ E). }
    destruct Q as (Eu & <- & <- & <- & <- & Et). exists rs. split; [exact Mr|]. split; [|split; [|exact Et]].
    + rewrite <- Eu, <- Ut. apply heard_app. exact Hon.
    + split.
      * intros x Ix [Ux|[]]. apply put_thread_in in Ix. destruct Ix as [[-> _]|[_ Ix]].
        -- cbn [set_call t_filters]. rewrite F'. left. reflexivity.
        -- exfalso. apply Ix. cbn. congruence.
      * intros x [<-|[]]. cbn [put_thread w_next]. rewrite <- Eu, <- Ut. exact Bt.
  - exfalso. destruct (find_thread w u0) as [t|]; [|injection H as _ <-; apply No; constructor].
    destruct (supervised_entry (o_sup o) (t_filters t) d) as [|z|k];
      try (injection H as _ <-; apply No; repeat constructor; discriminate).
    destruct (sys_effect w t d o) as [w1 evs1] eqn:S. injection H as _ <-.
    apply No. constructor; [discriminate|].
    apply sys_effect_events in S. destruct S as [->| ->]; repeat constructor; discriminate.
  - exfalso. destruct (find_thread w u0) as [t|]; injection H as _ <-; apply No; constructor.
  - injection H as _ <-. exfalso. apply No. constructor.
Qed.

Lemma wrun_installed : forall S prof ops w w' tr tr1 u pid tid ps v tr2 past, Forall (op_in S) ops ->
  inv past w -> wrun prof w ops = (w', tr) -> tr = tr1 ++ EvInstalled u pid tid ps v :: tr2 ->
  exists rs, map fst rs = all_filters ps /\ heard_rules u (past ++ tr1) pid tid rs /\
  guarded S [u] tr2 (gcode rs v).
Proof.
  intros S prof. induction ops as [|o ops IH]; intros w w' tr tr1 u pid tid ps v tr2 past So Hi H E; cbn [wrun] in H.
  - injection H as _ <-. destruct tr1; discriminate.
  - destruct (wstep prof w o) as [w1 e1] eqn:S1. destruct (wrun prof w1 ops) as [w2 e2] eqn:S2.
    injection H as <- <-. inversion So; subst.
    pose proof (wstep_inv _ _ _ _ _ past Hi S1) as I1.
    assert (X : (exists l, e1 = tr1 ++ EvInstalled u pid tid ps v :: l /\ tr2 = l ++ e2) \/
                (exists l, tr1 = e1 ++ l /\ e2 = l ++ EvInstalled u pid tid ps v :: tr2)).
    { destruct (app_split _ _ _ _ _ E) as (l & [[E1 E2]|[E1 E2]]).
      - destruct l as [|y l].
        + right. exists []. rewrite app_nil_r in E1. subst e1. rewrite app_nil_r. auto.
        + injection E2 as <- ->. left. exists l. auto.
      - right. exists l. auto. }
    destruct X as [(l & E1 & ->)|(l & -> & E2)].
    + destruct (wstep_installed prof w o w1 e1 tr1 u pid tid ps v l past Hi S1 E1) as (rs & Mr & Ho & C & ->).
      exists rs. split; [exact Mr|]. split; [exact Ho|].
      apply guarded_app; [apply guarded_other; discriminate|].
      apply (wrun_ok S prof ops w1 w2 e2 [u] _ _ H2 I1 C S2).
    + rewrite app_assoc. exact (IH w1 w2 e2 l u pid tid ps v tr2 _ H2 I1 S2 E2).
Qed.

(** * C40 *)
Lemma heard_pids : forall u past pid tid rs, heard_rules u past pid tid rs ->
  Forall (answered u past SYS_getpid pid) (pids pid rs) /\
  Forall (answered u past SYS_gettid tid) (tids tid rs).
Proof.
  intros u past pid tid rs H. unfold heard_rules in H. rewrite Forall_forall in H.
  split; apply Forall_forall; intros x I.
  - apply pids_in in I. destruct I as [(p & I & <-)|(-> & _)]; [|left; reflexivity].
    destruct (H _ I) as [A _]. destruct (A eq_refl) as (e & [B _] & E). exact (B _ E).
  - apply tids_in in I. destruct I as [(p & I & <-)|(-> & _)]; [|left; reflexivity].
    destruct (H _ I) as [_ A]. destruct (A eq_refl) as (e & [_ B] & E). exact (B _ E).
Qed.

Lemma c40 : forall prof w ops w' tr tr1 u pid tid ps v tr2,
  fresh_world w -> wrun prof w ops = (w', tr) ->
  tr = tr1 ++ EvInstalled u pid tid ps v :: tr2 ->
  hard v \/ (enforcing v /\ Forall unsupervised ops) ->
  exists pids tids,
  (length pids <= Nat.max 1 (count_occ promise_eq_dec ps StdIO))%nat /\
  (length tids <= Nat.max 1 (count_occ promise_eq_dec ps StdIO))%nat /\
  Forall (answered u tr1 SYS_getpid pid) pids /\ Forall (answered u tr1 SYS_gettid tid) tids /\
  forall mid u' d rest,
    tr2 = mid ++ EvCall u' d Proceed :: rest -> In u' (descendants [u] mid) -> wf_data d ->
    sd_arch d = X86_64 /\ exists p t, In p pids /\ In t tids /\ granted ps p t d.
Proof.
  intros prof w ops w' tr tr1 u pid tid ps v tr2 Fw R E Hv.
  assert (K : exists S, Forall (op_in S) ops /\
    forall rs fs s d, map fst rs = all_filters ps -> In (gcode rs v) fs -> S s ->
      supervised_entry s fs d = Proceed -> wf_data d ->
      sd_arch d = X86_64 /\ exists p t, In p (pids pid rs) /\ In t (tids tid rs) /\ granted ps p t d).
  { destruct Hv as [Hv|[Ev Un]].
    - exists anybody. split; [apply Forall_forall; intros; apply op_anybody|].
      intros rs fs s d M I _ P W. destruct (mixed pid tid rs ps v d M) as (p & t & Ip & It & A).
      destruct (hard_grants_at p t ps v _ fs s d A Hv W I P) as [X G]. split; [exact X|].
      exists p, t. auto.
    - exists (eq nobody).
      split; [eapply Forall_impl; [|exact Un]; intros o; destruct o; cbn; auto|].
      intros rs fs s d M I <- P W. rewrite supervised_nobody in P.
      destruct (mixed pid tid rs ps v d M) as (p & t & Ip & It & A).
      destruct (in_split _ _ I) as (f1 & f2 & ->).
      destruct (stack_grants_at p t ps v _ f1 f2 d A Ev W P) as [X G]. split; [exact X|].
      exists p, t. auto. }
  destruct K as (S & So & K).
  destruct (wrun_installed S prof ops w w' tr tr1 u pid tid ps v tr2 [] So (fresh_inv w _ Fw) R E)
    as (rs & M & Ho & G).
  exists (pids pid rs), (tids tid rs). split; [apply pids_length; exact M|].
  split; [apply tids_length; exact M|]. split; [exact (proj1 (heard_pids _ _ _ _ _ Ho))|].
  split; [exact (proj2 (heard_pids _ _ _ _ _ Ho))|].
  intros mid u' d rest E2 D W. destruct (G mid u' d Proceed rest E2 D) as (fs & s & I & Hs & P).
  apply (K rs fs s d M I Hs); [symmetry; exact P|exact W].
Qed.

(** * C41 *)
Lemma c41_refuted : forall prof,
  let amb := mkAmb 0 0 0 0 0 0 0 nobody false 0 in
  let ops := OPledge 0 [] KillProcess :: repeat (OStep 0 amb) (pledge_length []) ++
             [OSys 1 ptrace_call (mkOracle nobody [] false false 0)] in
  fresh_world two_threads /\ Forall (fun t => t_pid t = 100) (w_threads two_threads) /\
  wf_data ptrace_call /\ ~ (exists pid tid, granted [] pid tid ptrace_call) /\
  exists before between, snd (wrun prof two_threads ops) =
    before ++ EvInstalled 0 100 100 [] KillProcess :: EvReturned 0 [] KillProcess (Ok tt) ::
    between ++ [EvCall 1 ptrace_call Proceed].
Proof.
  intros prof amb ops. split; [|split; [|split; [|split]]].
  - repeat constructor.
  - repeat constructor.
  - repeat split; reflexivity.
  - intros (pid & tid & G). row SYS_ptrace R. apply (R _ _ _ ptrace_call eq_refl) in G. exact G.
  - exists [EvCall 0 (call_set_nnp amb) Proceed; EvCall 0 (call_set_seccomp amb) Proceed], [].
    destruct prof; vm_compute; reflexivity.
Qed.
