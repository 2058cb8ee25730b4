(** The course of a pledge call: it ends, what it asks of the kernel, what it leaves behind, what
    it depends on (C86-C89). *)
From Coq Require Import NArith ZArith String List Bool Lia.
From Verif Require Import Libc Machine Bpf SeccompRet Asm Vm Promises Filters Kernel World Spec.
From Verif Require Import FragProofs PolicyProofs CodeProofs PledgeProofs StackProofs WorldProofs HistoryProofs DeathProofs.
Import ListNotations.
Local Open Scope N_scope.

(** * C86, C87 *)

Definition rule_calls (f : Filtered) : list (N * N) :=
  match f with KillSelf => [(39, 0)] | TkillSelf => [(186, 0)] | _ => [] end.
(** Steps and calls still to come. *)
Definition left_ (ph : phase) : nat :=
  match ph with
  | PStart ps _ => 4 + length (all_filters ps)
  | PBuild _ _ _ todo => 3 + length todo
  | PNnp _ _ _ => 2
  | PLoad _ _ _ => 1
  end.
Definition rest (ph : phase) : list (N * N) :=
  match ph with
  | PStart ps _ => flat_map rule_calls (all_filters ps) ++ [(157, 38); (157, 22)]
  | PBuild _ _ _ todo => flat_map rule_calls todo ++ [(157, 38); (157, 22)]
  | PNnp _ _ _ => [(157, 38); (157, 22)]
  | PLoad _ _ _ => [(157, 22)]
  end.

Lemma rules_length : forall p, length (pfilters p) = promise_rules p.
Proof. destruct p; vm_compute; reflexivity. Qed.
Lemma start_left : forall ps v, left_ (PStart ps v) = steps_needed ps.
Proof.
  intros ps v. unfold left_, steps_needed, all_filters. cbn [map List.concat]. rewrite app_length, rules_length.
  enough (X : length (List.concat (map pfilters ps)) = list_sum (map promise_rules ps)) by lia.
  induction ps as [|p ps IH]; [reflexivity|]. cbn [map List.concat]. rewrite app_length, rules_length.
  change (list_sum (promise_rules p :: map promise_rules ps))
    with (promise_rules p + list_sum (map promise_rules ps))%nat. lia.
Qed.
Lemma start_rest : forall ps v, rest (PStart ps v) = footprint ps.
Proof.
  intros ps v. unfold rest, footprint, all_filters. cbn [map List.concat]. f_equal.
  change (flat_map rule_calls (pfilters Default ++ List.concat (map pfilters ps)))
    with (flat_map rule_calls (List.concat (map pfilters ps))).
  induction ps as [|p ps IH]; [reflexivity|]. cbn [map List.concat flat_map]. rewrite flat_map_app, IH. f_equal.
  destruct p; vm_compute; reflexivity.
Qed.

Lemma calls_by_app : forall u a b, calls_by u (a ++ b) = calls_by u a ++ calls_by u b.
Proof. intros. apply flat_map_app. Qed.

Lemma one_call : forall u d e nr, sd_nr d = nr -> nr <> 157 -> calls_by u [EvCall u d e] = [(nr, 0)].
Proof.
  intros u d e nr <- N. unfold calls_by. cbn [flat_map]. rewrite Nat.eqb_refl.
  rewrite (proj2 (N.eqb_neq _ _) N). reflexivity.
Qed.
Lemma one_prctl : forall u d e, sd_nr d = 157 -> calls_by u [EvCall u d e] = [(157, sd_a0 d)].
Proof.
  intros u d e E. unfold calls_by. cbn [flat_map]. rewrite Nat.eqb_refl, E. reflexivity.
Qed.

Lemma build_calls : forall t amb ps v done f todo,
  calls_by (t_uid t) (step_calls t amb (PBuild ps v done (f :: todo))) = rule_calls f.
Proof.
  intros. destruct f; cbn [step_calls rule_calls]; try reflexivity; apply one_call; (reflexivity || discriminate).
Qed.

Lemma step_facts : forall prof amb t ph s t', pledge_step prof amb t ph = (s, t') ->
  let m := calls_by (t_uid t) (step_calls t amb ph) in
  match s with
  | Continue ph' => left_ ph = S (left_ ph') /\ rest ph = m ++ rest ph' /\
                    ph_promises ph' = ph_promises ph /\ ph_violation ph' = ph_violation ph
  | Return_ r => (exists x, rest ph = m ++ x) /\ (r = Ok tt -> left_ ph = 1%nat /\ rest ph = m) /\
                 (length (t_filters t') <> length (t_filters t) -> r = Ok tt)
  end.
Proof.
  intros prof amb t ph s t' H m. subst m.
  destruct ph as [ps v|ps v done todo|ps v prog|ps v prog].
  - cbn [pledge_step] in H. rewrite promises_to_filters_ok in H. cbn [proceed] in H. injection H as <- <-.
    repeat split.
  - destruct todo as [|f todo]; cbn [pledge_step] in H.
    + cbn [step_calls calls_by flat_map app].
      destruct (assemble_parts prof done v); cbn [proceed] in H; injection H as <- <-; cbn [left_ rest flat_map length app];
        repeat split; try (intros; discriminate); try (intros X; contradiction X; reflexivity); eauto.
    + rewrite build_calls.
      destruct (filter_to_bpf prof (thread_env t amb) f); cbn [proceed] in H; injection H as <- <-;
        cbn [left_ rest flat_map length]; rewrite <- ?app_assoc;
        repeat split; try (intros; discriminate); try (intros X; contradiction X; reflexivity); eauto; lia.
  - cbn [step_calls]. rewrite one_prctl by reflexivity. cbn [pledge_step] in H.
    assert (K : forall r tt', (check_ret amb r (Continue (PLoad ps v prog)), tt') = (s, t') ->
      t_filters tt' = t_filters t ->
      match s with
      | Continue ph' => left_ (PNnp ps v prog) = S (left_ ph') /\ rest (PNnp ps v prog) = [(157, 38)] ++ rest ph' /\
                        ph_promises ph' = ps /\ ph_violation ph' = v
      | Return_ r => (exists x, rest (PNnp ps v prog) = [(157, 38)] ++ x) /\
                     (r = Ok tt -> left_ (PNnp ps v prog) = 1%nat /\ rest (PNnp ps v prog) = [(157, 38)]) /\
                     (length (t_filters t') <> length (t_filters t) -> r = Ok tt)
      end).
    { intros r tt' E F. unfold check_ret in E. destruct (_ =? _)%Z; injection E as <- <-.
      - repeat split.
      - repeat split; try (intros; discriminate); [exists [(157, 22)]; reflexivity|].
        rewrite F. intros X. contradiction X. reflexivity. }
    destruct (fate_of t amb (call_set_nnp amb)) as [|r|k].
    + rewrite prctl_nnp in H. exact (K _ _ H eq_refl).
    + exact (K _ _ H eq_refl).
    + injection H as <- <-. repeat split; try (intros; discriminate); [exists [(157, 22)]; reflexivity|].
      intros X. contradiction X. reflexivity.
  - cbn [step_calls]. rewrite one_prctl by reflexivity. cbn [pledge_step] in H.
    assert (K : forall r tt', (check_ret amb r (Return_ (Ok tt)), tt') = (s, t') ->
      (r = 0%Z \/ t_filters tt' = t_filters t) ->
      match s with
      | Continue ph' => left_ (PLoad ps v prog) = S (left_ ph') /\ rest (PLoad ps v prog) = [(157, 22)] ++ rest ph' /\
                        ph_promises ph' = ps /\ ph_violation ph' = v
      | Return_ r => (exists x, rest (PLoad ps v prog) = [(157, 22)] ++ x) /\
                     (r = Ok tt -> left_ (PLoad ps v prog) = 1%nat /\ rest (PLoad ps v prog) = [(157, 22)]) /\
                     (length (t_filters t') <> length (t_filters t) -> r = Ok tt)
      end).
    { intros r tt' E F. unfold check_ret in E. destruct (_ =? _)%Z eqn:Z; injection E as <- <-.
      - repeat split. exists []. reflexivity.
      - repeat split; try (intros; discriminate); [exists []; reflexivity|].
        destruct F as [->|F]; [discriminate Z|]. rewrite F. intros X. contradiction X. reflexivity. }
    destruct (fate_of t amb (call_set_seccomp amb)) as [|r|k].
    + rewrite prctl_load in H.
      destruct (attach_filter _ _ _ _); [exact (K _ _ H (or_intror eq_refl))|exact (K _ _ H (or_introl eq_refl))].
    + exact (K _ _ H (or_intror eq_refl)).
    + injection H as <- <-. repeat split; try (intros; discriminate); [exists []; reflexivity|].
      intros X. contradiction X. reflexivity.
Qed.

(** Task [u] is in a pledge at [ph] (or in none). *)
Definition at_ (u : nat) (c : option phase) (w : world) : Prop :=
  exists t, In t (w_threads w) /\ t_uid t = u /\ t_call t = c.

Lemma find_of : forall w t, sound w -> In t (w_threads w) -> find_thread w (t_uid t) = Some t.
Proof.
  intros w t [D _] I. destruct (find_thread w (t_uid t)) as [t'|] eqn:F.
  - apply find_thread_spec in F. destruct F as [I' U]. f_equal. apply (nodup_same w); assumption.
  - exfalso. unfold find_thread in F. apply (find_none _ _ F) in I. rewrite Nat.eqb_refl in I. discriminate.
Qed.

Lemma put_in : forall w t, (exists x, In x (w_threads w) /\ t_uid x = t_uid t) ->
  In t (w_threads (put_thread w t)).
Proof.
  intros w t (x & I & U). cbn [put_thread w_threads]. apply in_map_iff. exists x. split; [|exact I].
  rewrite U, Nat.eqb_refl. reflexivity.
Qed.

(** What another scheduler choice does to a task: nothing to its pledge. *)
Lemma put_at : forall w t0 t u c, In t0 (w_threads w) -> t_uid t = t_uid t0 -> sound w ->
  (t_uid t0 = u -> t_call t = t_call t0) -> at_ u c w -> at_ u c (put_thread w t).
Proof.
  intros w t0 t u c I0 U S K (x & Ix & Ux & Cx). destruct (Nat.eq_dec (t_uid t0) u) as [E|E].
  - assert (x = t0) as -> by (apply (nodup_same w); [apply S|assumption..|congruence]).
    exists t. split; [apply put_in; exists t0; auto|]. split; [congruence|]. rewrite K; [exact Cx|exact E].
  - exists x. split; [|auto]. apply put_other; [congruence|exact Ix].
Qed.

Lemma filter_at : forall w f u c, sound w -> (forall x, In x (w_threads w) -> t_uid x = u -> f x = true) \/
    (forall x, In x (w_threads w) -> t_uid x = u -> f x = false) -> at_ u c w ->
  at_ u c (mkWorld (filter f (w_threads w)) (w_next w)) \/ gone u (mkWorld (filter f (w_threads w)) (w_next w)).
Proof.
  intros w f u c [D B] F (x & Ix & Ux & Cx). destruct F as [F|F].
  - left. exists x. split; [apply filter_In; auto|auto].
  - right. split; cbn [w_next w_threads].
    + rewrite Forall_forall in B. rewrite <- Ux. apply B. exact Ix.
    + intros y Iy Uy. apply filter_In in Iy. destruct Iy as [Iy Fy]. rewrite (F y Iy Uy) in Fy. discriminate.
Qed.
Lemma drop_at : forall w f u c, sound w -> at_ u c w ->
  at_ u c (mkWorld (filter f (w_threads w)) (w_next w)) \/ gone u (mkWorld (filter f (w_threads w)) (w_next w)).
Proof.
  intros w f u c S A. apply filter_at; [exact S| |exact A].
  destruct A as (x & Ix & Ux & _). destruct (f x) eqn:E; [left|right]; intros y Iy Uy;
    (assert (y = x) as -> by (apply (nodup_same w); [apply S|assumption..|congruence])); exact E.
Qed.
Lemma death_at : forall w t k u c, sound w -> at_ u c w -> at_ u c (apply_death w t k) \/ gone u (apply_death w t k).
Proof. intros w t [| |] u c S A; apply drop_at; assumption. Qed.

(** Task [u] ran a program. *)
Definition ran (u : nat) (evs : list event) : Prop :=
  exists d, In (EvCall u d Proceed) evs /\ (sd_nr d = 59 \/ sd_nr d = 322).
Lemma ran_app : forall u a b, ran u b -> ran u (a ++ b).
Proof. intros u a b (d & I & E). exists d. split; [apply in_or_app; right; exact I|exact E]. Qed.
Lemma ran_calls : forall u evs, ran u evs -> calls_by u evs <> [].
Proof.
  intros u evs (d & I & _) E. induction evs as [|ev evs IH]; [destruct I|].
  change (ev :: evs) with ([ev] ++ evs) in E. rewrite calls_by_app in E. apply app_eq_nil in E. destruct E as [E1 E2].
  destruct I as [->|I]; [|exact (IH I E2)].
  unfold calls_by in E1. cbn [flat_map] in E1. rewrite Nat.eqb_refl in E1. discriminate.
Qed.

Lemma sys_at : forall w t d o w' evs u c, sound w -> In t (w_threads w) -> sys_effect w t d o = (w', evs) ->
  at_ u c w -> at_ u c w' \/ (at_ u None w' /\ t_uid t = u /\ (sd_nr d = 59 \/ sd_nr d = 322)) \/ gone u w'.
Proof.
  intros w t d o w' evs u c S I H A.
  destruct (((sd_nr d =? SYS_execve) || (sd_nr d =? SYS_execveat)) && negb (o_refuse o)) eqn:Ex.
  { apply andb_true_iff in Ex. destruct Ex as [Ex Rf]. apply orb_true_iff in Ex.
    assert (Nr : sd_nr d = 59 \/ sd_nr d = 322) by (destruct Ex as [E|E]; apply N.eqb_eq in E; auto).
    assert (R : sys_effect w t d o = (run_program w t, [])).
    { unfold sys_effect. destruct Nr as [-> | ->]; cbn; rewrite Rf; reflexivity. }
    rewrite R in H. injection H as <- _. destruct A as (x & Ix & Ux & Cx).
    destruct (Nat.eq_dec (t_uid t) u) as [E|E].
    - right. left. split; [|auto]. exists (exec_thread t). split; [apply run_program_kept; auto|]. split; [exact E|reflexivity].
    - destruct (N.eq_dec (t_pid x) (t_pid t)) as [P|P].
      + right. right. destruct S as [D B]. split.
        * cbn [run_program w_next]. rewrite Forall_forall in B. rewrite <- Ux. apply B. exact Ix.
        * intros y Iy Uy. apply run_program_in in Iy. destruct Iy as [->|(Iy & _ & Py)]; [exact (E Uy)|].
          assert (y = x) as -> by (apply (nodup_same w); [exact D|assumption..|congruence]). exact (Py P).
      + left. exists x. split; [|auto]. apply run_program_kept; [exact I|]. right. split; [exact Ix|]. split; congruence. }
  assert (Dea : forall k, apply_death w t k = w' -> at_ u c w' \/ gone u w').
  { intros k <-. apply death_at; assumption. }
  destruct (N.eqb_spec (sd_nr d) SYS_exit) as [E1|E1].
  { assert (R : sys_effect w t d o = (apply_death w t DeathThread, [])) by (unfold sys_effect; rewrite E1; reflexivity).
    rewrite R in H. injection H as H _. destruct (Dea DeathThread H); auto. }
  destruct (N.eqb_spec (sd_nr d) SYS_exit_group) as [E2|E2].
  { assert (R : sys_effect w t d o = (apply_death w t DeathProcess, [])) by (unfold sys_effect; rewrite E2; reflexivity).
    rewrite R in H. injection H as H _. destruct (Dea DeathProcess H); auto. }
  apply N.eqb_neq in E1, E2. left.
  assert (Same : (w, @nil event) = (w', evs) -> at_ u c w') by (intros E; injection E as <- _; exact A).
  assert (New : forall b : bool,
     (if o_refuse o then (w, [])
      else (spawn w t (if b then t_pid t else o_newid o) (o_newid o), [EvSpawn (t_uid t) (w_next w)])) = (w', evs) ->
     at_ u c w').
  { intros b E. destruct (o_refuse o); [exact (Same E)|]. injection E as <- _.
    destruct A as (x & Ix & X). exists x. split; [right; exact Ix|exact X]. }
  unfold sys_effect in H. rewrite Ex, E1, E2 in H. clear Ex E1 E2 Dea.
  destruct (_ || _); [exact (New false H)|].
  destruct (_ =? _); [exact (New _ H)|].
  destruct (_ =? _); [exact (New _ H)|].
  destruct (_ =? _).
  { injection H as <- _.
    assert (X : t_uid (snd (kernel_prctl (o_refuse o) t d (o_payload o))) = t_uid t /\
                t_call (snd (kernel_prctl (o_refuse o) t d (o_payload o))) = t_call t).
    { unfold kernel_prctl. destruct (_ =? _).
      - destruct (_ =? _); [destruct (attach_filter _ _ _ _); auto|]. destruct (_ =? _); [|auto].
        destruct (strict_cases t) as [->| ->]; auto.
      - destruct (_ =? _); [|auto]. destruct (_ && _); auto. }
    apply (put_at w t); try assumption; [apply X|intros _; apply X]. }
  destruct (_ && (_ && _ && _)).
  { injection H as <- _. destruct (strict_cases t) as [->| ->]; apply (put_at w t); auto. }
  destruct (_ && _); [|exact (Same H)].
  destruct (attach_filter _ _ _ _) as [x|fs]; [exact (Same H)|].
  destruct (N.testbit _ _).
  - destruct (can_sync w t); [|exact (Same H)]. injection H as <- _.
    destruct A as (x & Ix & Ux & Cx). eexists. split; [cbn [sync_threads w_threads]; apply in_map; exact Ix|].
    destruct (_ =? _); [cbv zeta; destruct (t_nnp t)|]; auto.
  - injection H as <- _. apply (put_at w t); auto.
Qed.

Definition starts (u : nat) (o : op) : Prop := exists ps v, o = OPledge u ps v.
(** Returns and installations of [u]. *)
Definition outcome (u : nat) (ev : event) : Prop :=
  match ev with EvReturned u' _ _ _ | EvInstalled u' _ _ _ _ => u' = u | _ => False end.

Lemma calls_no_outcome : forall t amb ph u ev, In ev (step_calls t amb ph) -> ~ outcome u ev.
Proof.
  intros t amb ph u ev I O. pose proof (step_calls_form t amb ph) as F. rewrite Forall_forall in F.
  destruct (F _ I) as (d & ->). exact O.
Qed.
Lemma calls_other : forall t amb ph u, t_uid t <> u -> calls_by u (step_calls t amb ph) = [].
Proof.
  intros t amb ph u N. pose proof (step_calls_form t amb ph) as F.
  induction F as [|ev l (d & ->) F IH]; [reflexivity|]. unfold calls_by in *. cbn [flat_map].
  rewrite (proj2 (Nat.eqb_neq _ _) N). exact IH.
Qed.

(** Any choice that is not a step of [u]'s pledge (nor starts one). *)
Lemma wstep_aside : forall prof w o w' evs u c, sound w -> at_ u c w -> wstep prof w o = (w', evs) ->
  (forall amb, o <> OStep u amb) -> (c = None -> ~ starts u o) ->
  (at_ u c w' \/ (at_ u None w' /\ ran u evs) \/ gone u w') /\ (forall ev, In ev evs -> ~ outcome u ev) /\
  ((forall d o', o <> OSys u d o') -> calls_by u evs = []).
Proof.
  intros prof w o w' evs u c S A H Ns Np.
  assert (Same : (w, @nil event) = (w', evs) ->
    (at_ u c w' \/ (at_ u None w' /\ ran u evs) \/ gone u w') /\ (forall ev, In ev evs -> ~ outcome u ev) /\
    ((forall d o', o <> OSys u d o') -> calls_by u evs = [])).
  { intros E. injection E as <- <-. split; [left; exact A|]. split; [intros ? []|reflexivity]. }
  destruct o as [u0 ps v|u0 amb|u0 d o|u0 b|u0]; cbn [wstep] in H.
  - destruct (find_thread w u0) as [t|] eqn:F; [|exact (Same H)].
    apply find_thread_spec in F. destruct F as [It Ut].
    destruct (t_call t) eqn:C; [exact (Same H)|]. injection H as <- <-.
    split; [left|split; [intros ? []|reflexivity]].
    destruct (Nat.eq_dec u0 u) as [E|E].
    + exfalso. subst u0. destruct A as (x & Ix & Ux & Cx).
      assert (x = t) as -> by (apply (nodup_same w); [apply S|assumption..|congruence]).
      apply Np; [congruence|]. exists ps, v. congruence.
    + apply (put_at w t); auto. congruence.
  - assert (E : u0 <> u) by (intros ->; exact (Ns amb eq_refl)).
    destruct (find_thread w u0) as [t|] eqn:F; [|exact (Same H)].
    apply find_thread_spec in F. destruct F as [It Ut].
    destruct (t_call t) as [ph|]; [|exact (Same H)].
    destruct (pledge_step prof amb t ph) as [s t'] eqn:P.
    pose proof (proj1 (pledge_step_grown _ _ _ _ _ _ P)) as U.
    assert (Put : forall cc, at_ u c (put_thread w (set_call t' cc))).
    { intros cc. apply (put_at w t); auto. intros X. congruence. }
    assert (Ev : forall r, (forall ev, In ev (step_calls t amb ph ++
         (if Nat.eqb (length (t_filters t')) (length (t_filters t)) then []
          else [EvInstalled u0 (t_pid t) (t_tid t) (ph_promises ph) (ph_violation ph)]) ++
         [EvReturned u0 (ph_promises ph) (ph_violation ph) r]) -> ~ outcome u ev) /\
       calls_by u (step_calls t amb ph ++
         (if Nat.eqb (length (t_filters t')) (length (t_filters t)) then []
          else [EvInstalled u0 (t_pid t) (t_tid t) (ph_promises ph) (ph_violation ph)]) ++
         [EvReturned u0 (ph_promises ph) (ph_violation ph) r]) = []).
    { intros r. split.
      - intros ev I. apply in_app_or in I. destruct I as [I|I]; [exact (calls_no_outcome _ _ _ _ _ I)|].
        destruct (Nat.eqb _ _); cbn [app] in I;
          repeat (destruct I as [I|I]; [subst ev; cbn; exact E|]); destruct I.
      - rewrite calls_by_app, calls_other by congruence. destruct (Nat.eqb _ _); reflexivity. }
    destruct s as [ph'|[x|e| |k]]; injection H as <- <-.
    + split; [left; apply Put|]. split; [apply calls_no_outcome|]. intros _. apply calls_other. congruence.
    + split; [left; apply Put|]. split; [apply Ev|]. intros _. apply Ev.
    + split; [left; apply Put|]. split; [apply Ev|]. intros _. apply Ev.
    + split; [left; apply Put|]. split; [apply Ev|]. intros _. apply Ev.
    + split; [destruct (death_at w t k u c S A); auto|]. split; [apply calls_no_outcome|]. intros _. apply calls_other. congruence.
  - destruct (find_thread w u0) as [t|] eqn:F; [|exact (Same H)].
    apply find_thread_spec in F. destruct F as [It Ut].
    assert (One : forall l, l = [] \/ (exists a b, l = [EvSpawn a b]) -> forall e,
      (forall ev, In ev (EvCall u0 d e :: l) -> ~ outcome u ev) /\
      ((forall d0 o', OSys u0 d o <> OSys u d0 o') -> calls_by u (EvCall u0 d e :: l) = [])).
    { intros l Hl e. split.
      - intros ev [<-|I]; [cbn; tauto|]. destruct Hl as [->|(a & b & ->)]; [destruct I|].
        destruct I as [<-|[]]. cbn. tauto.
      - intros X. assert (E : u0 <> u) by (intros ->; exact (X d o eq_refl)).
        unfold calls_by. cbn [flat_map]. rewrite (proj2 (Nat.eqb_neq _ _) E).
        destruct Hl as [->|(a & b & ->)]; reflexivity. }
    destruct (supervised_entry (o_sup o) (t_filters t) d) as [|z|k].
    + destruct (sys_effect w t d o) as [w1 e1] eqn:Se. injection H as <- <-.
      split.
      { destruct (sys_at _ _ _ _ _ _ _ _ S It Se A) as [X|[(X & Y & Z)|X]]; auto. right. left. split; [exact X|].
        exists d. split; [left; congruence|exact Z]. }
      apply One.
      apply sys_effect_events in Se. destruct Se as [->| ->]; eauto.
    + injection H as <- <-. split; [left; exact A|]. apply One. left. reflexivity.
    + injection H as <- <-. split; [destruct (death_at w t k u c S A); auto|]. apply One. left. reflexivity.
  - destruct (find_thread w u0) as [t|] eqn:F; [|exact (Same H)].
    apply find_thread_spec in F. destruct F as [It Ut]. injection H as <- <-.
    split; [left; apply (put_at w t); auto|]. split; [intros ? []|reflexivity].
  - injection H as <- <-. split; [destruct (drop_at w (fun t => negb (t_uid t =? u0)%nat) u c S A); auto|].
    split; [intros ? []|reflexivity].
Qed.

(** A step of [u] when it is in no pledge. *)
Lemma wstep_idle : forall prof w w' evs u amb, sound w -> at_ u None w -> wstep prof w (OStep u amb) = (w', evs) ->
  w' = w /\ evs = [].
Proof.
  intros prof w w' evs u amb S (t & It & <- & C) H. cbn [wstep] in H. rewrite (find_of w t S It), C in H.
  injection H as <- <-. auto.
Qed.

(** A step of [u]'s pledge. *)
Lemma wstep_busy : forall prof w w' evs u ph amb, sound w -> at_ u (Some ph) w ->
  wstep prof w (OStep u amb) = (w', evs) ->
  (exists ph', at_ u (Some ph') w' /\ left_ ph = S (left_ ph') /\ rest ph = calls_by u evs ++ rest ph' /\
     ph_promises ph' = ph_promises ph /\ ph_violation ph' = ph_violation ph /\
     (forall ev, In ev evs -> ~ outcome u ev)) \/
  (exists r, at_ u None w' /\ In (EvReturned u (ph_promises ph) (ph_violation ph) r) evs /\
     (exists x, rest ph = calls_by u evs ++ x) /\
     (r = Ok tt -> left_ ph = 1%nat /\ rest ph = calls_by u evs) /\
     (forall ev, In ev evs -> outcome u ev ->
        ev = EvReturned u (ph_promises ph) (ph_violation ph) r \/ r = Ok tt)) \/
  (gone u w' /\ (exists x, rest ph = calls_by u evs ++ x) /\ (forall ev, In ev evs -> ~ outcome u ev)).
Proof.
  intros prof w w' evs u ph amb S (t & It & <- & C) H. cbn [wstep] in H. rewrite (find_of w t S It), C in H.
  destruct (pledge_step prof amb t ph) as [s t'] eqn:P.
  pose proof (proj1 (pledge_step_grown _ _ _ _ _ _ P)) as U.
  apply step_facts in P. cbv zeta in P.
  assert (Put : forall c, at_ (t_uid t) c (put_thread w (set_call t' c))).
  { intros c. exists (set_call t' c). split; [|split; [exact U|reflexivity]].
    apply put_in. exists t. auto. }
  assert (Ret : forall r, (forall k, r <> Died k) ->
    (put_thread w (set_call t' None), step_calls t amb ph ++
         (if Nat.eqb (length (t_filters t')) (length (t_filters t)) then []
          else [EvInstalled (t_uid t) (t_pid t) (t_tid t) (ph_promises ph) (ph_violation ph)]) ++
         [EvReturned (t_uid t) (ph_promises ph) (ph_violation ph) r]) = (w', evs) ->
    (exists x, rest ph = calls_by (t_uid t) (step_calls t amb ph) ++ x) /\
    (r = Ok tt -> left_ ph = 1%nat /\ rest ph = calls_by (t_uid t) (step_calls t amb ph)) /\
    (length (t_filters t') <> length (t_filters t) -> r = Ok tt) ->
    exists r, at_ (t_uid t) None w' /\ In (EvReturned (t_uid t) (ph_promises ph) (ph_violation ph) r) evs /\
     (exists x, rest ph = calls_by (t_uid t) evs ++ x) /\
     (r = Ok tt -> left_ ph = 1%nat /\ rest ph = calls_by (t_uid t) evs) /\
     (forall ev, In ev evs -> outcome (t_uid t) ev ->
        ev = EvReturned (t_uid t) (ph_promises ph) (ph_violation ph) r \/ r = Ok tt)).
  { intros r _ E (X & Y & Z). injection E as <- <-. exists r.
    assert (Cb : calls_by (t_uid t) (step_calls t amb ph ++
         (if Nat.eqb (length (t_filters t')) (length (t_filters t)) then []
          else [EvInstalled (t_uid t) (t_pid t) (t_tid t) (ph_promises ph) (ph_violation ph)]) ++
         [EvReturned (t_uid t) (ph_promises ph) (ph_violation ph) r]) = calls_by (t_uid t) (step_calls t amb ph)).
    { rewrite calls_by_app. destruct (Nat.eqb _ _); apply app_nil_r. }
    rewrite Cb. split; [apply Put|]. split; [apply in_or_app; right; apply in_or_app; right; left; reflexivity|].
    split; [exact X|]. split; [exact Y|].
    intros ev I O. apply in_app_or in I. destruct I as [I|I]; [contradiction (calls_no_outcome _ _ _ _ _ I O)|].
    destruct (Nat.eqb_spec (length (t_filters t')) (length (t_filters t))) as [L|L].
    - destruct I as [<-|[]]. left. reflexivity.
    - right. apply Z. exact L. }
  destruct s as [ph'|[[]|e| |k]].
  - left. injection H as <- <-. exists ph'. destruct P as (P1 & P2 & P3 & P4).
    repeat (split; [auto|]). intros ev I. apply (calls_no_outcome _ _ _ _ _ I).
  - right. left. apply (Ret (Ok tt)); [discriminate|exact H|exact P].
  - right. left. apply (Ret (Err e)); [discriminate|exact H|exact P].
  - right. left. apply (Ret Panic); [discriminate|exact H|exact P].
  - right. right. injection H as <- <-. split; [|split; [apply P|apply calls_no_outcome]].
    split.
    + replace (w_next (apply_death w t k)) with (w_next w) by (destruct k; reflexivity).
      destruct S as [_ B]. rewrite Forall_forall in B. apply B. exact It.
    + intros x Ix Ux. apply death_in in Ix. destruct Ix as [Ix X].
      assert (x = t) as -> by (apply (nodup_same w); [apply S|assumption..]). destruct k; congruence.
Qed.

(** ** Ends *)
Lemma run_ends : forall prof ops w w' tr u ph, sound w -> at_ u (Some ph) w -> wrun prof w ops = (w', tr) ->
  (left_ ph <= steps_of u ops)%nat ->
  (exists r, In (EvReturned u (ph_promises ph) (ph_violation ph) r) tr) \/ ran u tr \/
  (forall x, In x (w_threads w') -> t_uid x <> u).
Proof.
  intros prof. induction ops as [|o ops IH]; intros w w' tr u ph S A H L; cbn [wrun] in H.
  - exfalso. cbn in L. destruct ph; cbn in L; lia.
  - destruct (wstep prof w o) as [w1 e1] eqn:S1. destruct (wrun prof w1 ops) as [w2 e2] eqn:S2.
    injection H as <- <-.
    pose proof (proj1 (wstep_sound _ _ _ _ _ S S1)) as Sd.
    assert (Gone : gone u w1 -> (exists r, In (EvReturned u (ph_promises ph) (ph_violation ph) r) (e1 ++ e2)) \/
                                ran u (e1 ++ e2) \/ (forall x, In x (w_threads w2) -> t_uid x <> u)).
    { intros G. right. right. apply (wrun_gone _ _ _ _ _ _ Sd G S2). }
    assert (More : forall ph', at_ u (Some ph') w1 -> ph_promises ph' = ph_promises ph ->
      ph_violation ph' = ph_violation ph -> (left_ ph' <= steps_of u ops)%nat ->
      (exists r, In (EvReturned u (ph_promises ph) (ph_violation ph) r) (e1 ++ e2)) \/ ran u (e1 ++ e2) \/
      (forall x, In x (w_threads w2) -> t_uid x <> u)).
    { intros ph' A' E1 E2 L'. destruct (IH w1 w2 e2 u ph' Sd A' S2 L') as [(r & I)|[X|X]];
        [left|right; left; apply ran_app; exact X|right; right; exact X].
      exists r. apply in_or_app. right. rewrite <- E1, <- E2. exact I. }
    assert (Aside : (forall amb, o <> OStep u amb) -> steps_of u (o :: ops) = steps_of u ops ->
      (exists r, In (EvReturned u (ph_promises ph) (ph_violation ph) r) (e1 ++ e2)) \/ ran u (e1 ++ e2) \/
      (forall x, In x (w_threads w2) -> t_uid x <> u)).
    { intros N E. destruct (wstep_aside _ _ _ _ _ u (Some ph) S A S1 N) as ([X|[(_ & d & I & E1)|X]] & _); [discriminate| | |].
      - apply (More ph X); auto. lia.
      - right. left. exists d. split; [apply in_or_app; left; exact I|exact E1].
      - exact (Gone X). }
    destruct o as [u0 ps v|u0 amb|u0 d o|u0 b|u0]; try (apply Aside; [discriminate|reflexivity]).
    destruct (Nat.eq_dec u0 u) as [->|N].
    + destruct (wstep_busy _ _ _ _ _ _ _ S A S1) as [(ph' & A' & E & _ & P & V & _)|[(r & _ & I & _)|(G & _)]].
      * apply (More ph' A' P V). unfold steps_of in L |- *. cbn [filter] in L. rewrite Nat.eqb_refl in L. cbn [length] in L. lia.
      * left. exists r. apply in_or_app. left. exact I.
      * exact (Gone G).
    + apply Aside; [congruence|]. unfold steps_of. cbn [filter]. rewrite (proj2 (Nat.eqb_neq _ _) N). reflexivity.
Qed.

Lemma start_at : forall prof w u t ps v, sound w -> In t (w_threads w) -> t_uid t = u -> t_call t = None ->
  exists w1, wstep prof w (OPledge u ps v) = (w1, []) /\ sound w1 /\ at_ u (Some (PStart ps v)) w1.
Proof.
  intros prof w u t ps v S I <- C. eexists. cbn [wstep]. rewrite (find_of w t S I), C. split; [reflexivity|].
  split; [apply sound_put; exact S|]. eexists. split; [apply put_in; exists t; cbn; auto|]. auto.
Qed.

Lemma fresh_sound : forall w, fresh_world w -> distinct w -> sound w.
Proof.
  intros w F D. split; [exact D|]. unfold fresh_world in F. rewrite Forall_forall in F |- *. intros x I. apply F, I.
Qed.

Lemma c86 : forall prof w ops1 w1 tr1 u t ps v ops2 w2 tr2,
  fresh_world w -> distinct w -> wrun prof w ops1 = (w1, tr1) ->
  In t (w_threads w1) -> t_uid t = u -> t_call t = None ->
  wrun prof w1 (OPledge u ps v :: ops2) = (w2, tr2) ->
  (steps_needed ps <= steps_of u ops2)%nat ->
  (exists r, In (EvReturned u ps v r) tr2) \/
  (exists d, In (EvCall u d Proceed) tr2 /\ (sd_nr d = 59 \/ sd_nr d = 322)) \/
  (forall x, In x (w_threads w2) -> t_uid x <> u).
Proof.
  intros prof w ops1 w1 tr1 u t ps v ops2 w2 tr2 F D R1 I U C R2 L.
  assert (S : sound w1) by (apply (wrun_sound prof ops1 w w1 tr1); [apply fresh_sound; assumption|exact R1]).
  destruct (start_at prof w1 u t ps v S I U C) as (wa & E & Sa & A). cbn [wrun] in R2. rewrite E in R2.
  destruct (wrun prof wa ops2) as [wb eb] eqn:R. injection R2 as <- <-.
  apply (run_ends prof ops2 wa wb eb u (PStart ps v) Sa A R). rewrite start_left. exact L.
Qed.

(** ** Not early, and only these calls *)
Lemma idle_run : forall prof ops w w' tr u, sound w -> at_ u None w -> wrun prof w ops = (w', tr) ->
  (forall o, In o ops -> ~ starts u o) ->
  (forall ev, In ev tr -> ~ outcome u ev) /\
  ((forall d o', ~ In (OSys u d o') ops) -> calls_by u tr = []).
Proof.
  intros prof. induction ops as [|o ops IH]; intros w w' tr u S A H Np; cbn [wrun] in H.
  - injection H as <- <-. split; [intros ? []|reflexivity].
  - destruct (wstep prof w o) as [w1 e1] eqn:S1. destruct (wrun prof w1 ops) as [w2 e2] eqn:S2.
    injection H as <- <-.
    pose proof (proj1 (wstep_sound _ _ _ _ _ S S1)) as Sd.
    assert (Np' : forall o, In o ops -> ~ starts u o) by (intros; apply Np; right; assumption).
    assert (X : (at_ u None w1 \/ gone u w1) /\ (forall ev, In ev e1 -> ~ outcome u ev) /\
                ((forall d o', o <> OSys u d o') -> calls_by u e1 = [])).
    { assert (Dec : (exists amb, o = OStep u amb) \/ (forall amb, o <> OStep u amb)).
      { destruct o as [u0 ps v|u0 amb|u0 d o|u0 b|u0]; try (right; discriminate).
        destruct (Nat.eq_dec u0 u) as [->|N]; [left; eauto|right; congruence]. }
      destruct Dec as [(amb & ->)|N].
      - destruct (wstep_idle _ _ _ _ _ _ S A S1) as [-> ->]. split; [left; exact A|]. split; [intros ? []|reflexivity].
      - destruct (wstep_aside prof w o w1 e1 u None S A S1 N) as (X & Y); [intros _; apply Np; left; reflexivity|].
        split; [|exact Y]. destruct X as [X|[(X & _)|X]]; auto. }
    destruct X as ([X|X] & Y & Z).
    + destruct (IH w1 w2 e2 u Sd X S2 Np') as [P Q]. split.
      * intros ev I. apply in_app_or in I. destruct I as [I|I]; auto.
      * intros N. rewrite calls_by_app, Z, Q; [reflexivity| |].
        -- intros d o' I. apply (N d o'). right. exact I.
        -- intros d o' ->. apply (N d o'). left. reflexivity.
    + destruct (wrun_gone _ _ _ _ _ _ Sd X S2) as [_ G]. split.
      * intros ev I. apply in_app_or in I. destruct I as [I|I]; [auto|]. intros O. apply (G ev I).
        destruct ev; cbn in O; try contradiction; exact O.
      * intros N. rewrite calls_by_app, Z by (intros d o' ->; apply (N d o'); left; reflexivity).
        cbn [app]. clear -G. induction e2 as [|ev e2 IH]; [reflexivity|].
        assert (E : calls_by u [ev] = []).
        { specialize (G ev (or_introl eq_refl)). destruct ev; try reflexivity. unfold calls_by. cbn [flat_map].
          cbn [actor] in G. rewrite (proj2 (Nat.eqb_neq _ _) G). reflexivity. }
        change (ev :: e2) with ([ev] ++ e2). rewrite calls_by_app, E. apply IH. intros x I. apply G. right. exact I.
Qed.

Lemma gone_run : forall prof ops w w' tr u, sound w -> gone u w -> wrun prof w ops = (w', tr) ->
  (forall ev, In ev tr -> ~ outcome u ev) /\ calls_by u tr = [].
Proof.
  intros prof ops w w' tr u S X R. destruct (wrun_gone _ _ _ _ _ _ S X R) as [_ G]. split.
  - intros ev I O. apply (G ev I). destruct ev; cbn in O; try contradiction; exact O.
  - clear -G. induction tr as [|ev e2 IH]; [reflexivity|].
    assert (E : calls_by u [ev] = []).
    { specialize (G ev (or_introl eq_refl)). destruct ev; try reflexivity. unfold calls_by. cbn [flat_map].
      cbn [actor] in G. rewrite (proj2 (Nat.eqb_neq _ _) G). reflexivity. }
    change (ev :: e2) with ([ev] ++ e2). rewrite calls_by_app, E. apply IH. intros x I. apply G. right. exact I.
Qed.

Lemma busy_run : forall prof ops w w' tr u ph, sound w -> at_ u (Some ph) w -> wrun prof w ops = (w', tr) ->
  (forall o, In o ops -> ~ starts u o) ->
  (forall ev, In ev tr -> outcome u ev -> (left_ ph <= steps_of u ops)%nat \/
     exists ps v r, ev = EvReturned u ps v r /\ r <> Ok tt) /\
  ((forall d o', ~ In (OSys u d o') ops) ->
   (exists x, rest ph = calls_by u tr ++ x) /\
   (forall ps v, In (EvReturned u ps v (Ok tt)) tr -> rest ph = calls_by u tr)).
Proof.
  intros prof. induction ops as [|o ops IH]; intros w w' tr u ph S A H Np; cbn [wrun] in H.
  - injection H as <- <-. split; [intros ? []|]. intros _. split; [exists (rest ph); reflexivity|intros ? ? []].
  - destruct (wstep prof w o) as [w1 e1] eqn:S1. destruct (wrun prof w1 ops) as [w2 e2] eqn:S2.
    injection H as <- <-.
    pose proof (proj1 (wstep_sound _ _ _ _ _ S S1)) as Sd.
    assert (Np' : forall o, In o ops -> ~ starts u o) by (intros; apply Np; right; assumption).
    assert (Nu : (forall d o', ~ In (OSys u d o') (o :: ops)) ->
                 (forall d o', ~ In (OSys u d o') ops) /\ (forall d o', o <> OSys u d o')).
    { intros N. split; intros d o' X; apply (N d o'); [right; exact X|left; exact X]. }
    assert (Aside : (forall amb, o <> OStep u amb) -> (steps_of u (o :: ops) = steps_of u ops) ->
      (forall ev, In ev (e1 ++ e2) -> outcome u ev -> (left_ ph <= steps_of u (o :: ops))%nat \/
         exists ps v r, ev = EvReturned u ps v r /\ r <> Ok tt) /\
      ((forall d o', ~ In (OSys u d o') (o :: ops)) ->
       (exists x, rest ph = calls_by u (e1 ++ e2) ++ x) /\
       (forall ps v, In (EvReturned u ps v (Ok tt)) (e1 ++ e2) -> rest ph = calls_by u (e1 ++ e2)))).
    { intros N E. rewrite E.
      destruct (wstep_aside _ _ _ _ _ u (Some ph) S A S1 N) as (X & Y & Z); [discriminate|].
      destruct X as [X|[(X & Ra)|X]].
      2:{ destruct (idle_run _ _ _ _ _ _ Sd X S2 Np') as [P Q]. split.
          - intros ev I O. apply in_app_or in I. destruct I as [I|I]; [contradiction (Y ev I O)|contradiction (P ev I O)].
          - intros Ns. destruct (Nu Ns) as [_ N2]. contradiction (ran_calls _ _ Ra (Z N2)). }
      - destruct (IH w1 w2 e2 u ph Sd X S2 Np') as [P Q]. split.
        + intros ev I O. apply in_app_or in I. destruct I as [I|I]; [contradiction (Y ev I O)|exact (P ev I O)].
        + intros Ns. destruct (Nu Ns) as [N1 N2]. rewrite calls_by_app, (Z N2). cbn [app].
          split; [apply (Q N1)|]. intros ps v I. apply in_app_or in I.
          destruct I as [I|I]; [contradiction (Y _ I); reflexivity|exact (proj2 (Q N1) ps v I)].
      - destruct (gone_run _ _ _ _ _ _ Sd X S2) as [P Q]. split.
        + intros ev I O. apply in_app_or in I. destruct I as [I|I]; [contradiction (Y ev I O)|contradiction (P ev I O)].
        + intros Ns. destruct (Nu Ns) as [N1 N2]. rewrite calls_by_app, (Z N2), Q. split; [eexists; reflexivity|].
          intros ps v I. exfalso. apply in_app_or in I.
          destruct I as [I|I]; [apply (Y _ I)|apply (P _ I)]; reflexivity. }
    destruct o as [u0 ps v|u0 amb|u0 d o|u0 b|u0]; try (apply Aside; [discriminate|reflexivity]).
    destruct (Nat.eq_dec u0 u) as [->|N].
    2:{ apply Aside; [congruence|]. unfold steps_of. cbn [filter]. rewrite (proj2 (Nat.eqb_neq _ _) N). reflexivity. }
    assert (L : steps_of u (OStep u amb :: ops) = Datatypes.S (steps_of u ops)).
    { unfold steps_of. cbn [filter]. rewrite Nat.eqb_refl. reflexivity. }
    rewrite L. clear Aside.
    destruct (wstep_busy _ _ _ _ _ _ _ S A S1)
      as [(ph' & A' & E & R & _ & _ & O1)|[(r & A' & I & (x & X) & K & O1)|(G & (x & X) & O1)]].
    + destruct (IH w1 w2 e2 u ph' Sd A' S2 Np') as [P Q]. split.
      * intros ev I O. apply in_app_or in I. destruct I as [I|I]; [contradiction (O1 ev I O)|].
        destruct (P ev I O) as [P1|P1]; [left; lia|right; exact P1].
      * intros Ns. destruct (Nu Ns) as [N1 N2]. destruct (Q N1) as [(y & Y) Z].
        rewrite R, calls_by_app. split.
        -- exists y. rewrite Y, app_assoc. reflexivity.
        -- intros ps v I. apply in_app_or in I. destruct I as [I|I]; [contradiction (O1 _ I); reflexivity|].
           rewrite (Z ps v I). reflexivity.
    + destruct (idle_run _ _ _ _ _ _ Sd A' S2 Np') as [P Q]. split.
      * intros ev J O. apply in_app_or in J. destruct J as [J|J]; [|contradiction (P ev J O)].
        assert (D : r = Ok tt \/ r <> Ok tt) by (destruct r as [[]| | |]; (left; reflexivity) || (right; discriminate)).
        destruct D as [D|D].
        -- left. destruct (K D) as [K1 _]. lia.
        -- destruct (O1 ev J O) as [->|D']; [right; eauto|contradiction].
      * intros Ns. destruct (Nu Ns) as [N1 N2]. rewrite calls_by_app, (Q N1), app_nil_r.
        split; [exists x; exact X|]. intros ps v J. apply in_app_or in J.
        destruct J as [J|J]; [|contradiction (P _ J); reflexivity].
        destruct (O1 _ J eq_refl) as [Z|Z]; [injection Z as _ _ Z; apply K; congruence|apply K; exact Z].
    + destruct (gone_run _ _ _ _ _ _ Sd G S2) as [P Q]. split.
      * intros ev J O. exfalso. apply in_app_or in J. destruct J as [J|J]; [exact (O1 ev J O)|exact (P ev J O)].
      * intros Ns. destruct (Nu Ns) as [N1 N2]. rewrite calls_by_app, Q, app_nil_r.
        split; [exists x; exact X|]. intros ps v J. exfalso. apply in_app_or in J.
        destruct J as [J|J]; [apply (O1 _ J)|apply (P _ J)]; reflexivity.
Qed.

Lemma c86_early : forall prof w ops1 w1 tr1 u t ps v ops2 w2 tr2,
  fresh_world w -> distinct w -> wrun prof w ops1 = (w1, tr1) ->
  In t (w_threads w1) -> t_uid t = u -> t_call t = None ->
  wrun prof w1 (OPledge u ps v :: ops2) = (w2, tr2) -> (forall ps' v', ~ In (OPledge u ps' v') ops2) ->
  (steps_of u ops2 < steps_needed ps)%nat ->
  (forall ps' v', ~ In (EvReturned u ps' v' (Ok tt)) tr2) /\
  (forall pid tid ps' v', ~ In (EvInstalled u pid tid ps' v') tr2).
Proof.
  intros prof w ops1 w1 tr1 u t ps v ops2 w2 tr2 F D R1 I U C R2 Np L.
  assert (S : sound w1) by (apply (wrun_sound prof ops1 w w1 tr1); [apply fresh_sound; assumption|exact R1]).
  destruct (start_at prof w1 u t ps v S I U C) as (wa & E & Sa & A). cbn [wrun] in R2. rewrite E in R2.
  destruct (wrun prof wa ops2) as [wb eb] eqn:R. injection R2 as <- <-. cbn [app].
  assert (Np' : forall o, In o ops2 -> ~ starts u o) by (intros o Io (ps' & v' & ->); exact (Np ps' v' Io)).
  destruct (busy_run prof ops2 wa wb eb u (PStart ps v) Sa A R Np') as [X _]. rewrite start_left in X.
  split; [intros ps' v' J|intros pid tid ps' v' J]; (destruct (X _ J eq_refl) as [Y|(a & b & r & Y & Z)]; [lia|congruence]).
Qed.

Lemma c87 : forall prof w ops1 w1 tr1 u t ps v ops2 w2 tr2,
  fresh_world w -> distinct w -> wrun prof w ops1 = (w1, tr1) ->
  In t (w_threads w1) -> t_uid t = u -> t_call t = None ->
  wrun prof w1 (OPledge u ps v :: ops2) = (w2, tr2) ->
  (forall ps' v', ~ In (OPledge u ps' v') ops2) -> (forall d o, ~ In (OSys u d o) ops2) ->
  (exists later, footprint ps = calls_by u tr2 ++ later) /\
  (In (EvReturned u ps v (Ok tt)) tr2 -> calls_by u tr2 = footprint ps).
Proof.
  intros prof w ops1 w1 tr1 u t ps v ops2 w2 tr2 F D R1 I U C R2 Np Ns.
  assert (S : sound w1) by (apply (wrun_sound prof ops1 w w1 tr1); [apply fresh_sound; assumption|exact R1]).
  destruct (start_at prof w1 u t ps v S I U C) as (wa & E & Sa & A). cbn [wrun] in R2. rewrite E in R2.
  destruct (wrun prof wa ops2) as [wb eb] eqn:R. injection R2 as <- <-. cbn [app].
  assert (Np' : forall o, In o ops2 -> ~ starts u o) by (intros o Io (ps' & v' & ->); exact (Np ps' v' Io)).
  destruct (busy_run prof ops2 wa wb eb u (PStart ps v) Sa A R Np') as [_ X].
  destruct (X Ns) as [X1 X2]. rewrite start_rest in X1, X2. split; [exact X1|].
  intros J. symmetry. exact (X2 ps v J).
Qed.

(** * C88 *)
Lemma load_same : forall prof amb t prog r t', load_step prof amb t prog = (r, t') -> r <> Ok tt -> t' = t.
Proof.
  intros prof amb t prog r t' H N. unfold load_step in H.
  destruct (fate_of _ _ _) as [|z|k].
  - destruct (attach_filter _ _ _ _); injection H as H1 H2; congruence.
  - destruct (ret_zero z); injection H as H1 H2; congruence.
  - injection H as _ <-. reflexivity.
Qed.
Lemma c88_partial : forall prof amb t ps v r t',
  pledge_override prof amb t ps v = (r, t') -> r <> Ok tt ->
  (t' = t \/ t' = set_nnp t) /\
  (t_filters t = [] -> t' = set_nnp t).
Proof.
  intros prof amb t ps v r t' H N. rewrite pledge_unfold in H.
  destruct (build_thread prof t amb ps v) as [(rs & B & M & W)|(d & n & B & K)]; rewrite B in H; cbn [stopped] in H.
  - unfold prctl_steps in H. destruct (fate_of t (amb 2%nat) (call_set_nnp (amb 2%nat))) as [|z|k] eqn:F.
    + pose proof (load_same _ _ _ _ _ _ H N) as ->. auto.
    + split.
      * destruct (ret_zero z); [pose proof (load_same _ _ _ _ _ _ H N) as ->; auto|injection H as _ <-; auto].
      * intros E. rewrite fate_of_empty in F by exact E. discriminate.
    + injection H as _ <-. split; [auto|]. intros E. rewrite fate_of_empty in F by exact E. discriminate.
  - injection H as <- <-. split; [auto|]. intros E. exfalso.
    destruct K as [K|K]; unfold read_call in K; rewrite fate_of_empty in K by exact E; discriminate.
Qed.

Lemma c88_refuted : forall prof amb t ps v, t_filters t = [] -> t_nnp t = false ->
  4089 < promises_size ps \/ amb_oom (amb 1%nat) = true ->
  exists e, pledge_override prof amb t ps v = (Err (SysErr e), set_nnp t) /\ set_nnp t <> t.
Proof.
  intros prof amb t ps v F Nn H.
  assert (N : fst (pledge_override prof amb t ps v) <> Ok tt).
  { assert (D : amb_oom (amb 1%nat) = true \/ amb_oom (amb 1%nat) = false) by (destruct (amb_oom (amb 1%nat)); auto).
    destruct D as [D|D].
    - rewrite pledge_unfold. destruct (build_thread prof t amb ps v) as [(rs & B & _)|(d & n & B & _)]; rewrite B; [|discriminate].
      cbn [stopped]. unfold prctl_steps. rewrite fate_of_empty by exact F. unfold load_step.
      rewrite fate_of_empty by exact F. rewrite D. unfold attach_filter.
      destruct (_ || _); [discriminate|]. destruct (negb _); discriminate.
    - destruct H as [H|H]; [|congruence]. rewrite (c70_pledge prof amb t ps v F D). lia. }
  pose proof (c14_pledge prof amb t ps v) as C.
  destruct (pledge_override prof amb t ps v) as [r t'] eqn:E. cbn [fst] in N, C.
  destruct (c88_partial _ _ _ _ _ _ _ E N) as [_ K]. specialize (K F). subst t'.
  destruct r as [[]|[p|e|e]| |k]; try contradiction.
  - exists e. split; [reflexivity|]. intros X. apply (f_equal t_nnp) in X. cbn in X. congruence.
  - exfalso. rewrite pledge_unfold in E.
    destruct (build_thread prof t amb ps v) as [(rs & B & _)|(d & n & B & K)]; rewrite B in E; cbn [stopped] in E.
    + unfold prctl_steps in E. rewrite fate_of_empty in E by exact F. unfold load_step in E.
      rewrite fate_of_empty in E by exact F. destruct (attach_filter _ _ _ _); discriminate E.
    + destruct K as [K|K]; unfold read_call in K; rewrite fate_of_empty in K by exact F; discriminate.
Qed.

(** * C89 *)
Lemma same_run : forall prof l fs d d', stack_with prof l fs ->
  (forall ps v f, filter_with prof (fun _ => True) ps v f -> kernel_eval f d = kernel_eval f d') ->
  run_filters fs d = run_filters fs d'.
Proof.
  intros prof l fs d d' St E. unfold run_filters. generalize 0x7fff0000.
  induction St as [|[ps v] f l fs H St IH]; intros a; [reflexivity|].
  cbn [run_filters_from]. rewrite IH, (E _ _ _ H). reflexivity.
Qed.
Lemma same_verdict : forall prof d d', native d -> native d' ->
  (forall ps pid tid, granted ps pid tid d <-> In StdIO ps) ->
  (forall ps pid tid, granted ps pid tid d' <-> In StdIO ps) ->
  forall ps v f, filter_with prof (fun _ => True) ps v f -> kernel_eval f d = kernel_eval f d'.
Proof.
  intros prof d d' N N' G G' ps v f W.
  destruct (with_acts _ _ _ _ _ d W) as (pid & tid & A).
  destruct (with_acts _ _ _ _ _ d' W) as (pid' & tid' & A').
  destruct (verdict_at _ _ _ _ _ _ A N) as [V1 V2]. destruct (verdict_at _ _ _ _ _ _ A' N') as [V1' V2'].
  rewrite G in V1, V2. rewrite G' in V1', V2'.
  destruct (in_dec promise_eq_dec StdIO ps) as [I|I].
  - rewrite V1, V1' by exact I. reflexivity.
  - rewrite V2, V2' by exact I. reflexivity.
Qed.
Lemma same_fate : forall prof l t a b d d', stack_with prof l (t_filters t) -> amb_sup a = amb_sup b ->
  native d -> native d' ->
  (forall ps pid tid, granted ps pid tid d <-> In StdIO ps) ->
  (forall ps pid tid, granted ps pid tid d' <-> In StdIO ps) ->
  fate_of t a d = fate_of t b d'.
Proof.
  intros prof l t a b d d' St S N N' G G'. unfold fate_of, supervised_entry. rewrite S.
  destruct (t_filters t) as [|f fs]; [reflexivity|]. f_equal.
  exact (same_run prof l (f :: fs) d d' St (same_verdict prof d d' N N' G G')).
Qed.

Section Alike.
  Variables (prof : profile) (l : list (list Promise * SeccompReturn)).
  Lemma alike_env : forall t a b, stack_with prof l (t_filters t) -> alike a b -> thread_env t a = thread_env t b.
  Proof.
    intros t a b St (Wa & Wb & S & _). unfold thread_env, read_call. f_equal.
    - rewrite (same_fate prof l t a b (call_getpid a) (call_getpid b) St S (wf_call_getpid a Wa) (wf_call_getpid b Wb)
                 (fun ps pid tid => grants_getpid ps pid tid a) (fun ps pid tid => grants_getpid ps pid tid b)).
      reflexivity.
    - rewrite (same_fate prof l t a b (call_gettid a) (call_gettid b) St S (wf_call_gettid a Wa) (wf_call_gettid b Wb)
                 (fun ps pid tid => grants_gettid ps pid tid a) (fun ps pid tid => grants_gettid ps pid tid b)).
      reflexivity.
  Qed.
  Lemma alike_nnp : forall t a b, stack_with prof l (t_filters t) -> alike a b ->
    fate_of t a (call_set_nnp a) = fate_of t b (call_set_nnp b).
  Proof.
    intros t a b St (Wa & Wb & S & _).
    exact (same_fate prof l t a b _ _ St S (wf_call_nnp a Wa) (wf_call_nnp b Wb)
             (fun ps pid tid => grants_nnp ps pid tid a) (fun ps pid tid => grants_nnp ps pid tid b)).
  Qed.
  Lemma alike_seccomp : forall t a b, stack_with prof l (t_filters t) -> alike a b ->
    fate_of t a (call_set_seccomp a) = fate_of t b (call_set_seccomp b).
  Proof.
    intros t a b St (Wa & Wb & S & _).
    exact (same_fate prof l t a b _ _ St S (wf_call_seccomp a Wa) (wf_call_seccomp b Wb)
             (fun ps pid tid => grants_seccomp ps pid tid a) (fun ps pid tid => grants_seccomp ps pid tid b)).
  Qed.
  Lemma alike_errno : forall a b r, alike a b -> ret_errno a r = ret_errno b r.
  Proof. intros a b r (_ & _ & _ & _ & E). unfold ret_errno. rewrite E. reflexivity. Qed.
  Lemma alike_load : forall t a b prog, stack_with prof l (t_filters t) -> alike a b ->
    load_step prof a t prog = load_step prof b t prog.
  Proof.
    intros t a b prog St A. unfold load_step. rewrite (alike_seccomp t a b St A).
    destruct (fate_of _ _ _); [|rewrite (alike_errno a b _ A); reflexivity|reflexivity].
    destruct A as (_ & _ & _ & -> & _). reflexivity.
  Qed.
  Lemma alike_pledge : forall amb amb' t ps v, stack_with prof l (t_filters t) -> (forall n, alike (amb n) (amb' n)) ->
    pledge_override prof amb t ps v = pledge_override prof amb' t ps v.
  Proof.
    intros amb amb' t ps v St A. rewrite !pledge_unfold.
    assert (B : built prof amb t ps v = built prof amb' t ps v).
    { unfold built. f_equal. generalize (all_filters ps). induction l0 as [|f fs IH]; [reflexivity|].
      cbn [build_parts]. rewrite IH, (alike_env t _ _ St (A _)). reflexivity. }
    rewrite B. destruct (built prof amb' t ps v); cbn [stopped]; try reflexivity.
    unfold prctl_steps. rewrite (alike_nnp t _ _ St (A _)).
    destruct (fate_of _ _ _) as [|r|k]; [|destruct (ret_zero r)|reflexivity].
    - apply alike_load; [exact St|apply A].
    - apply alike_load; [exact St|apply A].
    - rewrite (alike_errno _ _ _ (A _)). reflexivity.
  Qed.
End Alike.

Lemma c89 : forall prof l amb amb' t ps v, stack_with prof l (t_filters t) -> (forall n, alike (amb n) (amb' n)) ->
  pledge_override prof amb t ps v = pledge_override prof amb' t ps v.
Proof. exact alike_pledge. Qed.
