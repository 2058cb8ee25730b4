(** Consequences of the exact policy. *)
From Coq Require Import NArith ZArith String List Bool Lia.
From Verif Require Import Libc Machine Bpf SeccompRet Asm Vm Promises Filters Kernel World Spec
  FragProofs.
Import ListNotations.
Local Open Scope N_scope.

Lemma filter_for_pcode : forall prof pid tid ps v prog,
  filter_for prof pid tid ps v prog -> prog = pcode pid tid ps v.
Proof.
  unfold filter_for. intros prof pid tid ps v prog H.
  fold (ids pid tid) in H. rewrite promises_to_prog_ok in H. congruence.
Qed.

Lemma filter_for_exists : forall prof pid tid ps v,
  filter_for prof pid tid ps v (pcode pid tid ps v).
Proof. intros. apply promises_to_prog_ok. Qed.

(** * Verdicts *)

Lemma verdict_mem : forall prof pid tid ps v prog mem d,
  filter_for prof pid tid ps v prog -> native d ->
  (granted ps pid tid d -> kernel_eval_mem mem prog d = 0x7fff0000) /\
  (~ granted ps pid tid d -> kernel_eval_mem mem prog d = ret_into v).
Proof.
  intros prof pid tid ps v prog mem d H [Hd Ha]. rewrite (filter_for_pcode _ _ _ _ _ _ H).
  rewrite pcode_run. rewrite Ha. change (lo32 X86_64 =? X86_64) with true. cbn iota.
  rewrite <- (fgrant ps pid tid d Hd).
  destruct (existsb (ruleb pid tid d) (all_filters ps)); split; congruence.
Qed.

Lemma verdict : forall prof pid tid ps v prog d,
  filter_for prof pid tid ps v prog -> native d ->
  (granted ps pid tid d -> kernel_eval prog d = 0x7fff0000) /\
  (~ granted ps pid tid d -> kernel_eval prog d = ret_into v).
Proof. intros. apply (verdict_mem prof); assumption. Qed.

Lemma granted_dec : forall ps pid tid d, wf_data d ->
  {granted ps pid tid d} + {~ granted ps pid tid d}.
Proof.
  intros ps pid tid d Hd. destruct (existsb (ruleb pid tid d) (all_filters ps)) eqn:E.
  - left. apply fgrant; assumption.
  - right. intros G. apply fgrant in G; [congruence|assumption].
Qed.

(** * Actions *)

Lemma ret_split : forall a p, N.land a 0xffff = 0 -> p < 2 ^ 16 ->
  N.land (N.lor a p) 0xffff = p.
Proof.
  intros a p Ha Hp. rewrite N.land_lor_distr_l, Ha, N.lor_0_l.
  change 0xffff with (N.ones 16). rewrite N.land_ones. apply N.mod_small. exact Hp.
Qed.

Lemma high_clear : forall p, p < 2 ^ 16 -> N.land p 0xffff0000 = 0.
Proof.
  intros p Hp. rewrite <- (N.mod_small p (2 ^ 16) Hp), <- N.land_ones.
  rewrite <- N.land_assoc. change (N.land (N.ones 16) 0xffff0000) with 0. apply N.land_0_r.
Qed.

Lemma action_split : forall a p, N.land a 0xffff0000 = a -> p < 2 ^ 16 ->
  action_bits (N.lor a p) = a.
Proof.
  intros a p Ha Hp. unfold action_bits. rewrite N.land_lor_distr_l, Ha, high_clear by exact Hp.
  apply N.lor_0_r.
Qed.

Lemma entry_of_ret : forall v, small_payload v -> entry_of (ret_into v) = fate v.
Proof.
  intros v H. destruct v; try reflexivity; cbn [small_payload] in H; unfold entry_of, ret_into.
  - rewrite action_split by (reflexivity || exact H). unfold SECCOMP_RET_ERRNO.
    rewrite ret_split by (reflexivity || exact H). reflexivity.
  - rewrite action_split by (reflexivity || exact H). reflexivity.
Qed.

Lemma fate_enforcing : forall v, enforcing v -> fate v <> Proceed.
Proof. intros v (H & Ha & Hl). destruct v; cbn; congruence. Qed.

Lemma action_rank_max : forall c, (action_rank c <= action_rank 0x7fff0000)%Z.
Proof.
  intros c. unfold action_rank.
  assert (B : (Z.of_N (action_bits c) < 2 ^ 32)%Z).
  { change (2 ^ 32)%Z with (Z.of_N (2 ^ 32)). apply N2Z.inj_lt. unfold action_bits.
    rewrite <- lo32_land by reflexivity.
    replace (N.land (lo32 c) 4294901760) with (N.land (N.land c 4294901760) (N.ones 32)).
    - rewrite N.land_ones. apply N.mod_lt. discriminate.
    - rewrite <- N.land_assoc. change (N.land 4294901760 (N.ones 32)) with 4294901760.
      symmetry. apply lo32_land. reflexivity. }
  assert (M : (Z.of_N (action_bits c) mod 65536 = 0)%Z).
  { change 65536%Z with (Z.of_N (2 ^ 16)). rewrite <- N2Z.inj_mod.
    rewrite <- N.land_ones. unfold action_bits. rewrite <- N.land_assoc.
    change (N.land 4294901760 (N.ones 16)) with 0. rewrite N.land_0_r. reflexivity. }
  change (action_bits 2147418112) with 2147418112.
  change (Z.of_N 2147418112 <? 2 ^ 31)%Z with true. cbn iota.
  change (2 ^ 32)%Z with 4294967296%Z in *. change (2 ^ 31)%Z with 2147483648%Z.
  change (Z.of_N 2147418112) with 2147418112%Z.
  destruct (Z.ltb_spec (Z.of_N (action_bits c)) 2147483648).
  - pose proof (Z.div_mod (Z.of_N (action_bits c)) 65536 ltac:(discriminate)) as D.
    rewrite M in D. set (q := (Z.of_N (action_bits c) / 65536)%Z) in *. lia.
  - lia.
Qed.

(** A single filter: the action is its own (up to ties with ALLOW, which do not matter). *)
Lemma single_entry : forall prog d, syscall_entry [prog] d = entry_of (kernel_eval prog d).
Proof.
  intros prog d. unfold syscall_entry, run_filters. cbn [run_filters_from].
  destruct (Z.ltb_spec (action_rank (kernel_eval prog d)) (action_rank 0x7fff0000)) as [H|H];
    [reflexivity|].
  assert (E : action_rank (kernel_eval prog d) = action_rank 0x7fff0000)
    by (pose proof (action_rank_max (kernel_eval prog d)); lia).
  assert (A : action_bits (kernel_eval prog d) = 0x7fff0000).
  { revert E. unfold action_rank. change (action_bits 2147418112) with 2147418112.
    change (Z.of_N 2147418112 <? 2 ^ 31)%Z with true. cbn iota.
    assert (B : (0 <= Z.of_N (action_bits (kernel_eval prog d)))%Z) by apply N2Z.is_nonneg.
    assert (C : (Z.of_N (action_bits (kernel_eval prog d)) < 2 ^ 32)%Z).
    { change (2 ^ 32)%Z with (Z.of_N (2 ^ 32)). apply N2Z.inj_lt. unfold action_bits.
      replace (N.land (kernel_eval prog d) 4294901760) with
        (N.land (N.land (kernel_eval prog d) 4294901760) (N.ones 32)).
      - rewrite N.land_ones. apply N.mod_lt. discriminate.
      - rewrite <- N.land_assoc. reflexivity. }
    change (2 ^ 32)%Z with 4294967296%Z in *.
    destruct (Z.ltb_spec (Z.of_N (action_bits (kernel_eval prog d))) (2 ^ 31)); lia. }
  unfold entry_of. rewrite A. reflexivity.
Qed.

Lemma proceeds_iff : forall prof pid tid ps v prog d,
  filter_for prof pid tid ps v prog -> enforcing v -> native d ->
  proceeds prog d <-> granted ps pid tid d.
Proof.
  intros prof pid tid ps v prog d H Hv Hd. unfold proceeds. rewrite single_entry.
  destruct (verdict _ _ _ _ _ _ _ H Hd) as [V1 V2].
  destruct (granted_dec ps pid tid d (proj1 Hd)) as [G|G].
  - rewrite (V1 G). split; [intros _; exact G|reflexivity].
  - rewrite (V2 G), entry_of_ret by apply Hv. split; [|contradiction].
    intros F. exfalso. exact (fate_enforcing v Hv F).
Qed.

(** * Reading the policy *)

Definition row_of (nr : N) : option (list (argrule * list Promise)) :=
  match find (fun row => fst row =? nr) policy with Some row => Some (snd row) | None => None end.

Fixpoint nodupb (l : list N) : bool :=
  match l with [] => true | x :: l' => negb (memb x l') && nodupb l' end.
Lemma policy_nodup : nodupb (map fst policy) = true.
Proof. vm_compute. reflexivity. Qed.

Lemma find_nodup : forall (l : list (N * list (argrule * list Promise))) nr alts,
  nodupb (map fst l) = true -> In (nr, alts) l ->
  find (fun row => fst row =? nr) l = Some (nr, alts).
Proof.
  induction l as [|[n a] l IH]; intros nr alts Hn Hi; [destruct Hi|].
  cbn [map fst nodupb find] in *. apply andb_true_iff in Hn. destruct Hn as [Hm Hn].
  destruct Hi as [E|Hi].
  - injection E as -> ->. rewrite N.eqb_refl. reflexivity.
  - destruct (N.eqb_spec n nr) as [->|_]; [|apply IH; assumption].
    exfalso. apply negb_true_iff in Hm. assert (memb nr (map fst l) = true); [|congruence].
    apply memb_In. change nr with (fst (nr, alts)). apply in_map. exact Hi.
Qed.

Definition promised (p : Promise) (ps : list Promise) : Prop := p = Default \/ In p ps.
Definition who_ok (who ps : list Promise) : Prop :=
  fold_right (fun p acc => promised p ps \/ acc) False who.
Definition alts_ok (alts : list (argrule * list Promise)) (ps : list Promise) (pid tid : N)
  (d : seccomp_data) : Prop :=
  fold_right (fun alt acc => (who_ok (snd alt) ps /\ args_ok (fst alt) pid tid d) \/ acc)
             False alts.

Lemma who_ok_iff : forall who ps,
  who_ok who ps <-> exists p, In p who /\ (p = Default \/ In p ps).
Proof.
  induction who as [|q who IH]; intros ps; cbn [who_ok fold_right In].
  - split; [tauto|intros [p [[] _]]].
  - fold (who_ok who ps). rewrite IH. unfold promised. split.
    + intros [H|[p [Hp H]]]; eauto.
    + intros [p [[->|Hp] H]]; [left; exact H|right; eauto].
Qed.

Lemma alts_ok_iff : forall alts ps pid tid d,
  alts_ok alts ps pid tid d <->
  exists rule who p, In (rule, who) alts /\ In p who /\ (p = Default \/ In p ps) /\
                     args_ok rule pid tid d.
Proof.
  induction alts as [|[r w] alts IH]; intros ps pid tid d; cbn [alts_ok fold_right In fst snd].
  - split; [tauto|intros (? & ? & ? & [] & _)].
  - fold (alts_ok alts ps pid tid d). rewrite IH, who_ok_iff. split.
    + intros [[[p [Hp Hps]] Ha]|(r' & w' & p & Hi & Hp & Hps & Ha)].
      * exists r, w, p. auto.
      * exists r', w', p. auto.
    + intros (r' & w' & p & [E|Hi] & Hp & Hps & Ha).
      * injection E as -> ->. left. eauto.
      * right. exists r', w', p. auto.
Qed.

Lemma granted_row : forall ps pid tid d,
  granted ps pid tid d <->
  match row_of (sd_nr d) with Some alts => alts_ok alts ps pid tid d | None => False end.
Proof.
  intros ps pid tid d. unfold granted, row_of. split.
  - intros (alts & r & who & p & Hrow & Halt & Hp & Hps & Ha).
    rewrite (find_nodup _ _ _ policy_nodup Hrow). cbn [snd].
    apply alts_ok_iff. exists r, who, p. auto.
  - destruct (find _ policy) as [[n alts]|] eqn:F; [|contradiction]. cbn [snd].
    apply find_some in F. destruct F as [Hi E]. cbn [fst] in E. apply N.eqb_eq in E. subst n.
    intros H. apply alts_ok_iff in H. destruct H as (r & who & p & Halt & Hp & Hps & Ha).
    exists alts, r, who, p. auto.
Qed.

(** Evaluate the policy at a known system call number. *)
Lemma granted_at : forall nr o ps pid tid d,
  row_of nr = o -> sd_nr d = nr ->
  (granted ps pid tid d <->
   match o with Some alts => alts_ok alts ps pid tid d | None => False end).
Proof. intros nr o ps pid tid d <- <-. apply granted_row. Qed.

Ltac row nr H :=
  let o := eval vm_compute in (row_of nr) in
  let E := fresh "E" in
  assert (E : row_of nr = o) by (vm_compute; reflexivity);
  pose proof (fun ps pid tid d (Hn : sd_nr d = nr) => granted_at nr o ps pid tid d E Hn) as H;
  clear E; cbv beta iota delta [alts_ok who_ok fold_right fst snd] in H; cbn [args_ok] in H.

(** * C17 *)
Lemma granted_lt_512 : forall ps pid tid d, granted ps pid tid d -> sd_nr d < 512.
Proof.
  intros ps pid tid d (alts & r & who & p & Hrow & _).
  pose proof policy_small as S. rewrite forallb_forall in S. specialize (S _ Hrow).
  apply N.ltb_lt in S. exact S.
Qed.

Lemma x32_ge : forall n, N.testbit n 30 = true -> 512 <= n.
Proof.
  intros n H. destruct (N.lt_ge_cases n 512) as [L|L]; [|exact L]. exfalso.
  assert (n < 2 ^ 30) by (apply N.lt_trans with 512; [exact L|reflexivity]).
  rewrite N.bits_above_log2 in H; [discriminate|].
  destruct (N.eq_dec n 0) as [->|Hn]; [reflexivity|]. apply N.log2_lt_pow2; lia.
Qed.

(** * C18, C19 *)
Lemma granted_incl : forall ps ps' pid tid d,
  (forall p, In p ps -> In p ps') -> granted ps pid tid d -> granted ps' pid tid d.
Proof.
  intros ps ps' pid tid d H (alts & r & who & p & Hrow & Halt & Hp & Hps & Ha).
  exists alts, r, who, p. intuition.
Qed.

Lemma existsb_filters_incl : forall f ps ps', (forall p, In p ps -> In p ps') ->
  existsb f (all_filters ps) = true -> existsb f (all_filters ps') = true.
Proof.
  intros f ps ps' H E. apply existsb_exists in E. destruct E as [x [Hx E]].
  apply existsb_exists. exists x. split; [|exact E].
  unfold all_filters in *. apply in_concat in Hx. destruct Hx as [l [Hl Hx]].
  apply in_concat. exists l. split; [|exact Hx]. apply in_map_iff in Hl.
  destruct Hl as [p [<- Hp]]. apply in_map. destruct Hp as [<-|Hp]; cbn; auto.
Qed.

(** * C20 *)
Lemma argsb_agree : forall r pid tid d d',
  lo32 (sd_a0 d) = lo32 (sd_a0 d') -> lo32 (sd_a1 d) = lo32 (sd_a1 d') ->
  lo32 (sd_a2 d) = lo32 (sd_a2 d') -> lo32 (sd_a3 d) = lo32 (sd_a3 d') ->
  lo32 (sd_a4 d) = lo32 (sd_a4 d') ->
  (r = SendNoAddr -> hi32 (sd_a4 d) = hi32 (sd_a4 d')) ->
  argsb r pid tid d = argsb r pid tid d'.
Proof.
  intros r pid tid d d' H0 H1 H2 H3 H4 H5.
  destruct r; cbn [argsb]; rewrite ?H0, ?H1, ?H2, ?H3, ?H4, ?(H5 eq_refl); reflexivity.
Qed.

Lemma sendaddr_nr : forall f, snd (rule_of f) = SendNoAddr -> fst (rule_of f) = SYS_sendto.
Proof. destruct f; cbn; congruence. Qed.

Lemma ruleb_agree : forall pid tid d d' f,
  lo32 (sd_nr d) = lo32 (sd_nr d') ->
  lo32 (sd_a0 d) = lo32 (sd_a0 d') -> lo32 (sd_a1 d) = lo32 (sd_a1 d') ->
  lo32 (sd_a2 d) = lo32 (sd_a2 d') -> lo32 (sd_a3 d) = lo32 (sd_a3 d') ->
  lo32 (sd_a4 d) = lo32 (sd_a4 d') ->
  (lo32 (sd_nr d) = SYS_sendto -> hi32 (sd_a4 d) = hi32 (sd_a4 d')) ->
  ruleb pid tid d f = ruleb pid tid d' f.
Proof.
  intros pid tid d d' f Hn H0 H1 H2 H3 H4 H5. unfold ruleb. rewrite <- Hn.
  destruct (N.eqb_spec (lo32 (sd_nr d)) (as_u32 (fst (rule_of f)))) as [E|]; [|reflexivity].
  cbn [andb]. apply argsb_agree; auto.
  intros R. apply H5. rewrite E, (sendaddr_nr f R). reflexivity.
Qed.

Lemma existsb_ext : forall A (f g : A -> bool) l, (forall x, f x = g x) -> existsb f l = existsb g l.
Proof. intros A f g l H. induction l as [|x l IH]; cbn; [reflexivity|]. rewrite H, IH. reflexivity. Qed.

Lemma verdict_agree : forall pid tid ps v d d',
  sd_nr d = sd_nr d' -> sd_arch d = sd_arch d' ->
  lo32 (sd_a0 d) = lo32 (sd_a0 d') -> lo32 (sd_a1 d) = lo32 (sd_a1 d') ->
  lo32 (sd_a2 d) = lo32 (sd_a2 d') -> lo32 (sd_a3 d) = lo32 (sd_a3 d') ->
  lo32 (sd_a4 d) = lo32 (sd_a4 d') ->
  (sd_nr d = SYS_sendto -> hi32 (sd_a4 d) = hi32 (sd_a4 d')) ->
  sd_nr d < 2 ^ 32 ->
  kernel_eval (pcode pid tid ps v) d = kernel_eval (pcode pid tid ps v) d'.
Proof.
  intros. unfold kernel_eval. rewrite !pcode_run. replace (sd_arch d') with (sd_arch d) by assumption.
  rewrite (existsb_ext _ _ (ruleb pid tid d') (all_filters ps)); [reflexivity|].
  intros f. apply ruleb_agree; try assumption.
  - congruence.
  - rewrite lo32_small by assumption. assumption.
Qed.

(** * Foreign architectures *)
Lemma foreign_eval : forall pid tid ps v d,
  wf_data d -> sd_arch d <> X86_64 -> kernel_eval (pcode pid tid ps v) d = 0x80000000.
Proof.
  intros pid tid ps v d (_ & Ha & _) H. unfold kernel_eval. rewrite pcode_run.
  rewrite lo32_small by exact Ha. apply N.eqb_neq in H. rewrite H. reflexivity.
Qed.
