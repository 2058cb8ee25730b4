(** Field offsets, return codes, and the shape of generated filters. *)
From Coq Require Import NArith ZArith String List Bool Lia.
From Verif Require Import Libc Machine Bpf SeccompRet Asm Vm Promises Filters Kernel World Spec
  FragProofs PolicyProofs VmProofs KernelVmProofs.
Import ListNotations.
Local Open Scope N_scope.

(** * C12 *)

Lemma hi32_small : forall n, n < 2 ^ 64 -> hi32 n = n / 2 ^ 32.
Proof.
  intros n H. unfold hi32. rewrite u32_mod_val. apply N.mod_small.
  apply N.div_lt_upper_bound; [discriminate|exact H].
Qed.

Lemma arg_cases : forall i, i <= 5 -> i = 0 \/ i = 1 \/ i = 2 \/ i = 3 \/ i = 4 \/ i = 5.
Proof. intros. lia. Qed.

Lemma field_word : forall f d, wf_data d -> exists_field f ->
  offset f mod 4 = 0 /\ offset f < 64 /\
  nth_error (sd_words d) (N.to_nat (offset f / 4)) = Some (field f d).
Proof.
  intros f d (H & Ha & Hi & H0 & H1 & H2 & H3 & H4 & H5) E.
  destruct f as [| | | |i|i]; cbn [exists_field] in E.
  - split; [reflexivity|]. split; [reflexivity|].
    transitivity (Some (lo32 (sd_nr d))); [reflexivity|]. rewrite lo32_small by exact H. reflexivity.
  - split; [reflexivity|]. split; [reflexivity|].
    transitivity (Some (lo32 (sd_arch d))); [reflexivity|]. rewrite lo32_small by exact Ha. reflexivity.
  - split; [reflexivity|]. split; reflexivity.
  - split; [reflexivity|]. split; [reflexivity|].
    transitivity (Some (hi32 (sd_ip d))); [reflexivity|]. rewrite hi32_small by exact Hi. reflexivity.
  - apply arg_cases in E. decompose [or] E; subst i; repeat split.
  - apply arg_cases in E. decompose [or] E; subst i; (split; [reflexivity|]); (split; [reflexivity|]).
    + transitivity (Some (hi32 (sd_a0 d))); [reflexivity|]. rewrite hi32_small by assumption. reflexivity.
    + transitivity (Some (hi32 (sd_a1 d))); [reflexivity|]. rewrite hi32_small by assumption. reflexivity.
    + transitivity (Some (hi32 (sd_a2 d))); [reflexivity|]. rewrite hi32_small by assumption. reflexivity.
    + transitivity (Some (hi32 (sd_a3 d))); [reflexivity|]. rewrite hi32_small by assumption. reflexivity.
    + transitivity (Some (hi32 (sd_a4 d))); [reflexivity|]. rewrite hi32_small by assumption. reflexivity.
    + transitivity (Some (hi32 (sd_a5 d))); [reflexivity|]. rewrite hi32_small by assumption. reflexivity.
Qed.

Lemma offset_u32_field : forall E prof f, exists_field f -> offset_u32 (E := E) prof f = Ok (offset f).
Proof.
  intros E prof f H. destruct f as [| | | |i|i]; try reflexivity; cbn in H;
    (assert (I : i = 0 \/ i = 1 \/ i = 2 \/ i = 3 \/ i = 4 \/ i = 5) by lia;
     destruct I as [-> | [-> | [-> | [-> | [-> | ->]]]]]; destruct prof; reflexivity).
Qed.

Lemma c12 : forall d f, wf_data d -> exists_field f ->
  (forall prof, offset_u32 (E := bpf_error) prof f = Ok (offset f)) /\
  offset f mod 4 = 0 /\ offset f < 64 /\
  (forall mem, kernel_eval_mem mem [bpf_ld ABS (offset f); bpf_ret Acc 0] d = field f d) /\
  (forall prof vm beyond, exec_insn prof (bpf_ld ABS (offset f)) vm (any_to_data d beyond) =
                          (Ok None, set_acc vm (field f d))).
Proof.
  intros d f Hd Hf. destruct (field_word f d Hd Hf) as (A & B & C).
  split; [intros prof; exact (offset_u32_field _ prof f Hf)|].
  split; [exact A|]. split; [exact B|]. split.
  - intros mem. unfold kernel_eval_mem.
    change (keval [bpf_ld ABS (offset f); bpf_ret Acc 0] 0 0 0 mem (sd_words d))
      with (nth (N.to_nat (offset f / 4)) (sd_words d) 0).
    apply nth_error_nth. exact C.
  - intros prof vm beyond.
    change (exec_insn prof (bpf_ld ABS (offset f)) vm (any_to_data d beyond))
      with (match index (E := bpf_error) (any_to_data d beyond) (offset f / 4) with
            | Ok v => (Ok (@None N), set_acc vm v)
            | Err e => (Err e, vm) | Panic => (Panic, vm) | Died k => (Died k, vm) end).
    rewrite index_cases. unfold any_to_data. rewrite nth_error_app1, C; [reflexivity|].
    apply nth_error_Some. congruence.
Qed.

Lemma c12_whole : forall d i, wf_data d -> i <= 5 ->
  field (ArgLower i) d + 2 ^ 32 * field (ArgUpper i) d = arg d i /\
  field InstrPointerLower d + 2 ^ 32 * field InstrPointerUpper d = sd_ip d.
Proof.
  intros d i _ _. cbn [field]. split; rewrite N.add_comm; symmetry; apply N.div_mod; discriminate.
Qed.

Lemma c12_distinct : forall f g, exists_field f -> exists_field g -> offset f = offset g -> f = g.
Proof.
  intros [| | | |i|i] [| | | |j|j] Hf Hg E; cbn [offset exists_field] in *; try reflexivity;
    try (exfalso; lia); f_equal; lia.
Qed.

(** * C13 *)

Lemma land_high_low : forall c, word c -> N.lor (N.land c 0xffff0000) (N.land c 0xffff) = c.
Proof.
  intros c H. rewrite <- N.land_lor_distr_r. change (N.lor 0xffff0000 0xffff) with (N.ones 32).
  rewrite N.land_ones. apply N.mod_small. exact H.
Qed.

Lemma land_low_lt : forall c, N.land c 0xffff < 2 ^ 16.
Proof. intros c. change 0xffff with (N.ones 16). rewrite N.land_ones. apply N.mod_lt. discriminate. Qed.

Lemma c13_forward : forall r, small_payload r -> ret_try_from (ret_into r) = Ok r.
Proof.
  intros r H. destruct r; try reflexivity; cbn [small_payload] in H; unfold ret_try_from, ret_into,
    SECCOMP_RET_ACTION_FULL, SECCOMP_RET_DATA.
  - fold (action_bits (N.lor SECCOMP_RET_ERRNO e)).
    rewrite action_split, ret_split by (reflexivity || exact H). reflexivity.
  - fold (action_bits (N.lor SECCOMP_RET_TRACE t)).
    rewrite action_split, ret_split by (reflexivity || exact H). reflexivity.
Qed.

(** What a code converts to. *)
Lemma ret_try_from_cases : forall c,
  match ret_try_from c with
  | Ok r => In (N.land c 0xffff0000) known_actions /\ small_payload r /\
            ((carries_data r /\ ret_into r = N.lor (N.land c 0xffff0000) (N.land c 0xffff)) \/
             (~ carries_data r /\ ret_into r = N.land c 0xffff0000))
  | Err e => ~ In (N.land c 0xffff0000) known_actions /\ e = UnsupportedReturn c
  | _ => False
  end.
Proof.
  intros c. unfold ret_try_from, SECCOMP_RET_ACTION_FULL, SECCOMP_RET_DATA, known_actions.
  pose proof (land_low_lt c) as L.
  unfold SECCOMP_RET_KILL_PROCESS, SECCOMP_RET_KILL_THREAD, SECCOMP_RET_TRAP, SECCOMP_RET_ERRNO,
    SECCOMP_RET_TRACE, SECCOMP_RET_LOG, SECCOMP_RET_ALLOW.
  repeat match goal with
  | |- context [if ?a =? ?b then _ else _] =>
      let E := fresh "E" in destruct (N.eqb_spec a b) as [E|E]; [rewrite ?E|]
  end; cbn [In small_payload carries_data ret_into]; try (split; [tauto|]; split; [exact I || exact L|]).
  1-3, 6-7: right; split; [tauto|reflexivity].
  1-2: left; split; [exact I|reflexivity].
  split; [intuition congruence|reflexivity].
Qed.

Lemma c13_exact : forall r, payload_u32 r ->
  (ret_try_from (ret_into r) = Ok r <-> small_payload r).
Proof.
  intros r _. split; [|apply c13_forward]. intros H.
  pose proof (ret_try_from_cases (ret_into r)) as C. rewrite H in C. apply C.
Qed.

Lemma c13_back : forall c r, word c -> ret_try_from c = Ok r ->
  N.land (ret_into r) 0xffff0000 = N.land c 0xffff0000 /\
  (carries_data r -> ret_into r = c) /\ (~ carries_data r -> N.land (ret_into r) 0xffff = 0).
Proof.
  intros c r W H. pose proof (ret_try_from_cases c) as C. rewrite H in C.
  destruct C as (_ & _ & [[D ->]|[D ->]]).
  - rewrite land_high_low by exact W. split; [reflexivity|]. split; [reflexivity|contradiction].
  - split; [rewrite <- N.land_assoc; reflexivity|]. split; [contradiction|].
    intros _. rewrite <- N.land_assoc. apply N.land_0_r.
Qed.

Lemma c13_recognised : forall c,
  (exists r, ret_try_from c = Ok r) <-> In (N.land c 0xffff0000) known_actions.
Proof.
  intros c. pose proof (ret_try_from_cases c) as C.
  destruct (ret_try_from c) as [r|e| |]; try contradiction.
  - split; [tauto|eauto].
  - split; [intros [r H]; discriminate|tauto].
Qed.

Lemma c13_refuted : exists r, payload_u32 r /\ r <> Allow /\ ret_into r = ret_into Allow /\
  ret_try_from (ret_into r) = Ok Allow.
Proof. exists (Errno 0x7ffa0000). repeat split; discriminate. Qed.

(** * C14: building a filter *)

Lemma mapM_app : forall E A B (f : A -> res E B) l1 l2,
  mapM f (l1 ++ l2) = (a <- mapM f l1 ;; b <- mapM f l2 ;; Ok (a ++ b)).
Proof.
  induction l1 as [|x l1 IH]; intros l2; cbn [app mapM].
  - cbn [bind]. destruct (mapM f l2); reflexivity.
  - destruct (f x); cbn [bind]; try reflexivity. rewrite IH.
    destruct (mapM f l1); cbn [bind]; try reflexivity.
    destruct (mapM f l2); reflexivity.
Qed.

Definition with_ids {A} (e : sysenv) (k : N -> N -> res pledge_error A) : res pledge_error A :=
  pid <- env_getpid e ;; tid <- env_gettid e ;; k pid tid.

Lemma build_promise : forall prof e p,
  mapM (filter_to_bpf prof e) (pfilters p) =
  if promise_eqb StdIO p then with_ids e (fun pid tid => Ok (map (frag pid tid) (pfilters p)))
  else Ok (map (frag 0 0) (pfilters p)).
Proof.
  intros prof [gp gt] p. destruct p;
    try (destruct prof; vm_compute; reflexivity).
  destruct gp as [pid|er| |d]; [destruct gt as [tid|er| |d]|..].
  - fold (ids pid tid). rewrite frags_ok. reflexivity.
  - destruct prof; vm_compute; reflexivity.
  - destruct prof; vm_compute; reflexivity.
  - destruct prof; vm_compute; reflexivity.
  - destruct prof; vm_compute; reflexivity.
  - destruct prof; vm_compute; reflexivity.
  - destruct prof; vm_compute; reflexivity.
Qed.

Lemma frag_free : forall p pid tid, promise_eqb StdIO p = false ->
  map (frag pid tid) (pfilters p) = map (frag 0 0) (pfilters p).
Proof. intros p pid tid H. destruct p; try reflexivity. discriminate. Qed.

Lemma frags_free : forall ps pid tid, existsb (promise_eqb StdIO) ps = false ->
  map (frag pid tid) (List.concat (map pfilters ps)) = map (frag 0 0) (List.concat (map pfilters ps)).
Proof.
  induction ps as [|p ps IH]; intros pid tid H; [reflexivity|].
  cbn [existsb map List.concat] in *. apply orb_false_iff in H. destruct H as [H1 H2].
  rewrite !map_app, IH by exact H2. rewrite (frag_free p pid tid H1). reflexivity.
Qed.

Lemma build_promises : forall prof e ps,
  mapM (filter_to_bpf prof e) (List.concat (map pfilters ps)) =
  if existsb (promise_eqb StdIO) ps
  then with_ids e (fun pid tid => Ok (map (frag pid tid) (List.concat (map pfilters ps))))
  else Ok (map (frag 0 0) (List.concat (map pfilters ps))).
Proof.
  intros prof e. induction ps as [|p ps IH]; [reflexivity|].
  cbn [existsb map List.concat]. rewrite mapM_app, build_promise, IH.
  destruct (promise_eqb StdIO p) eqn:Hp; cbn [orb];
    destruct (existsb (promise_eqb StdIO) ps) eqn:Hs; unfold with_ids;
    try (destruct (env_getpid e) as [pid|er| |d]; cbn [bind]; try reflexivity;
         destruct (env_gettid e) as [tid|er| |d]; cbn [bind]; try reflexivity);
    rewrite ?map_app; try reflexivity.
  - rewrite (frags_free ps pid tid Hs). reflexivity.
  - rewrite (frag_free p pid tid Hp). reflexivity.
Qed.

Lemma pcode_free : forall ps v pid tid, existsb (promise_eqb StdIO) ps = false ->
  pcode pid tid ps v = pcode 0 0 ps v.
Proof.
  intros ps v pid tid H. unfold pcode, fcode, all_filters.
  rewrite (frags_free (Default :: ps) pid tid); [reflexivity|exact H].
Qed.

Lemma build : forall prof e ps v,
  promises_to_prog prof e ps v =
  if existsb (promise_eqb StdIO) ps
  then with_ids e (fun pid tid => Ok (pcode pid tid ps v))
  else Ok (pcode 0 0 ps v).
Proof.
  intros prof e ps v. unfold promises_to_prog. rewrite promises_to_filters_ok. cbn [bind].
  unfold filters_to_prog, all_filters. rewrite build_promises.
  change (existsb (promise_eqb StdIO) (Default :: ps)) with (existsb (promise_eqb StdIO) ps).
  destruct (existsb (promise_eqb StdIO) ps); [|apply assemble_ok].
  unfold with_ids. destruct (env_getpid e); cbn [bind]; try reflexivity.
  destruct (env_gettid e); reflexivity.
Qed.

(** * Simple code: loads, masks, comparisons, forward jumps, constant returns *)

Definition simple (f : sock_filter) : bool :=
  existsb (N.eqb (sf_code f)) simple_codes && (negb (sf_code f =? 0x20) || (sf_k f <? 64)).

Lemma simple_code : forall f, simple f = true ->
  (sf_code f = 0x20 /\ sf_k f < 64) \/ sf_code f = 0x54 \/ sf_code f = 0x15 \/
  sf_code f = 0x25 \/ sf_code f = 0x05 \/ sf_code f = 0x06.
Proof.
  intros f H. unfold simple in H. apply andb_true_iff in H. destruct H as [H K].
  apply existsb_exists in H. destruct H as [c [Hin E]]. apply N.eqb_eq in E. subst c.
  cbn [In simple_codes] in Hin.
  destruct Hin as [E|[E|[E|[E|[E|[E|[]]]]]]]; rewrite <- E in *; auto 10.
  left. split; [reflexivity|]. cbn in K. apply N.ltb_lt in K. exact K.
Qed.

Lemma frag_simple : forall pid tid f, forallb simple (frag pid tid f) = true.
Proof. intros pid tid f. destruct f; reflexivity. Qed.

Lemma forallb_concat : forall A B (p : B -> bool) (g : A -> list B) l,
  (forall a, forallb p (g a) = true) -> forallb p (List.concat (map g l)) = true.
Proof.
  intros A B p g l H. induction l as [|a l IH]; [reflexivity|].
  cbn [map List.concat]. rewrite forallb_app, H, IH. reflexivity.
Qed.

Lemma gcode_simple : forall rs v, forallb simple (gcode rs v) = true.
Proof.
  intros. unfold gcode. rewrite !forallb_app.
  rewrite forallb_concat by (intros r; apply frag_simple). reflexivity.
Qed.
Lemma pcode_simple : forall pid tid ps v, forallb simple (pcode pid tid ps v) = true.
Proof. intros. rewrite pcode_gcode. apply gcode_simple. Qed.

Lemma simple_go : forall prof d beyond code skip a x m mem,
  forallb simple code = true ->
  go prof code skip a x m (any_to_data d beyond) = Ok (keval code skip a x mem (sd_words d)).
Proof.
  intros prof d beyond. induction code as [|f code IH]; intros skip a x m mem H; [reflexivity|].
  cbn [forallb] in H. apply andb_true_iff in H. destruct H as [Hf H].
  cbn [go keval]. destruct (skip =? 0); cbn [negb]; [|apply IH; exact H].
  apply simple_code in Hf. destruct f as [c jt jf k]. cbn [sf_code sf_k sf_jt sf_jf] in *.
  destruct Hf as [[-> K]|[->|[->|[->|[->| ->]]]]].
  - rewrite s_ldabs, index_cases. unfold any_to_data.
    assert (K' : (N.to_nat (k / 4) < length (sd_words d))%nat).
    { rewrite sd_words_length. assert (k / 4 < 16) by (apply N.div_lt_upper_bound; lia). lia. }
    rewrite nth_error_app1 by exact K'.
    destruct (nth_error (sd_words d) (N.to_nat (k / 4))) as [w|] eqn:E;
      [|apply nth_error_None in E; lia].
    cbn [vm_pc vm_acc vm_idx vm_mem st_vm]. cbn [kdecode]. rewrite (nth_error_nth _ _ 0 E).
    apply IH. exact H.
  - change 0x54 with (kencode (KAlu KAnd false)) at 1. rewrite (s_alu prof a x jt jf k m (any_to_data d beyond) KAnd false).
    cbn [vm_pc vm_acc vm_idx vm_mem st_vm kdecode kalu_eval]. apply IH. exact H.
  - change 0x15 with (kencode (KJcc KJeq false)) at 1. rewrite (s_jcc prof a x jt jf k m (any_to_data d beyond) KJeq).
    cbn [vm_pc vm_acc vm_idx vm_mem kdecode kcmp_eval]. rewrite N.add_0_l. apply IH. exact H.
  - change 0x25 with (kencode (KJcc KJgt false)) at 1. rewrite (s_jcc prof a x jt jf k m (any_to_data d beyond) KJgt).
    cbn [vm_pc vm_acc vm_idx vm_mem kdecode kcmp_eval]. rewrite N.add_0_l. apply IH. exact H.
  - rewrite s_ja. cbn [vm_pc vm_acc vm_idx vm_mem kdecode]. rewrite N.add_0_l. apply IH. exact H.
  - rewrite s_retk. reflexivity.
Qed.

(** The VM on a generated filter of any length (C15). *)
Lemma c15_vm : forall prof pid tid ps v prog vm d beyond mem,
  filter_for prof pid tid ps v prog -> vm_prog vm = prog ->
  forall prof', fst (vm_run prof' vm (any_to_data d beyond)) =
                Finished (Ok (kernel_eval_mem mem prog d)).
Proof.
  intros prof pid tid ps v prog vm d beyond mem H Hv prof'.
  rewrite vm_run_go, Hv, (filter_for_pcode _ _ _ _ _ _ H).
  rewrite (simple_go prof' d beyond (pcode pid tid ps v) 0 0 0 (repeat 0 16) mem);
    [reflexivity|apply pcode_simple].
Qed.

(** * C36: kernel checks *)

(** [p] passes when at least [n] instructions follow. *)
Fixpoint checks (p : list sock_filter) (n : N) : bool :=
  match p with
  | [] => true
  | f :: p' => check_insn f (N.of_nat (length p') + n) && checks p' n
  end.

Lemma check_insn_mono : forall f m n, m <= n -> check_insn f m = true -> check_insn f n = true.
Proof.
  intros f m n L H. unfold check_insn in *.
  destruct (kdecode (sf_code f)) as [i|]; [|discriminate].
  destruct i; try exact H; rewrite ?andb_true_iff, ?N.ltb_lt in *; lia.
Qed.
Lemma checks_mono : forall p m n, m <= n -> checks p m = true -> checks p n = true.
Proof.
  induction p as [|f p IH]; intros m n L H; [reflexivity|].
  cbn [checks] in *. apply andb_true_iff in H. destruct H as [H1 H2]. apply andb_true_iff. split.
  - revert H1. apply check_insn_mono. lia.
  - exact (IH m n L H2).
Qed.
Lemma check_insns_app : forall p q,
  check_insns (p ++ q) = checks p (N.of_nat (length q)) && check_insns q.
Proof.
  induction p as [|f p IH]; intros q; [reflexivity|].
  cbn [app check_insns checks]. rewrite IH, app_length, andb_assoc. do 2 f_equal.
  rewrite Nat2N.inj_add. reflexivity.
Qed.
Lemma checks_app : forall p q n,
  checks (p ++ q) n = checks p (N.of_nat (length q) + n) && checks q n.
Proof.
  induction p as [|f p IH]; intros q n; [reflexivity|].
  cbn [app checks]. rewrite IH, app_length, andb_assoc. do 2 f_equal. f_equal. lia.
Qed.

Lemma frag_checks : forall pid tid f, checks (frag pid tid f) 1 = true.
Proof. intros pid tid f. destruct f; reflexivity. Qed.

Lemma frags_checks : forall rs n, 1 <= n ->
  checks (List.concat (map rfrag rs)) n = true.
Proof.
  induction rs as [|f fs IH]; intros n Hn; [reflexivity|].
  cbn [map List.concat]. rewrite checks_app, IH by exact Hn. rewrite andb_true_r.
  apply checks_mono with 1; [lia|apply frag_checks].
Qed.

Lemma gcode_checks : forall rs v, check_insns (gcode rs v) = true.
Proof.
  intros. unfold gcode. rewrite app_assoc, check_insns_app, checks_app.
  rewrite frags_checks by (cbn; lia). rewrite andb_true_r.
  change (check_insns [SockFilter 6 0 0 (ret_into v)]) with true. rewrite andb_true_r.
  apply checks_mono with 0; [lia|reflexivity].
Qed.

Lemma pcode_checks : forall pid tid ps v, check_insns (pcode pid tid ps v) = true.
Proof. intros. rewrite pcode_gcode. apply gcode_checks. Qed.

Lemma ends_in_ret_snoc : forall p f, ends_in_ret (p ++ [f]) = ends_in_ret [f].
Proof.
  induction p as [|g p IH]; intros f; [reflexivity|].
  cbn [app]. rewrite <- (IH f). destruct p; reflexivity.
Qed.
Lemma ends_in_ret_app : forall p q, q <> [] -> ends_in_ret (p ++ q) = ends_in_ret q.
Proof.
  intros p q H. destruct (exists_last H) as [q' [f ->]].
  rewrite app_assoc, !ends_in_ret_snoc. reflexivity.
Qed.

Lemma simple_mem : forall p mv ms, forallb simple p = true -> check_mem p mv ms = true.
Proof.
  induction p as [|f p IH]; intros mv ms H; [reflexivity|].
  cbn [forallb] in H. apply andb_true_iff in H. destruct H as [Hf H].
  apply simple_code in Hf. cbn [check_mem].
  destruct Hf as [[-> _]|[->|[->|[->|[->| ->]]]]]; cbn [kdecode]; apply IH; exact H.
Qed.

Lemma gcode_accepts : forall rs v,
  kernel_accepts (gcode rs v) = (N.of_nat (length (gcode rs v)) <=? 4096).
Proof.
  intros. unfold kernel_accepts. rewrite gcode_checks.
  rewrite (simple_mem _ _ _ (gcode_simple rs v)).
  assert (E : ends_in_ret (gcode rs v) = true).
  { unfold gcode. rewrite app_assoc, ends_in_ret_snoc. reflexivity. }
  rewrite E, !andb_true_r. destruct (N.ltb_spec 0 (N.of_nat (length (gcode rs v)))) as [L|L].
  - reflexivity.
  - exfalso. assert (X : (4 <= length (gcode rs v))%nat)
      by (unfold gcode, header_code; rewrite app_length; cbn; lia). lia.
Qed.
Lemma pcode_accepts : forall pid tid ps v,
  kernel_accepts (pcode pid tid ps v) = (N.of_nat (length (pcode pid tid ps v)) <=? 4096).
Proof. intros. rewrite pcode_gcode. apply gcode_accepts. Qed.

Definition plen (p : Promise) : nat := length (List.concat (map (frag 0 0) (pfilters p))).
Fixpoint total (ps : list Promise) : nat :=
  match ps with [] => 0 | p :: ps' => plen p + total ps' end.

Lemma frag_length : forall pid tid f, length (frag pid tid f) = length (frag 0 0 f).
Proof. intros. destruct f; reflexivity. Qed.
Lemma frags_length : forall rs,
  length (List.concat (map rfrag rs)) = length (List.concat (map (frag 0 0) (map fst rs))).
Proof.
  induction rs as [|r rs IH]; [reflexivity|].
  cbn [map List.concat]. rewrite !app_length, IH. unfold rfrag. rewrite frag_length. reflexivity.
Qed.
Lemma frags_total : forall ps,
  length (List.concat (map (frag 0 0) (List.concat (map pfilters ps)))) = total ps.
Proof.
  induction ps as [|p ps IH]; [reflexivity|].
  cbn [map List.concat total]. rewrite map_app, concat_app, app_length, IH. reflexivity.
Qed.
Lemma gcode_length : forall rs ps v, map fst rs = all_filters ps ->
  length (gcode rs v) = (5 + total (Default :: ps))%nat.
Proof.
  intros rs ps v H. unfold gcode. rewrite !app_length, frags_length, H. unfold all_filters.
  rewrite frags_total. change (length header_code) with 4%nat. cbn [length]. lia.
Qed.
Lemma same_fst : forall pid tid fs, map fst (map (with_same pid tid) fs) = fs.
Proof. intros. rewrite map_map. apply map_id. Qed.
Lemma pcode_length : forall pid tid ps v,
  length (pcode pid tid ps v) = (5 + total (Default :: ps))%nat.
Proof. intros. rewrite pcode_gcode. apply gcode_length, same_fst. Qed.

Lemma total_app : forall a b, total (a ++ b) = (total a + total b)%nat.
Proof. induction a as [|p a IH]; intros b; cbn [app total]; [reflexivity|]. rewrite IH. lia. Qed.

Lemma total_nodup : forall ps qs, NoDup ps -> incl ps qs -> (total ps <= total qs)%nat.
Proof.
  induction ps as [|p ps IH]; intros qs N I; [cbn; lia|].
  inversion N as [|? ? Hn N']; subst.
  destruct (in_split p qs (I p (or_introl eq_refl))) as [q1 [q2 ->]].
  assert (X : (total ps <= total (q1 ++ q2))%nat).
  { apply IH; [exact N'|]. intros x Hx. specialize (I x (or_intror Hx)).
    apply in_app_iff in I. apply in_app_iff. destruct I as [I|[I|I]]; auto. subst. contradiction. }
  rewrite total_app in *. cbn [total]. lia.
Qed.

Lemma all_total : (total (Default :: all_promises) <= 1000)%nat.
Proof. apply Nat.leb_le. vm_compute. reflexivity. Qed.

Lemma nodup_small : forall pid tid ps v, NoDup ps ->
  N.of_nat (length (pcode pid tid ps v)) <= 1005.
Proof.
  intros pid tid ps v H. rewrite pcode_length.
  assert (T : (total ps <= total all_promises)%nat)
    by (apply total_nodup; [exact H|intros p _; apply all_promises_complete]).
  pose proof all_total as A. cbn [total] in *. lia.
Qed.

Lemma c36 : forall prof pid tid ps v prog, filter_for prof pid tid ps v prog ->
  (kernel_accepts prog = true <-> N.of_nat (length prog) <= 4096) /\
  (NoDup ps -> kernel_accepts prog = true).
Proof.
  intros prof pid tid ps v prog H. rewrite (filter_for_pcode _ _ _ _ _ _ H), pcode_accepts.
  rewrite N.leb_le. split; [reflexivity|]. intros N. pose proof (nodup_small pid tid ps v N). lia.
Qed.

(** * C37: prefixes *)

Definition bad (p : list sock_filter) : bool := negb (check_insns p) || negb (ends_in_ret p).
Definition all_bad (c : list sock_filter) : bool :=
  forallb (fun j => bad (firstn j c)) (seq 1 (length c)).

Lemma frag_bad : forall pid tid f, all_bad (frag pid tid f) = true.
Proof. intros pid tid f. destruct f; reflexivity. Qed.
Lemma header_bad : all_bad header_code = true.
Proof. reflexivity. Qed.

Lemma bad_refused : forall X Y, Y <> [] -> bad Y = true -> kernel_accepts (X ++ Y) = false.
Proof.
  intros X Y HY H. unfold kernel_accepts. rewrite check_insns_app, ends_in_ret_app by exact HY.
  unfold bad in H. destruct (check_insns Y), (ends_in_ret Y); try discriminate;
    rewrite ?andb_false_r; reflexivity.
Qed.

Lemma prefix_of_concat : forall (cs : list (list sock_filter)) j,
  (0 < j <= length (List.concat cs))%nat ->
  exists X c i, In c cs /\ (0 < i <= length c)%nat /\ firstn j (List.concat cs) = X ++ firstn i c.
Proof.
  induction cs as [|c cs IH]; intros j H; cbn [List.concat length] in *; [lia|].
  rewrite app_length in H. destruct (Nat.le_gt_cases j (length c)) as [L|L].
  - exists [], c, j. split; [left; reflexivity|]. split; [lia|].
    rewrite firstn_app. replace (j - length c)%nat with 0%nat by lia.
    rewrite firstn_O, app_nil_r. reflexivity.
  - destruct (IH (j - length c)%nat ltac:(lia)) as (X & c' & i & Hc & Hi & E).
    exists (c ++ X), c', i. split; [right; exact Hc|]. split; [exact Hi|].
    rewrite firstn_app, firstn_all2 by lia. rewrite E, app_assoc. reflexivity.
Qed.

Lemma gprefix_refused : forall rs v n, (n < length (gcode rs v))%nat ->
  kernel_accepts (firstn n (gcode rs v)) = false.
Proof.
  intros rs v n H. destruct (Nat.eq_dec n 0) as [->|Hn]; [reflexivity|].
  unfold gcode in *.
  set (cs := header_code :: map rfrag rs).
  assert (E : header_code ++ List.concat (map rfrag rs) ++
              [SockFilter 6 0 0 (ret_into v)]
            = List.concat cs ++ [SockFilter 6 0 0 (ret_into v)])
    by (cbn [cs List.concat]; rewrite app_assoc; reflexivity).
  rewrite E in *. rewrite app_length in H. cbn [length] in H.
  rewrite firstn_app. replace (n - length (List.concat cs))%nat with 0%nat by lia.
  rewrite firstn_O, app_nil_r.
  destruct (prefix_of_concat cs n ltac:(lia)) as (X & c & i & Hc & Hi & ->).
  apply bad_refused.
  - destruct c; [cbn in Hi; lia|]. destruct i; [lia|]. discriminate.
  - assert (A : all_bad c = true).
    { destruct Hc as [<-|Hc]; [apply header_bad|]. apply in_map_iff in Hc.
      destruct Hc as [f [<- _]]. apply frag_bad. }
    unfold all_bad in A. rewrite forallb_forall in A. apply A. apply in_seq. lia.
Qed.
Lemma prefix_refused : forall pid tid ps v n, (n < length (pcode pid tid ps v))%nat ->
  kernel_accepts (firstn n (pcode pid tid ps v)) = false.
Proof. intros pid tid ps v n. rewrite pcode_gcode. apply gprefix_refused. Qed.

(** * C46 *)

Lemma ktrace_subset : forall prog skip a x mem w f, In f (ktrace prog skip a x mem w) -> In f prog.
Proof.
  induction prog as [|g prog IH]; intros skip a x mem w f H; [contradiction|].
  cbn [ktrace] in H. destruct (negb (skip =? 0)); [right; eapply IH; exact H|].
  destruct H as [H|H]; [left; exact H|right].
  destruct (kdecode (sf_code g)) as [i|]; [|contradiction].
  destruct i as [ | | | | | | | | |op sx| | |c sx| | | | ]; try (eapply IH; exact H); try contradiction.
  destruct (kalu_eval op a (if sx then x else sf_k g)); [eapply IH; exact H|contradiction].
Qed.

Lemma ktrace_length : forall prog skip a x mem w,
  (length (ktrace prog skip a x mem w) <= length prog)%nat.
Proof.
  induction prog as [|g prog IH]; intros skip a x mem w; [cbn; lia|].
  cbn [ktrace]. destruct (negb (skip =? 0)); [specialize (IH (skip - 1) a x mem w); cbn; lia|].
  cbn [length]. apply le_n_S.
  destruct (kdecode (sf_code g)) as [i|]; [|cbn; lia].
  destruct i as [ | | | | | | | | |op sx| | |c sx| | | | ]; try apply IH; try (cbn; lia).
  destruct (kalu_eval op a (if sx then x else sf_k g)); [apply IH|cbn; lia].
Qed.

(** How an accepted filter ends: by a return, or by dividing by zero. *)
Definition ending (t : list sock_filter) (result : N) : Prop :=
  exists before f, t = before ++ [f] /\
    ((sf_code f = 0x06 /\ result = sf_k f) \/ sf_code f = 0x16 \/ (sf_code f = 0x3c /\ result = 0)).

Lemma ending_cons : forall g t r, ending t r -> ending (g :: t) r.
Proof. intros g t r (b & f & -> & H). exists (g :: b), f. split; [reflexivity|exact H]. Qed.

Lemma ktrace_ends : forall prog skip a x mem w,
  check_insns prog = true -> ends_in_ret prog = true -> skip < N.of_nat (length prog) ->
  ending (ktrace prog skip a x mem w) (keval prog skip a x mem w).
Proof.
  induction prog as [|g prog IH]; intros skip a x mem w C E L; [cbn in L; lia|].
  cbn [check_insns] in C. apply andb_true_iff in C. destruct C as [Cg C].
  cbn [ktrace keval].
  assert (RET : forall i, kdecode (sf_code g) = Some i ->
    i <> KRetK -> i <> KRetA -> ends_in_ret prog = true /\ (0 < length prog)%nat).
  { intros i D N1 N2. destruct prog as [|h prog]; [|split; [exact E|cbn; lia]].
    cbn [ends_in_ret] in E. rewrite D in E. destruct i; congruence. }
  destruct (N.eqb_spec skip 0) as [->|Hs]; cbn [negb].
  - unfold check_insn in Cg. destruct (kdecode (sf_code g)) as [i|] eqn:D; [|discriminate].
    pose proof (kdecode_sound _ _ D) as K.
    destruct i as [ | | | | | | | | |op sx| | |c sx| | | | ].
    16:{ exists [], g. split; [reflexivity|]. left. split; [exact K|reflexivity]. }
    16:{ exists [], g. split; [reflexivity|]. right. left. exact K. }
    all: destruct (RET _ eq_refl ltac:(discriminate) ltac:(discriminate)) as [E' L'].
    all: try (apply ending_cons; apply IH; [exact C|exact E'|lia]).
    + destruct (kalu_eval op a (if sx then x else sf_k g)) as [v|] eqn:V.
      * apply ending_cons; apply IH; [exact C|exact E'|lia].
      * exists [], g. split; [reflexivity|]. right. right. split; [|reflexivity].
        destruct op; try discriminate. destruct sx; [exact K|]. exfalso.
        cbn [kalu_eval] in V. destruct (N.eqb_spec (sf_k g) 0) as [Z|Z]; [|discriminate].
        discriminate Cg.
    + apply N.ltb_lt in Cg. apply ending_cons; apply IH; assumption.
    + apply andb_true_iff in Cg. destruct Cg as [C1 C2]. apply N.ltb_lt in C1, C2.
      apply ending_cons; apply IH; [exact C|exact E'|].
      destruct (kcmp_eval c a (if sx then x else sf_k g)); assumption.
  - cbn [length] in L. destruct prog as [|h prog]; [cbn in L; lia|].
    apply IH; [exact C|exact E|]. lia.
Qed.

Lemma c46 : forall prof pid tid ps v prog mem d, filter_for prof pid tid ps v prog ->
  let t := ktrace prog 0 0 0 mem (sd_words d) in
  (length t <= length prog)%nat /\
  (forall f, In f t -> In (sf_code f) simple_codes) /\
  exists before f, t = before ++ [f] /\ sf_code f = 0x06 /\ kernel_eval_mem mem prog d = sf_k f.
Proof.
  intros prof pid tid ps v prog mem d H. pose proof (filter_for_pcode _ _ _ _ _ _ H) as ->. intros t.
  assert (S : forall f, In f t -> In (sf_code f) simple_codes).
  { intros f Hf. apply ktrace_subset in Hf. pose proof (pcode_simple pid tid ps v) as P.
    rewrite forallb_forall in P. specialize (P f Hf). apply simple_code in P. cbn. intuition. }
  split; [apply ktrace_length|]. split; [exact S|].
  assert (E : ends_in_ret (pcode pid tid ps v) = true).
  { unfold pcode, fcode. rewrite app_assoc, ends_in_ret_snoc. reflexivity. }
  destruct (ktrace_ends (pcode pid tid ps v) 0 0 0 mem (sd_words d)) as (b & f & T & R).
  - apply pcode_checks.
  - exact E.
  - rewrite pcode_length. lia.
  - exists b, f. split; [exact T|].
    assert (In (sf_code f) simple_codes)
      by (apply S; unfold t; rewrite T; apply in_or_app; right; left; reflexivity).
    destruct R as [[R1 R2]|[R|[R _]]]; [auto|..]; rewrite R in H0; cbn in H0; exfalso; intuition lia.
Qed.

(** Any filter the kernel accepts ends in a return or a division by zero, never off its end. *)
Lemma c46_accepted : forall prog mem d, kernel_accepts prog = true ->
  let t := ktrace prog 0 0 0 mem (sd_words d) in
  (length t <= 4096)%nat /\
  exists before f, t = before ++ [f] /\ (sf_code f = 0x06 \/ sf_code f = 0x16 \/ sf_code f = 0x3c).
Proof.
  intros prog mem d K t. unfold kernel_accepts in K. rewrite !andb_true_iff in K.
  destruct K as [[[[K1 K2] K3] K4] _]. apply N.ltb_lt in K1. apply N.leb_le in K2.
  pose proof (ktrace_length prog 0 0 0 mem (sd_words d)) as L.
  change BPF_MAXINSNS with 4096 in K2. split; [unfold t; lia|].
  destruct (ktrace_ends prog 0 0 0 mem (sd_words d) K3 K4 K1) as (b & f & T & R).
  exists b, f. split; [exact T|]. tauto.
Qed.
