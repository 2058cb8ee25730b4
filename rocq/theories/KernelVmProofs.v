(** The VM against the kernel evaluator. *)
From Coq Require Import NArith ZArith String List Bool Lia.
From Verif Require Import Libc Machine Bpf SeccompRet Asm Vm Promises Filters Kernel World Spec
  FragProofs VmProofs.
Import ListNotations.
Local Open Scope N_scope.

(** * Opcodes *)

Definition kencode (i : kinsn) : N :=
  match i with
  | KLdAbs => 0x20 | KLdLen => 0x80 | KLdxLen => 0x81 | KLdImm => 0x00 | KLdxImm => 0x01
  | KLdMem => 0x60 | KLdxMem => 0x61 | KSt => 0x02 | KStx => 0x03
  | KAlu op x =>
      (match op with KAdd => 0x04 | KSub => 0x14 | KMul => 0x24 | KDiv => 0x34 | KOr => 0x44
                | KAnd => 0x54 | KLsh => 0x64 | KRsh => 0x74 | KXor => 0xa4 end)
      + (if x then 8 else 0)
  | KNeg => 0x84 | KJa => 0x05
  | KJcc c x =>
      (match c with KJeq => 0x15 | KJgt => 0x25 | KJge => 0x35 | KJset => 0x45 end)
      + (if x then 8 else 0)
  | KTax => 0x07 | KTxa => 0x87 | KRetK => 0x06 | KRetA => 0x16
  end.

Lemma kdecode_sound : forall c i, kdecode c = Some i -> c = kencode i.
Proof.
  intros c i H. unfold kdecode in H.
  repeat match type of H with
  | match ?c with _ => _ end = _ => destruct c
  end; try discriminate; injection H as <-; reflexivity.
Qed.

(** * Scratch memory *)

Definition agree (s : N) (m mk : list N) : Prop :=
  forall i, i < 16 -> N.testbit s i = true -> nth_error m (N.to_nat i) = nth_error mk (N.to_nat i).

Lemma agree_sub : forall s s' m mk,
  (forall i, N.testbit s' i = true -> N.testbit s i = true) -> agree s m mk -> agree s' m mk.
Proof. intros s s' m mk H A i Hi B. apply A; auto. Qed.

Lemma all_valid_bit : forall i, N.testbit all_valid i = true <-> i < 16.
Proof.
  intros i. change all_valid with (N.ones 16). split.
  - intros H. destruct (N.lt_ge_cases i 16) as [L|L]; [exact L|].
    rewrite N.ones_spec_high in H by exact L. discriminate.
  - intros H. apply N.ones_spec_low. exact H.
Qed.

(** [mask_at] only removes bits, and at its index it keeps only bits of [v]. *)
Lemma mask_at_sub : forall i ms v j b,
  N.testbit (nth j (mask_at ms i v) all_valid) b = true -> b < 16 ->
  N.testbit (nth j ms all_valid) b = true /\ (j = i -> N.testbit v b = true).
Proof.
  induction i as [|i IH]; intros ms v j b H Hb.
  - destruct ms as [|m ms]; destruct j as [|j]; cbn [mask_at nth] in *.
    + split; [apply all_valid_bit; exact Hb|intros _; exact H].
    + split; [|discriminate]. destruct j; apply all_valid_bit; exact Hb.
    + rewrite N.land_spec in H. apply andb_true_iff in H. tauto.
    + split; [exact H|discriminate].
  - destruct ms as [|m ms]; destruct j as [|j]; cbn [mask_at nth] in *.
    + split; [exact H|discriminate].
    + apply IH in H; [|exact Hb]. destruct H as [_ H]. split; [apply all_valid_bit; exact Hb|].
      intros E. apply H. congruence.
    + split; [exact H|discriminate].
    + apply IH in H; [|exact Hb]. destruct H as [H1 H2]. split; [exact H1|].
      intros E. apply H2. congruence.
Qed.

Lemma nth_tl : forall (l : list N) j d, nth j (tl l) d = nth (S j) l d.
Proof. destruct l as [|a l]; intros j d; [destruct j; reflexivity|reflexivity]. Qed.

Lemma list_set_nth_error : forall A (l : list A) i j v,
  nth_error (list_set l i v) j =
  if Nat.eqb i j then match nth_error l j with Some _ => Some v | None => None end
  else nth_error l j.
Proof.
  induction l as [|a l IH]; intros [|i] [|j] v; cbn; auto.
  destruct (Nat.eqb i j); reflexivity.
Qed.

Lemma agree_set : forall s m mk k v, k < 16 -> length m = 16%nat -> length mk = 16%nat ->
  agree s m mk ->
  agree (N.lor s (N.shiftl 1 k)) (list_set m (N.to_nat k) v) (list_set mk (N.to_nat k) v).
Proof.
  intros s m mk k v Hk Lm Lk A i Hi B. rewrite !list_set_nth_error.
  destruct (Nat.eqb_spec (N.to_nat k) (N.to_nat i)) as [E|E].
  - destruct (nth_error m (N.to_nat i)) eqn:E1; [|apply nth_error_None in E1; lia].
    destruct (nth_error mk (N.to_nat i)) eqn:E2; [reflexivity|apply nth_error_None in E2; lia].
  - apply A; [exact Hi|]. rewrite N.lor_spec in B. apply orb_true_iff in B.
    destruct B as [B|B]; [exact B|]. rewrite N.shiftl_1_l in B.
    rewrite N.pow2_bits_false in B by lia. discriminate.
Qed.

(** * Instructions *)

Section Step.
Variables (prof : profile) (a x jt jf k : N) (m data : list N).
Notation step c := (exec_insn prof (SockFilter c jt jf k) (st_vm a x m) data).
Notation on_res r f :=
  (match r with Ok v => (Ok None, f v) | Err e => (Err e, st_vm a x m) | Panic => (Panic, st_vm a x m)
              | Died d => (Died d, st_vm a x m) end).
Lemma s_ldabs : step 0x20 = on_res (index (E := bpf_error) data (k / 4)) (fun v => st_vm v x m).
Proof. reflexivity. Qed.
Lemma s_ldlen : step 0x80 = (Ok None, st_vm (as_u32 (N.of_nat (length data))) x m).
Proof. reflexivity. Qed.
Lemma s_ldxlen : step 0x81 = (Ok None, st_vm a (as_u32 (N.of_nat (length data))) m).
Proof. reflexivity. Qed.
Lemma s_ldimm : step 0x00 = (Ok None, st_vm k x m).
Proof. reflexivity. Qed.
Lemma s_ldximm : step 0x01 = (Ok None, st_vm a k m).
Proof. reflexivity. Qed.
Lemma s_ldmem : step 0x60 = on_res (index (E := bpf_error) m k) (fun v => st_vm v x m).
Proof. reflexivity. Qed.
Lemma s_ldxmem : step 0x61 = on_res (index (E := bpf_error) m k) (fun v => st_vm a v m).
Proof. reflexivity. Qed.
Lemma s_st : step 0x02 = on_res (index_set (E := bpf_error) m k a) (fun v => st_vm a x v).
Proof. reflexivity. Qed.
Lemma s_stx : step 0x03 = on_res (index_set (E := bpf_error) m k x) (fun v => st_vm a x v).
Proof. reflexivity. Qed.
Lemma s_alu : forall op sx, step (kencode (KAlu op sx)) =
  on_res (match op with
          | KAdd => add_u32 (E := bpf_error) prof a (if sx then x else k)
          | KSub => sub_u32 prof a (if sx then x else k)
          | KMul => mul_u32 prof a (if sx then x else k)
          | KDiv => div_u32 a (if sx then x else k)
          | KOr => Ok (N.lor a (if sx then x else k))
          | KAnd => Ok (N.land a (if sx then x else k))
          | KLsh => shl_u32 prof a (if sx then x else k)
          | KRsh => shr_u32 prof a (if sx then x else k)
          | KXor => Ok (N.lxor a (if sx then x else k))
          end) (fun v => st_vm v x m).
Proof. destruct op, sx; reflexivity. Qed.
Lemma s_ja : step 0x05 = (Ok None, mkVM (0 + k) a x m []).
Proof. reflexivity. Qed.
Lemma s_jcc : forall c, step (kencode (KJcc c false)) =
  (Ok None, mkVM (0 + (if match c with KJeq => a =? k | KJgt => k <? a | KJge => k <=? a
                           | KJset => 0 <? N.land a k end then jt else jf)) a x m []).
Proof. destruct c; reflexivity. Qed.
Lemma s_neg : step 0x84 = (Err (UnsupportedInstruction 0x80), st_vm a x m).
Proof. reflexivity. Qed.
Lemma s_tax : step 0x07 = (Err (UnsupportedInstruction 0x07), st_vm a x m).
Proof. reflexivity. Qed.
Lemma s_txa : step 0x87 = (Err (UnsupportedInstruction 0x07), st_vm a x m).
Proof. reflexivity. Qed.
Lemma s_retk : step 0x06 = (Ok (Some k), st_vm a x m).
Proof. reflexivity. Qed.
Lemma s_reta : step 0x16 = (Ok (Some a), st_vm a x m).
Proof. reflexivity. Qed.
End Step.

(** ALU agreement. *)
Definition alu_vm (prof : profile) (op : kalu) (a b : N) : res bpf_error N :=
  match op with
  | KAdd => add_u32 prof a b | KSub => sub_u32 prof a b | KMul => mul_u32 prof a b
  | KDiv => div_u32 a b | KOr => Ok (N.lor a b) | KAnd => Ok (N.land a b)
  | KLsh => shl_u32 prof a b | KRsh => shr_u32 prof a b | KXor => Ok (N.lxor a b)
  end.

Lemma alu_agree : forall prof op a b, word a -> word b ->
  match alu_vm prof op a b with
  | Ok v => kalu_eval op a b = Some v /\ word v
  | Panic => prof = Debug \/ (op = KDiv /\ b = 0 /\ kalu_eval op a b = None)
  | _ => False
  end.
Proof.
  intros prof op a b Ha Hb.
  assert (M : forall n, word (n mod u32_mod)) by apply word_mod.
  destruct op; cbn [alu_vm kalu_eval].
  - unfold add_u32. destruct (N.ltb_spec (a + b) u32_mod) as [L|L].
    + split; [|exact L]. rewrite N.mod_small by exact L. reflexivity.
    + destruct prof; [left; reflexivity|split; [reflexivity|apply M]].
  - unfold sub_u32, sub_mod. destruct (N.leb_spec b a) as [L|L].
    + split; [|apply word_le with a; [lia|exact Ha]]. f_equal.
      replace (a + u32_mod - b) with (a - b + 1 * u32_mod) by lia.
      rewrite N.mod_add by discriminate. apply N.mod_small.
      unfold word in Ha. rewrite u32_mod_val. lia.
    + destruct prof; [left; reflexivity|split; [reflexivity|apply M]].
  - unfold mul_u32. destruct (N.ltb_spec (a * b) u32_mod) as [L|L].
    + split; [|exact L]. rewrite N.mod_small by exact L. reflexivity.
    + destruct prof; [left; reflexivity|split; [reflexivity|apply M]].
  - unfold div_u32. destruct (N.eqb_spec b 0) as [->|L].
    + right. auto.
    + split; [reflexivity|]. apply word_le with a; [|exact Ha].
      apply N.div_le_upper_bound; [exact L|nia].
  - split; [reflexivity|apply word_lor; assumption].
  - split; [reflexivity|apply word_land; assumption].
  - unfold shl_u32. destruct (N.ltb_spec b 32) as [L|L].
    + rewrite (N.mod_small b 32) by exact L. split; [reflexivity|apply M].
    + destruct prof; [left; reflexivity|split; [reflexivity|apply M]].
  - unfold shr_u32. destruct (N.ltb_spec b 32) as [L|L].
    + rewrite (N.mod_small b 32) by exact L. split; [reflexivity|apply word_shiftr; exact Ha].
    + destruct prof; [left; reflexivity|split; [reflexivity|apply word_shiftr; exact Ha]].
  - split; [reflexivity|apply word_lxor; assumption].
Qed.

(** * Simulation *)

Definition matches (prof : profile) (code : list sock_filter) (g : res bpf_error N) (k : N) : Prop :=
  match g with
  | Ok v => k = v
  | Panic => prof = Debug \/ (k = 0 /\ Exists divides_by_index code)
  | Err e => Exists (vm_lacks e) code
  | Died _ => False
  end.

Lemma matches_cons : forall prof f code g k, matches prof code g k -> matches prof (f :: code) g k.
Proof. intros prof f code [v|e| |d] k H; cbn in *; intuition. Qed.

(** Scratch cells known to agree when execution is about to reach instruction [skip]. *)
Definition live (skip mv : N) (masks : list N) : N :=
  N.land (if skip =? 0 then mv else all_valid) (nth (N.to_nat skip) masks all_valid).

Lemma live_step : forall skip mv masks mv' masks',
  skip <> 0 ->
  (forall j b, N.testbit (nth j masks' all_valid) b = true -> b < 16 ->
               N.testbit (nth (S j) masks all_valid) b = true) ->
  forall b, b < 16 -> N.testbit (live (skip - 1) mv' masks') b = true ->
            N.testbit (live skip mv masks) b = true.
Proof.
  intros skip mv masks mv' masks' Hs H b Hb B. unfold live in *.
  rewrite N.land_spec in *. apply andb_true_iff in B. destruct B as [_ B].
  apply H in B; [|exact Hb]. replace (S (N.to_nat (skip - 1))) with (N.to_nat skip) in B by lia.
  rewrite B. destruct (N.eqb_spec skip 0); [contradiction|].
  apply andb_true_iff. split; [apply all_valid_bit; exact Hb|reflexivity].
Qed.

Lemma agree_live : forall s s' m mk, (forall b, b < 16 -> N.testbit s' b = true -> N.testbit s b = true) ->
  agree s m mk -> agree s' m mk.
Proof. intros s s' m mk H A i Hi B. apply A; auto. Qed.

Lemma kload_nth : forall mk k v, nth_error mk (N.to_nat k) = Some v -> kload mk k = v.
Proof. intros mk k v H. unfold kload. apply nth_error_nth. exact H. Qed.

(** Fall-through: the head instruction is executed, the next one is reached with set [s]. *)
Lemma fall : forall s masks m mk, agree s m mk -> agree (live 0 s masks) m mk.
Proof.
  intros s masks m mk A. unfold live. cbn [N.eqb].
  apply (agree_sub s); [|exact A]. intros i H. rewrite N.land_spec in H.
  apply andb_true_iff in H. apply H.
Qed.

Lemma jump_live : forall skip s masks m mk, agree s m mk ->
  (forall b, b < 16 -> N.testbit (nth (N.to_nat skip) masks all_valid) b = true ->
             N.testbit s b = true) ->
  agree (live skip all_valid masks) m mk.
Proof.
  intros skip s masks m mk A H. apply (agree_live s); [|exact A].
  intros b Hb B. unfold live in B. rewrite N.land_spec in B. apply andb_true_iff in B.
  apply H; tauto.
Qed.

Lemma sd_words_length : forall d, length (sd_words d) = 16%nat.
Proof. reflexivity. Qed.
Lemma sd_words_words : forall d, words (sd_words d).
Proof.
  intros d. unfold words, sd_words. repeat constructor; unfold lo32, hi32; apply word_mod.
Qed.

Lemma sim : forall prof d beyond code mv masks skip a x m mk,
  length beyond = 48%nat -> words beyond ->
  check_insns code = true -> check_mem code mv masks = true ->
  Forall wf_insn code -> Forall (fun f => ~ compares_index f) code ->
  word a -> word x -> words m -> length m = 16%nat -> length mk = 16%nat ->
  agree (live skip mv masks) m mk ->
  matches prof code (go prof code skip a x m (any_to_data d beyond))
          (keval code skip a x mk (sd_words d)).
Proof.
  intros prof d beyond. induction code as [|f code IH];
    intros mv masks skip a x m mk Lb Wb Ci Cm Wi Sub Wa Wx Wm Lm Lk A; [reflexivity|].
  cbn [check_insns] in Ci. apply andb_true_iff in Ci. destruct Ci as [Cf Ci].
  inversion Wi as [|? ? Wf Wi']; subst. inversion Sub as [|? ? Sf Sub']; subst.
  cbn [check_mem] in Cm. unfold check_insn in Cf. unfold compares_index in Sf.
  destruct (kdecode (sf_code f)) as [i|] eqn:D; [|discriminate].
  set (hm := match masks with [] => all_valid | m0 :: _ => m0 end) in Cm.
  assert (Hhm : hm = nth 0 masks all_valid) by (destruct masks; reflexivity).
  destruct (N.eqb_spec skip 0) as [->|Hs].
  - (* executed *)
    assert (A0 : agree (N.land mv hm) m mk) by (rewrite Hhm; exact A).
    cbn [go keval]. cbn [N.eqb negb].
    pose proof (kdecode_sound _ _ D) as C.
    destruct f as [c jt jf k]. cbn [sf_code sf_k sf_jt sf_jf] in *. subst c.
    destruct Wf as (_ & _ & _ & Wk). cbn [sf_k] in Wk. rewrite D.
    destruct i as [ | | | | | | | | |op sx| | |c sx| | | | ];
      try match goal with |- context [kencode ?i] =>
            lazymatch i with KAlu _ _ => fail | KJcc _ _ => fail | _ => cbn [kencode] end end.
    + (* LdAbs *)
      apply andb_true_iff in Cf. destruct Cf as [C1 C2]. apply N.ltb_lt in C1.
      unfold SECCOMP_DATA_SIZE in C1.
      rewrite s_ldabs, index_cases.
      assert (K : (N.to_nat (k / 4) < length (sd_words d))%nat).
      { rewrite sd_words_length. assert (k / 4 < 16) by (apply N.div_lt_upper_bound; lia). lia. }
      unfold any_to_data. rewrite nth_error_app1 by exact K.
      destruct (nth_error (sd_words d) (N.to_nat (k / 4))) as [w|] eqn:E;
        [|apply nth_error_None in E; lia].
      rewrite (nth_error_nth _ _ 0 E). cbn [vm_pc vm_acc vm_idx vm_mem st_vm].
      apply matches_cons. apply IH with (mv := N.land mv hm) (masks := tl masks); auto using fall.
      exact (words_nth _ _ _ (sd_words_words d) E).
    + rewrite s_ldlen. cbn [vm_pc vm_acc vm_idx vm_mem st_vm].
      replace (as_u32 (N.of_nat (length (any_to_data d beyond)))) with SECCOMP_DATA_SIZE
        by (unfold any_to_data; rewrite app_length, Lb; reflexivity).
      apply matches_cons. apply IH with (mv := N.land mv hm) (masks := tl masks); auto using fall. reflexivity.
    + rewrite s_ldxlen. cbn [vm_pc vm_acc vm_idx vm_mem st_vm].
      replace (as_u32 (N.of_nat (length (any_to_data d beyond)))) with SECCOMP_DATA_SIZE
        by (unfold any_to_data; rewrite app_length, Lb; reflexivity).
      apply matches_cons. apply IH with (mv := N.land mv hm) (masks := tl masks); auto using fall. reflexivity.
    + rewrite s_ldimm. cbn [vm_pc vm_acc vm_idx vm_mem st_vm].
      apply matches_cons. apply IH with (mv := N.land mv hm) (masks := tl masks); auto using fall.
    + rewrite s_ldximm. cbn [vm_pc vm_acc vm_idx vm_mem st_vm].
      apply matches_cons. apply IH with (mv := N.land mv hm) (masks := tl masks); auto using fall.
    + (* LdMem *)
      apply N.ltb_lt in Cf. unfold BPF_MEMWORDS in Cf. apply andb_true_iff in Cm. destruct Cm as [Ct Cm].
      rewrite s_ldmem, index_cases.
      destruct (nth_error m (N.to_nat k)) as [w|] eqn:E; [|apply nth_error_None in E; lia].
      pose proof (A0 k Cf Ct) as E2. rewrite E in E2. symmetry in E2.
      rewrite (kload_nth _ _ _ E2). cbn [vm_pc vm_acc vm_idx vm_mem st_vm].
      apply matches_cons. apply IH with (mv := N.land mv hm) (masks := tl masks); auto using fall.
      exact (words_nth _ _ _ Wm E).
    + (* LdxMem *)
      apply N.ltb_lt in Cf. unfold BPF_MEMWORDS in Cf. apply andb_true_iff in Cm. destruct Cm as [Ct Cm].
      rewrite s_ldxmem, index_cases.
      destruct (nth_error m (N.to_nat k)) as [w|] eqn:E; [|apply nth_error_None in E; lia].
      pose proof (A0 k Cf Ct) as E2. rewrite E in E2. symmetry in E2.
      rewrite (kload_nth _ _ _ E2). cbn [vm_pc vm_acc vm_idx vm_mem st_vm].
      apply matches_cons. apply IH with (mv := N.land mv hm) (masks := tl masks); auto using fall.
      exact (words_nth _ _ _ Wm E).
    + (* St *)
      apply N.ltb_lt in Cf. unfold BPF_MEMWORDS in Cf. rewrite s_st. unfold index_set. rewrite Lm.
      destruct (N.ltb_spec k (N.of_nat 16)) as [L|L]; [|lia].
      cbn [vm_pc vm_acc vm_idx vm_mem st_vm]. apply matches_cons.
      apply IH with (mv := N.lor (N.land mv hm) (N.shiftl 1 k)) (masks := tl masks);
        auto using fall, words_set; rewrite ?list_set_length; auto.
      apply fall. apply agree_set; auto.
    + (* Stx *)
      apply N.ltb_lt in Cf. unfold BPF_MEMWORDS in Cf. rewrite s_stx. unfold index_set. rewrite Lm.
      destruct (N.ltb_spec k (N.of_nat 16)) as [L|L]; [|lia].
      cbn [vm_pc vm_acc vm_idx vm_mem st_vm]. apply matches_cons.
      apply IH with (mv := N.lor (N.land mv hm) (N.shiftl 1 k)) (masks := tl masks);
        auto using fall, words_set; rewrite ?list_set_length; auto.
      apply fall. apply agree_set; auto.
    + (* Alu *)
      rewrite s_alu.
      change (match op with
              | KAdd => add_u32 prof a (if sx then x else k)
              | KSub => sub_u32 prof a (if sx then x else k)
              | KMul => mul_u32 prof a (if sx then x else k)
              | KDiv => div_u32 a (if sx then x else k)
              | KOr => Ok (N.lor a (if sx then x else k))
              | KAnd => Ok (N.land a (if sx then x else k))
              | KLsh => shl_u32 prof a (if sx then x else k)
              | KRsh => shr_u32 prof a (if sx then x else k)
              | KXor => Ok (N.lxor a (if sx then x else k))
              end) with (alu_vm prof op a (if sx then x else k)).
      assert (Wb' : word (if sx then x else k)) by (destruct sx; assumption).
      pose proof (alu_agree prof op a (if sx then x else k) Wa Wb') as AA.
      destruct (alu_vm prof op a (if sx then x else k)) as [v|e| |dd] eqn:EV; try contradiction.
      * destruct AA as [AE WV]. rewrite AE. cbn [vm_pc vm_acc vm_idx vm_mem st_vm].
        apply matches_cons. apply IH with (mv := N.land mv hm) (masks := tl masks); auto using fall.
      * cbn [matches]. destruct AA as [->|[-> [E0 EN]]]; [left; reflexivity|]. right.
        rewrite EN. split; [reflexivity|]. destruct sx.
        -- left. exact D.
        -- subst k. discriminate.
    + rewrite s_neg. left. reflexivity.
    + (* Ja *)
      rewrite s_ja, N.add_0_l. cbn [vm_pc vm_acc vm_idx vm_mem].
      apply matches_cons.
      apply IH with (mv := all_valid) (masks := mask_at (tl masks) (N.to_nat k) (N.land mv hm)); auto.
      apply jump_live with (s := N.land mv hm); [exact A0|].
      intros b Hb B. apply mask_at_sub in B; [|exact Hb]. destruct B as [_ B]. apply B. reflexivity.
    + (* Jcc *)
      destruct sx; [exfalso; apply Sf; exists c; reflexivity|].
      rewrite s_jcc, N.add_0_l. cbn [vm_pc vm_acc vm_idx vm_mem].
      replace (match c with KJeq => a =? k | KJgt => k <? a | KJge => k <=? a
               | KJset => 0 <? N.land a k end) with (kcmp_eval c a k).
      2:{ destruct c; try reflexivity. cbn [kcmp_eval].
          destruct (N.eqb_spec (N.land a k) 0) as [->|NZ]; [reflexivity|].
          destruct (N.ltb_spec 0 (N.land a k)); [reflexivity|lia]. }
      apply matches_cons.
      apply IH with (mv := all_valid)
        (masks := mask_at (mask_at (tl masks) (N.to_nat jt) (N.land mv hm)) (N.to_nat jf) (N.land mv hm));
        auto.
      apply jump_live with (s := N.land mv hm); [exact A0|].
      intros b Hb B. apply mask_at_sub in B; [|exact Hb]. destruct B as [B1 B2].
      destruct (kcmp_eval c a k).
      * apply mask_at_sub in B1; [|exact Hb]. destruct B1 as [_ B1]. apply B1. reflexivity.
      * apply B2. reflexivity.
    + rewrite s_tax. left. reflexivity.
    + rewrite s_txa. left. reflexivity.
    + rewrite s_retk. reflexivity.
    + rewrite s_reta. reflexivity.
  - (* skipped *)
    cbn [go keval]. destruct (N.eqb_spec skip 0); [contradiction|]. cbn [negb].
    apply matches_cons.
    assert (T : forall j b, N.testbit (nth j (tl masks) all_valid) b = true -> b < 16 ->
                            N.testbit (nth (S j) masks all_valid) b = true)
      by (intros j b B _; rewrite nth_tl in B; exact B).
    destruct i as [ | | | | | | | | |op sx| | |c sx| | | | ];
      try (apply andb_true_iff in Cm; destruct Cm as [_ Cm]);
      (eapply IH; [exact Lb|exact Wb|exact Ci|exact Cm|exact Wi'|exact Sub'|exact Wa|exact Wx
                  |exact Wm|exact Lm|exact Lk|]);
      (eapply agree_live; [|exact A]); (eapply live_step; [exact Hs|]); intros j b B Hb.
    all: try (apply T; assumption).
    + apply mask_at_sub in B; [|exact Hb]. apply T; [apply B|exact Hb].
    + apply mask_at_sub in B; [|exact Hb]. destruct B as [B _].
      apply mask_at_sub in B; [|exact Hb]. apply T; [apply B|exact Hb].
Qed.

Lemma agree_0 : forall m mk masks, agree (live 0 0 masks) m mk.
Proof.
  intros m mk masks i Hi B. unfold live in B. cbn [N.eqb] in B.
  rewrite N.land_0_l, N.bits_0 in B. discriminate.
Qed.

Lemma c11_partial : forall prof prog vm d beyond mem,
  kernel_accepts prog = true -> Forall wf_insn prog -> Forall (fun f => ~ compares_index f) prog ->
  vm_prog vm = prog -> length beyond = 48%nat -> words beyond -> length mem = 16%nat ->
  exists r, fst (vm_run prof vm (any_to_data d beyond)) = Finished r /\
  match r with
  | Ok v => kernel_eval_mem mem prog d = v
  | Err e => Exists (vm_lacks e) prog
  | Panic => prof = Debug \/ (kernel_eval_mem mem prog d = 0 /\ Exists divides_by_index prog)
  | Died _ => False
  end.
Proof.
  intros prof prog vm d beyond mem K Wi Sub Hp Lb Wb Lm.
  exists (go prof (vm_prog vm) 0 0 0 (repeat 0 16) (any_to_data d beyond)).
  split; [apply vm_run_go|]. rewrite Hp.
  unfold kernel_accepts in K. rewrite !andb_true_iff in K. destruct K as [[[[_ _] Ci] _] Cm].
  pose proof (sim prof d beyond prog 0 [] 0 0 0 (repeat 0 16) mem Lb Wb Ci Cm Wi Sub
    eq_refl eq_refl) as S.
  unfold kernel_eval_mem.
  assert (M : matches prof prog (go prof prog 0 0 0 (repeat 0 16) (any_to_data d beyond))
                 (keval prog 0 0 0 mem (sd_words d))).
  { apply S; auto. - unfold words. repeat constructor. - apply agree_0. }
  unfold matches in M. destruct (go prof prog 0 0 0 (repeat 0 16) (any_to_data d beyond)); exact M.
Qed.

Lemma c10 : forall prof prog vm d beyond mem,
  kernel_accepts prog = true -> Forall wf_insn prog -> Forall vm_subset prog ->
  vm_prog vm = prog -> length beyond = 48%nat -> words beyond -> length mem = 16%nat ->
  exists r, fst (vm_run prof vm (any_to_data d beyond)) = Finished r /\
  match r with
  | Ok v => kernel_eval_mem mem prog d = v
  | Err _ | Died _ => False
  | Panic => prof = Debug \/ (kernel_eval_mem mem prog d = 0 /\ Exists divides_by_index prog)
  end.
Proof.
  intros prof prog vm d beyond mem K Wi Sub Hp Lb Wb Lm.
  assert (Nc : Forall (fun f => ~ compares_index f) prog).
  { revert Sub. apply Forall_impl. intros f S [c D]. unfold vm_subset in S. rewrite D in S. exact S. }
  destruct (c11_partial prof prog vm d beyond mem K Wi Nc Hp Lb Wb Lm) as (r & E & M).
  exists r. split; [exact E|]. destruct r as [v|e| |dd]; try exact M.
  apply Exists_exists in M. destruct M as (f & I & L). rewrite Forall_forall in Sub. specialize (Sub f I).
  unfold vm_lacks in L. unfold vm_subset in Sub.
  destruct (kdecode (sf_code f)) as [[]|]; contradiction.
Qed.

(** Without overflow checks and without division by the index register: full agreement. *)
Lemma c10_release : forall prog vm d beyond mem,
  kernel_accepts prog = true -> Forall wf_insn prog -> Forall vm_subset prog ->
  ~ Exists divides_by_index prog ->
  vm_prog vm = prog -> length beyond = 48%nat -> words beyond -> length mem = 16%nat ->
  fst (vm_run Release vm (any_to_data d beyond)) = Finished (Ok (kernel_eval_mem mem prog d)).
Proof.
  intros prog vm d beyond mem K Wi Sub Nd Hp Lb Wb Lm.
  destruct (c10 Release prog vm d beyond mem K Wi Sub Hp Lb Wb Lm) as [r [E M]].
  rewrite E. destruct r as [v|e| |dd]; try contradiction; [congruence|].
  destruct M as [M|[_ M]]; [discriminate|contradiction].
Qed.

(** * C11 *)

(** The VM does not look at the source bit of a comparison. *)
Lemma as_constant_decode : forall f,
  kdecode (sf_code (as_constant f)) =
  match kdecode (sf_code f) with Some (KJcc c true) => Some (KJcc c false) | r => r end.
Proof.
  intros f. unfold as_constant. destruct (kdecode (sf_code f)) as [i|] eqn:D; [|exact D].
  destruct i as [ | | | | | | | | |op sx| | |c sx| | | | ]; try exact D.
  destruct sx; [|exact D]. apply kdecode_sound in D. cbn [sf_code]. rewrite D. destruct c; reflexivity.
Qed.
Lemma as_constant_fields : forall f, sf_jt (as_constant f) = sf_jt f /\
  sf_jf (as_constant f) = sf_jf f /\ sf_k (as_constant f) = sf_k f.
Proof.
  intros f. unfold as_constant. destruct (kdecode (sf_code f)) as [[ | | | | | | | | |op sx| | |c []| | | | ]|]; auto.
Qed.
Lemma as_constant_exec : forall prof f a x m data,
  exec_insn prof (as_constant f) (st_vm a x m) data = exec_insn prof f (st_vm a x m) data.
Proof.
  intros prof f a x m data. unfold as_constant.
  destruct (kdecode (sf_code f)) as [i|] eqn:D; [|reflexivity].
  destruct i as [ | | | | | | | | |op sx| | |c sx| | | | ]; try reflexivity.
  destruct sx; [|reflexivity]. apply kdecode_sound in D. destruct f as [cd jt jf k]. cbn [sf_code sf_jt sf_jf sf_k] in *.
  subst cd. destruct c; reflexivity.
Qed.
Lemma as_constant_go : forall prof data code skip a x m,
  go prof (map as_constant code) skip a x m data = go prof code skip a x m data.
Proof.
  intros prof data. induction code as [|f code IH]; intros skip a x m; [reflexivity|].
  cbn [map go]. destruct (skip =? 0); [|apply IH]. rewrite as_constant_exec.
  destruct (exec_insn prof f (st_vm a x m) data) as [[[v|]|e| |d] vm']; try reflexivity. apply IH.
Qed.
Lemma as_constant_accepts : forall prog, kernel_accepts prog = true -> kernel_accepts (map as_constant prog) = true.
Proof.
  intros prog H. unfold kernel_accepts in *. rewrite map_length. rewrite !andb_true_iff in *.
  destruct H as [[[[H1 H2] H3] H4] H5]. repeat split; try assumption.
  - clear - H3. induction prog as [|f prog IH]; [reflexivity|]. cbn [map check_insns] in *.
    apply andb_true_iff in H3. destruct H3 as [A B]. apply andb_true_iff. split; [|apply IH; exact B].
    rewrite map_length. unfold check_insn in *. rewrite as_constant_decode.
    destruct (as_constant_fields f) as (-> & -> & ->).
    destruct (kdecode (sf_code f)) as [[ | | | | | | | | |op sx| | |c []| | | | ]|]; exact A.
  - clear - H4. induction prog as [|f prog IH]; [exact H4|]. cbn [map ends_in_ret] in *.
    destruct prog as [|g prog].
    + cbn [map]. rewrite as_constant_decode.
      destruct (kdecode (sf_code f)) as [[ | | | | | | | | |op sx| | |c []| | | | ]|]; exact H4.
    + cbn [map]. cbn [map] in IH. apply IH. exact H4.
  - revert H5. generalize 0 (@nil N). clear.
    induction prog as [|f prog IH]; intros mv masks H; [reflexivity|]. cbn [map check_mem] in *.
    rewrite as_constant_decode. destruct (as_constant_fields f) as (-> & -> & ->).
    destruct (kdecode (sf_code f)) as [[ | | | | | | | | |op sx| | |c []| | | | ]|];
      try (apply IH; exact H);
      (apply andb_true_iff in H; destruct H as [A B]; apply andb_true_iff; split; [exact A|apply IH; exact B]).
Qed.

Lemma c11_exact : forall prof prog vm d beyond mem,
  kernel_accepts prog = true -> Forall wf_insn prog ->
  vm_prog vm = prog -> length beyond = 48%nat -> words beyond -> length mem = 16%nat ->
  exists r, fst (vm_run prof vm (any_to_data d beyond)) = Finished r /\
  match r with
  | Ok v => kernel_eval_mem mem (map as_constant prog) d = v
  | Err e => Exists (vm_lacks e) prog
  | Panic => prof = Debug \/
             (kernel_eval_mem mem (map as_constant prog) d = 0 /\ Exists divides_by_index prog)
  | Died _ => False
  end.
Proof.
  intros prof prog vm d beyond mem K Wi Hp Lb Wb Lm.
  assert (Wi' : Forall wf_insn (map as_constant prog)).
  { apply Forall_map. revert Wi. apply Forall_impl. intros f (A & B & C & D).
    destruct (as_constant_fields f) as (Ej & Ef & Ek). unfold wf_insn. rewrite Ej, Ef, Ek.
    split; [|auto]. unfold as_constant.
    destruct (kdecode (sf_code f)) as [[ | | | | | | | | |op sx| | |c []| | | | ]|]; try exact A.
    cbn [sf_code]. lia. }
  assert (Nc : Forall (fun f => ~ compares_index f) (map as_constant prog)).
  { apply Forall_map. apply Forall_forall. intros f _ [c D]. rewrite as_constant_decode in D.
    destruct (kdecode (sf_code f)) as [[ | | | | | | | | |op sx| | |c' []| | | | ]|]; discriminate. }
  destruct (c11_partial prof _ (mkVM (vm_pc vm) (vm_acc vm) (vm_idx vm) (vm_mem vm) (map as_constant prog)) d beyond mem
    (as_constant_accepts prog K) Wi' Nc eq_refl Lb Wb Lm) as (r & E & M).
  exists r. split.
  - rewrite <- E, !vm_run_go, Hp. cbn [vm_prog]. rewrite as_constant_go. reflexivity.
  - assert (Ex : forall P : sock_filter -> Prop, (forall f, P (as_constant f) -> P f) ->
             Exists P (map as_constant prog) -> Exists P prog).
    { intros P X Y. apply Exists_exists in Y. destruct Y as (g & I & Pg). apply in_map_iff in I.
      destruct I as (f & <- & I). apply Exists_exists. exists f. auto. }
    destruct r as [v|e| |dd]; try exact M.
    + revert M. apply Ex. intros f. unfold vm_lacks. rewrite as_constant_decode.
      destruct (kdecode (sf_code f)) as [[ | | | | | | | | |op sx| | |c []| | | | ]|]; auto.
    + destruct M as [M|[M X]]; [left; exact M|right]. split; [exact M|]. revert X. apply Ex. intros f.
      unfold divides_by_index. rewrite as_constant_decode.
      destruct (kdecode (sf_code f)) as [[ | | | | | | | | |op sx| | |c []| | | | ]|]; congruence.
Qed.

Lemma c11_refuted : forall prof d beyond vm,
  vm_prog vm = jx_prog ->
  kernel_accepts jx_prog = true /\ kernel_eval jx_prog d = 0x7fff0000 /\
  fst (vm_run prof vm (any_to_data d beyond)) = Finished (Ok 0x80000000).
Proof.
  intros prof d beyond vm H. split; [reflexivity|]. split; [reflexivity|].
  rewrite vm_run_go, H. reflexivity.
Qed.
