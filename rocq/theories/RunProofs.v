(** Proofs of C47-C50: simulating filters in the VM, reads outside the record, field offsets,
    assembled programs in the kernel. *)
From Coq Require Import NArith ZArith String List Bool Lia.
From Verif Require Import Libc Machine Bpf SeccompRet Asm Vm Promises Filters Kernel World Testkit Spec
  FragProofs PolicyProofs VmProofs KernelVmProofs AsmProofs CodeProofs.
Import ListNotations.
Local Open Scope N_scope.

(** * C47 *)
Lemma vm_new_ok : forall prog, N.of_nat (length prog) <= 65535 ->
  exists vm, vm_new prog = Ok vm /\ vm_prog vm = prog.
Proof.
  intros prog H. unfold vm_new. apply N.ltb_ge in H. rewrite H. eexists. split; reflexivity.
Qed.

Lemma run_seccomp_kernel : forall prof prof' pid tid ps v prog d beyond,
  filter_for prof pid tid ps v prog -> N.of_nat (length prog) <= 65535 ->
  run_seccomp prof' prog d beyond = ret_try_from (kernel_eval prog d).
Proof.
  intros prof prof' pid tid ps v prog d beyond H L. unfold run_seccomp.
  destruct (vm_new_ok _ L) as [vm [E Hv]]. rewrite E. cbn [bind]. unfold vm_result.
  rewrite (c15_vm _ _ _ _ _ _ vm d beyond (repeat 0 16) H Hv prof'). reflexivity.
Qed.

Lemma c47 : forall prof prof' pid tid ps v prog d beyond,
  filter_for prof pid tid ps v prog -> small_payload v -> wf_data d ->
  (N.of_nat (length prog) <= 65535 ->
    (sd_arch d = X86_64 -> granted ps pid tid d -> run_seccomp prof' prog d beyond = Ok Allow) /\
    (sd_arch d = X86_64 -> ~ granted ps pid tid d -> run_seccomp prof' prog d beyond = Ok v) /\
    (sd_arch d <> X86_64 -> run_seccomp prof' prog d beyond = Ok KillProcess)) /\
  (65535 < N.of_nat (length prog) ->
    run_seccomp prof' prog d beyond = Err (ProgramTooLong (N.of_nat (length prog)))).
Proof.
  intros prof prof' pid tid ps v prog d beyond H Hv Hd. split.
  - intros L. rewrite (run_seccomp_kernel prof prof' pid tid ps v prog d beyond H L).
    repeat split; intros.
    + destruct (verdict _ _ _ _ _ _ d H (conj Hd H0)) as [A _]. rewrite A by assumption. reflexivity.
    + destruct (verdict _ _ _ _ _ _ d H (conj Hd H0)) as [_ A]. rewrite A by assumption.
      apply c13_forward. exact Hv.
    + rewrite (filter_for_pcode _ _ _ _ _ _ H). unfold kernel_eval.
      rewrite foreign_eval by assumption. reflexivity.
  - intros L. unfold run_seccomp, vm_new. apply N.ltb_lt in L. rewrite L. reflexivity.
Qed.

(** The simulation and the kernel agree on what happens to the call. *)
Lemma c47_fate : forall prof prof' pid tid ps v prog d beyond a,
  filter_for prof pid tid ps v prog -> small_payload v -> wf_data d ->
  run_seccomp prof' prog d beyond = Ok a -> syscall_entry [prog] d = fate a.
Proof.
  intros prof prof' pid tid ps v prog d beyond a H Hv Hd R.
  destruct (N.le_gt_cases (N.of_nat (length prog)) 65535) as [L|L].
  - destruct (proj1 (c47 prof prof' pid tid ps v prog d beyond H Hv Hd) L) as (A & B & C).
    rewrite single_entry. destruct (N.eq_dec (sd_arch d) X86_64) as [E|E].
    + destruct (granted_dec ps pid tid d Hd) as [G|G].
      * rewrite (A E G) in R. injection R as <-.
        rewrite (proj1 (verdict _ _ _ _ _ _ d H (conj Hd E)) G). reflexivity.
      * rewrite (B E G) in R. injection R as <-.
        rewrite (proj2 (verdict _ _ _ _ _ _ d H (conj Hd E)) G). apply entry_of_ret. exact Hv.
    + rewrite (C E) in R. injection R as <-.
      rewrite (filter_for_pcode _ _ _ _ _ _ H). unfold kernel_eval.
      rewrite foreign_eval by assumption. reflexivity.
  - rewrite (proj2 (c47 prof prof' pid tid ps v prog d beyond H Hv Hd) L) in R. discriminate.
Qed.

(** * C48 *)
Lemma map_nth_seq : forall (l : list N), map (fun i => nth i l 0) (seq 0 (length l)) = l.
Proof.
  induction l as [|a l IH]; [reflexivity|]. cbn [length seq map nth]. f_equal.
  rewrite <- seq_shift, map_map. exact IH.
Qed.

Lemma any_to_data_slice : forall d beyond, length beyond = 48%nat ->
  any_to_data d beyond = any_slice 64 (fun i => nth i (sd_words d ++ beyond) 0).
Proof.
  intros d beyond H. unfold any_to_data, any_slice.
  replace 64%nat with (length (sd_words d ++ beyond))
    by (rewrite app_length, sd_words_length, H; reflexivity).
  symmetry. apply map_nth_seq.
Qed.

(** The slice contains a word no byte of which belongs to the object. *)
Lemma c48_slice_refuted : forall size memory, (2 <= size)%nat ->
  exists memory', (forall i, (4 * i < size)%nat -> memory' i = memory i) /\
    any_slice size memory' <> any_slice size memory.
Proof.
  intros size memory H.
  exists (fun i => if Nat.eqb i (size - 1) then memory i + 1 else memory i). split.
  - intros i Hi. destruct (Nat.eqb_spec i (size - 1)); [lia|reflexivity].
  - unfold any_slice. intros E. 
    assert (F : forall i, In i (seq 0 size) ->
      (if Nat.eqb i (size - 1) then memory i + 1 else memory i) = memory i).
    { revert E. generalize (seq 0 size). induction l as [|j l IH]; intros E i Hi; [destruct Hi|].
      cbn [map] in E. injection E as E1 E2. destruct Hi as [->|Hi]; [exact E1|exact (IH E2 i Hi)]. }
    specialize (F (size - 1)%nat). rewrite Nat.eqb_refl in F.
    assert (memory (size - 1)%nat + 1 = memory (size - 1)%nat) by (apply F, in_seq; lia). lia.
Qed.

(** A load at byte 64, the first one past the record, returns what lies there. *)
Lemma c48_refuted : forall prof d w rest vm,
  vm_new outside_prog = Ok vm ->
  fst (vm_run prof vm (any_to_data d (w :: rest))) = Finished (Ok w).
Proof.
  intros prof d w rest vm H. injection H as <-. rewrite vm_run_go. f_equal.
  assert (F : fetch_data (any_to_data d (w :: rest)) 64 0 = Ok w).
  { change (fetch_u32 (any_to_data d (w :: rest)) 64 = Ok w). unfold fetch_u32.
    change (64 / 4) with 16. rewrite index_cases. reflexivity. }
  unfold outside_prog. cbn [vm_prog go]. change (0 =? 0) with true. cbn iota.
  unfold exec_insn. cbn [sf_code sf_k].
  change (N.land 32 24) with 0. rewrite F. reflexivity.
Qed.

(** Filters that pass the kernel's checks never look there. *)
Lemma c48_partial : forall prog vm d beyond beyond',
  kernel_accepts prog = true -> Forall wf_insn prog -> Forall vm_subset prog ->
  ~ Exists divides_by_index prog -> vm_prog vm = prog ->
  length beyond = 48%nat -> words beyond -> length beyond' = 48%nat -> words beyond' ->
  fst (vm_run Release vm (any_to_data d beyond)) = fst (vm_run Release vm (any_to_data d beyond')).
Proof.
  intros. rewrite !(c10_release prog vm d _ (repeat 0 16)) by (assumption || reflexivity).
  reflexivity.
Qed.

(** Neither do the filters built from promises. *)
Lemma c48_generated : forall prof prof' pid tid ps v prog vm d beyond beyond',
  filter_for prof pid tid ps v prog -> vm_prog vm = prog ->
  fst (vm_run prof' vm (any_to_data d beyond)) = fst (vm_run prof' vm (any_to_data d beyond')).
Proof.
  intros. rewrite !(c15_vm _ _ _ _ _ _ vm d _ (repeat 0 16) H H0 prof'). reflexivity.
Qed.

(** * C49 *)
Lemma offset_exact : forall E prof f, exists_field f -> offset_u32 (E := E) prof f = Ok (offset f).
Proof.
  intros E prof f H. destruct f as [| | | |i|i]; try reflexivity; cbn [exists_field] in H;
    destruct (arg_cases i H) as [->|[->|[->|[->|[->| ->]]]]]; destruct prof; reflexivity.
Qed.

Lemma c49 : forall f, match f with ArgLower i | ArgUpper i => word i | _ => True end ->
  (offset f < 2 ^ 32 -> forall prof, offset_u32 (E := bpf_error) prof f = Ok (offset f)) /\
  (2 ^ 32 <= offset f -> offset_u32 (E := bpf_error) Debug f = Panic /\
                         offset_u32 (E := bpf_error) Release f = Ok (offset f mod 2 ^ 32)).
Proof.
  intros f Hf. destruct f as [| | | |i|i];
    try (cbn [offset]; split; [intros _ prof; reflexivity|intros H; lia]).
  - cbn [offset offset_u32]. unfold mul_u32, add_u32. split; intros H.
    + intros prof. change u32_mod with (2 ^ 32).
      destruct (N.ltb_spec (i * 8) (2 ^ 32)) as [A|A]; [|lia]. cbn [bind].
      destruct (N.ltb_spec (4 + 4 + 8 + i * 8) (2 ^ 32)) as [B|B]; [reflexivity|lia].
    + change u32_mod with (2 ^ 32). destruct (N.ltb_spec (i * 8) (2 ^ 32)) as [A|A]; cbn [bind].
      * destruct (N.ltb_spec (4 + 4 + 8 + i * 8) (2 ^ 32)) as [B|B]; [lia|]. split; reflexivity.
      * split; [reflexivity|]. rewrite (N.add_mod (4 + 4 + 8) (i * 8)) by discriminate.
        assert (M : i * 8 mod 2 ^ 32 < 2 ^ 32) by (apply N.mod_lt; discriminate).
        change ((4 + 4 + 8) mod 2 ^ 32) with (4 + 4 + 8).
        destruct (N.ltb_spec (4 + 4 + 8 + i * 8 mod 2 ^ 32) (2 ^ 32)) as [B|B]; [|reflexivity].
        rewrite (N.mod_small (4 + 4 + 8 + i * 8 mod 2 ^ 32)) by exact B. reflexivity.
  - cbn [offset offset_u32]. unfold mul_u32, add_u32. split; intros H.
    + intros prof. change u32_mod with (2 ^ 32).
      destruct (N.ltb_spec (i * 8) (2 ^ 32)) as [A|A]; [|lia]. cbn [bind].
      destruct (N.ltb_spec (4 + 4 + 8 + i * 8) (2 ^ 32)) as [B|B]; [|lia]. cbn [bind].
      destruct (N.ltb_spec (4 + 4 + 8 + i * 8 + 4) (2 ^ 32)) as [C|C]; [reflexivity|lia].
    + change u32_mod with (2 ^ 32).
      assert (R : forall x y, x < 2 ^ 32 -> y < 2 ^ 32 ->
        (if x + y <? 2 ^ 32 then @Ok bpf_error N (x + y) else Ok ((x + y) mod 2 ^ 32))
        = Ok ((x + y) mod 2 ^ 32)).
      { intros x y _ _. destruct (N.ltb_spec (x + y) (2 ^ 32)); [|reflexivity].
        rewrite N.mod_small by assumption. reflexivity. }
      split.
      * destruct (N.ltb_spec (i * 8) (2 ^ 32)) as [A|A]; cbn [bind]; [|reflexivity].
        destruct (N.ltb_spec (4 + 4 + 8 + i * 8) (2 ^ 32)) as [B|B]; cbn [bind]; [|reflexivity].
        destruct (N.ltb_spec (4 + 4 + 8 + i * 8 + 4) (2 ^ 32)) as [C|C]; [lia|reflexivity].
      * assert (M : i * 8 mod 2 ^ 32 < 2 ^ 32) by (apply N.mod_lt; discriminate).
        assert (X : (if i * 8 <? 2 ^ 32 then @Ok bpf_error N (i * 8) else Ok (i * 8 mod 2 ^ 32))
                    = Ok (i * 8 mod 2 ^ 32)).
        { destruct (N.ltb_spec (i * 8) (2 ^ 32)); [|reflexivity].
          rewrite N.mod_small by assumption. reflexivity. }
        rewrite X. cbn [bind]. rewrite R by (exact M || reflexivity). cbn [bind].
        rewrite R by (reflexivity || (apply N.mod_lt; discriminate)).
        rewrite N.add_mod_idemp_r, N.add_mod_idemp_l by discriminate. reflexivity.
Qed.

(** Without overflow checks argument number 2^29 is argument 0. *)
Lemma c49_refuted : exists f g, ~ exists_field f /\ exists_field g /\
  offset_u32 (E := bpf_error) Release f = offset_u32 (E := bpf_error) Release g.
Proof.
  exists (ArgLower (2 ^ 29)), (ArgLower 0). repeat split; [cbn; lia|cbn; lia].
Qed.
