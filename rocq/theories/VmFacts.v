(** Errors, panics, stepping, more data, build profiles: C79-C82. *)
From Coq Require Import NArith ZArith String List Bool Lia.
From Verif Require Import Libc Machine Bpf SeccompRet Asm Vm Kernel Testkit Spec VmSpec VmProofs.
Import ListNotations.
Local Open Scope N_scope.

(** * Instruction fields as arithmetic *)
Lemma land_field : forall c b n, N.land c (N.shiftl b n) = N.shiftl (N.land (N.shiftr c n) b) n.
Proof.
  intros c b n. apply N.bits_inj. intros i. rewrite N.land_spec.
  destruct (N.lt_ge_cases i n) as [H|H].
  - rewrite !N.shiftl_spec_low by exact H. apply andb_false_r.
  - rewrite !N.shiftl_spec_high by lia. rewrite N.land_spec, N.shiftr_spec by lia.
    do 2 f_equal. lia.
Qed.
Lemma f_class : forall c, N.land c 0x7 = i_class c.
Proof. intros c. exact (N.land_ones c 3). Qed.
Lemma field : forall c n w, N.land c (N.shiftl (N.ones w) n) = c / 2 ^ n mod 2 ^ w * 2 ^ n.
Proof.
  intros c n w. rewrite land_field, N.land_ones, N.shiftr_div_pow2, N.shiftl_mul_pow2. reflexivity.
Qed.
Lemma f_size : forall c, N.land c 0x18 = i_size c * 8.
Proof. intros c. exact (field c 3 2). Qed.
Lemma f_src : forall c, N.land c 0x08 = i_src c * 8.
Proof. intros c. exact (field c 3 1). Qed.
Lemma f_mode : forall c, N.land c 0xe0 = i_mode c * 32.
Proof. intros c. exact (field c 5 3). Qed.
Lemma f_op : forall c, N.land c 0xf0 = i_op c * 16.
Proof. intros c. exact (field c 4 4). Qed.

Lemma lt_cases : forall n b, n < N.of_nat b -> In n (map N.of_nat (seq 0 b)).
Proof.
  intros n b H. rewrite <- (N2Nat.id n). apply in_map, in_seq. lia.
Qed.
Ltac split_in H :=
  cbn [seq map N.of_nat In] in H;
  repeat (destruct H as [H|H]; [symmetry in H; simpl in H|]); [..|destruct H].
Lemma class_cases : forall c, In (i_class c) [0; 1; 2; 3; 4; 5; 6; 7].
Proof. intros c. apply (lt_cases _ 8). apply N.mod_lt. discriminate. Qed.
Lemma size_cases : forall c, In (i_size c) [0; 1; 2; 3].
Proof. intros c. apply (lt_cases _ 4). apply N.mod_lt. discriminate. Qed.
Lemma src_cases : forall c, In (i_src c) [0; 1].
Proof. intros c. apply (lt_cases _ 2). apply N.mod_lt. discriminate. Qed.
Lemma mode_cases : forall c, In (i_mode c) [0; 1; 2; 3; 4; 5; 6; 7].
Proof. intros c. apply (lt_cases _ 8). apply N.mod_lt. discriminate. Qed.
Lemma op_cases : forall c, In (i_op c) [0; 1; 2; 3; 4; 5; 6; 7; 8; 9; 10; 11; 12; 13; 14; 15].
Proof. intros c. apply (lt_cases _ 16). apply N.mod_lt. discriminate. Qed.

(** * C79: every outcome of one instruction *)
Definition outcome (prof : profile) (f : sock_filter) (vm : BpfVM) (data : list N)
  (r : res bpf_error (option N)) : Prop :=
  let P := panics_here prof f vm data in
  match r with
  | Panic => P
  | Err e => ~ P /\ insn_error f = Some e
  | Ok (Some v) => ~ P /\ insn_error f = None /\ insn_returns f (vm_acc vm) (vm_idx vm) = Some v
  | Ok None => ~ P /\ insn_error f = None /\ insn_returns f (vm_acc vm) (vm_idx vm) = None
  | Died _ => False
  end.

Lemma index_le : forall E A (l : list A) i,
  match index (E := E) l i with
  | Ok _ => i < N.of_nat (length l)
  | Panic => N.of_nat (length l) <= i
  | _ => False
  end.
Proof.
  intros E A l i. rewrite index_cases. destruct (nth_error l (N.to_nat i)) eqn:H.
  - assert (nth_error l (N.to_nat i) <> None) as X by congruence. apply nth_error_Some in X. lia.
  - apply nth_error_None in H. lia.
Qed.

Ltac unf := unfold outcome, panics_here, insn_panics, insn_error, insn_returns.
Ltac leaf := unf; repeat match goal with H : _ = _ |- _ => rewrite H end; cbn; intuition (lia || congruence).


(** The pure part of an instruction that stores a word. *)
Ltac fin := unf; repeat match goal with H : _ = _ :> N |- _ => rewrite H end;
  cbn [fst snd]; intuition (lia || congruence || discriminate).

Lemma exec_outcome : forall prof f vm data,
  outcome prof f vm data (fst (exec_insn prof f vm data)) /\
  (fst (exec_insn prof f vm data) <> Ok None -> snd (exec_insn prof f vm data) = vm).
Proof.
  intros prof f vm data. unfold exec_insn.
  rewrite f_class, f_size, f_src, f_mode, f_op.
  pose proof (class_cases (sf_code f)) as Hc. split_in Hc; rewrite Hc; cbn [N.eqb Pos.eqb BPF_LD BPF_LDX
    BPF_ST BPF_STX BPF_ALU BPF_JMP BPF_RET BPF_MISC].
  - pose proof (mode_cases (sf_code f)) as Hm. split_in Hm; rewrite Hm;
      cbn [N.mul N.eqb Pos.eqb Pos.mul Pos.add Pos.succ BPF_IMM BPF_ABS BPF_IND BPF_MEM BPF_LEN]; try fin.
    + unfold fetch_data. pose proof (size_cases (sf_code f)) as Hs. split_in Hs; rewrite Hs;
        cbn [N.mul N.eqb Pos.eqb Pos.mul Pos.add Pos.succ BPF_W BPF_H BPF_B fetch_u16 fetch_u8]; try fin.
      unfold fetch_u32. pose proof (index_le bpf_error _ data (sf_k f / 4)) as L.
      destruct (index data (sf_k f / 4)); try contradiction; fin.
    + unfold add_u32, u32_mod. destruct (N.ltb_spec (vm_idx vm + sf_k f) (2 ^ 32)) as [L|L]; cbn [bind].
      * unfold fetch_data. pose proof (size_cases (sf_code f)) as Hs. split_in Hs; rewrite Hs;
          cbn [N.mul N.eqb Pos.eqb Pos.mul Pos.add Pos.succ BPF_W BPF_H BPF_B fetch_u16 fetch_u8]; try fin.
        unfold fetch_u32. pose proof (index_le bpf_error _ data ((vm_idx vm + sf_k f) / 4)) as L'.
        pose proof (N.mod_small (vm_idx vm + sf_k f) (2 ^ 32) L) as Hk.
        destruct (index data ((vm_idx vm + sf_k f) / 4)); try contradiction; fin.
      * destruct prof; cbn [bind]; [fin|].
        unfold fetch_data. pose proof (size_cases (sf_code f)) as Hs. split_in Hs; rewrite Hs;
          cbn [N.mul N.eqb Pos.eqb Pos.mul Pos.add Pos.succ BPF_W BPF_H BPF_B fetch_u16 fetch_u8]; try fin.
        unfold fetch_u32. pose proof (index_le bpf_error _ data ((vm_idx vm + sf_k f) mod 2 ^ 32 / 4)) as L'.
        destruct (index data ((vm_idx vm + sf_k f) mod 2 ^ 32 / 4)); try contradiction; fin.
    + pose proof (index_le bpf_error _ (vm_mem vm) (sf_k f)) as L.
      destruct (index (vm_mem vm) (sf_k f)); try contradiction; fin.
  - pose proof (mode_cases (sf_code f)) as Hm. split_in Hm; rewrite Hm;
      cbn [N.mul N.eqb Pos.eqb Pos.mul Pos.add Pos.succ BPF_IMM BPF_ABS BPF_IND BPF_MEM BPF_LEN]; try fin.
    pose proof (index_le bpf_error _ (vm_mem vm) (sf_k f)) as L.
    destruct (index (vm_mem vm) (sf_k f)); try contradiction; fin.
  - unfold index_set. destruct (N.ltb_spec (sf_k f) (N.of_nat (length (vm_mem vm)))); fin.
  - unfold index_set. destruct (N.ltb_spec (sf_k f) (N.of_nat (length (vm_mem vm)))); fin.
  - assert (exists s, fetch_src vm (i_src (sf_code f) * 8) f = Ok s /\
              s = if i_src (sf_code f) =? 0 then sf_k f else vm_idx vm) as (s & -> & Hs).
    { pose proof (src_cases (sf_code f)) as H. split_in H; rewrite H; eexists; split; reflexivity. }
    cbn [bind]. unfold alu.
    pose proof (op_cases (sf_code f)) as Ho. split_in Ho; rewrite Ho;
      cbn [N.mul N.eqb Pos.eqb Pos.mul Pos.add Pos.succ BPF_ADD BPF_SUB BPF_MUL BPF_DIV BPF_OR BPF_AND BPF_LSH BPF_RSH
           BPF_NEG BPF_MOD BPF_XOR];
      unfold add_u32, sub_u32, sub_mod, mul_u32, div_u32, rem_u32, shl_u32, shr_u32, u32_mod;
      repeat match goal with
      | |- context [if ?a <? ?b then _ else _] => destruct (N.ltb_spec a b)
      | |- context [if ?a <=? ?b then _ else _] => destruct (N.leb_spec a b)
      | |- context [if s =? 0 then _ else _] => destruct (N.eqb_spec s 0)
      end; try (destruct prof); unf; cbv zeta; rewrite Hc, Ho; rewrite <- ?Hs; cbn [fst snd];
      intuition (lia || congruence || discriminate).
  - pose proof (op_cases (sf_code f)) as Ho. split_in Ho; rewrite Ho;
      cbn [N.mul N.eqb Pos.eqb Pos.mul Pos.add Pos.succ BPF_JA BPF_JEQ BPF_JGT BPF_JGE BPF_JSET]; fin.
  - unfold fetch_src. pose proof (size_cases (sf_code f)) as Hs. split_in Hs; rewrite Hs;
      cbn [N.mul N.eqb Pos.eqb Pos.mul Pos.add Pos.succ BPF_K BPF_X BPF_A]; fin.
  - fin.
Qed.

Lemma returns_only : forall prof f vm data v,
  insn_returns f (vm_acc vm) (vm_idx vm) = Some v -> insn_error f = None /\ ~ panics_here prof f vm data.
Proof.
  intros prof f vm data v H. unfold insn_returns in H. unf.
  pose proof (class_cases (sf_code f)) as Hc. split_in Hc; rewrite Hc in *; try discriminate H.
  pose proof (size_cases (sf_code f)) as Hs. split_in Hs; rewrite Hs in *; try discriminate H; auto.
Qed.

Lemma execute_at : forall prof vm data f, nth_error (vm_prog vm) (N.to_nat (vm_pc vm)) = Some f ->
  execute prof vm data = exec_insn prof f (set_pc vm (vm_pc vm + 1)) data.
Proof. intros prof vm data f H. unfold execute. rewrite index_cases, H. reflexivity. Qed.

Lemma execute_outcome : forall prof vm data f, nth_error (vm_prog vm) (N.to_nat (vm_pc vm)) = Some f ->
  outcome prof f vm data (fst (execute prof vm data)) /\
  (fst (execute prof vm data) <> Ok None ->
   snd (execute prof vm data) = mkVM (vm_pc vm + 1) (vm_acc vm) (vm_idx vm) (vm_mem vm) (vm_prog vm)).
Proof.
  intros prof vm data f H. rewrite (execute_at _ _ _ _ H).
  exact (exec_outcome prof f (set_pc vm (vm_pc vm + 1)) data).
Qed.

Lemma c79 : forall prof vm data f, nth_error (vm_prog vm) (N.to_nat (vm_pc vm)) = Some f ->
  let r := fst (execute prof vm data) in
  (r = Panic <-> panics_here prof f vm data) /\
  (forall e, r = Err e <-> insn_error f = Some e /\ ~ panics_here prof f vm data) /\
  (forall v, r = Ok (Some v) <-> insn_returns f (vm_acc vm) (vm_idx vm) = Some v) /\
  (forall d, r <> Died d) /\
  (r <> Ok None -> snd (execute prof vm data) =
     mkVM (vm_pc vm + 1) (vm_acc vm) (vm_idx vm) (vm_mem vm) (vm_prog vm)).
Proof.
  intros prof vm data f H r. destruct (execute_outcome prof vm data f H) as [O S]. fold r in O, S.
  pose proof (returns_only prof f vm data) as R. cbv zeta in O. clearbody r.
  split; [|split; [|split; [|split]]].
  - destruct r as [[v|]|e| |d]; cbn in O; intuition congruence.
  - intros e'. destruct r as [[v|]|e| |d]; cbn in O; intuition congruence.
  - intros v'. destruct r as [[v|]|e| |d]; cbn in O; split; intros E;
      try discriminate E; try contradiction; try (destruct (R v' E); intuition congruence);
      intuition congruence.
  - intros d E. rewrite E in O. exact O.
  - exact S.
Qed.

Lemma c79_past : forall prof vm data, N.of_nat (length (vm_prog vm)) <= vm_pc vm ->
  execute prof vm data = (Panic, vm).
Proof.
  intros prof vm data H. unfold execute. rewrite index_cases.
  destruct (nth_error (vm_prog vm) (N.to_nat (vm_pc vm))) eqn:E; [|reflexivity].
  assert (nth_error (vm_prog vm) (N.to_nat (vm_pc vm)) <> None) as X by congruence.
  apply nth_error_Some in X. lia.
Qed.

(** * C80: run is repeated execute *)
Lemma executed_pc : forall n prof vm data vm1, executed n prof vm data = Some vm1 ->
  vm_pc vm + N.of_nat n <= vm_pc vm1 /\ vm_prog vm1 = vm_prog vm.
Proof.
  induction n as [|n IH]; intros prof vm data vm1 H; cbn [executed] in H.
  - injection H as <-. split; [lia|reflexivity].
  - destruct (vm_pc vm <? _); [|discriminate].
    destruct (execute prof vm data) as [[[v|]|e| |d] vm2] eqn:E; try discriminate.
    destruct (execute_advances _ _ _ _ E) as [A P]. destruct (IH _ _ _ _ H) as [B Q].
    split; [lia|congruence].
Qed.

Lemma executed_run : forall n fuel prof vm data vm1, executed n prof vm data = Some vm1 ->
  run_loop (n + fuel) prof vm data = run_loop fuel prof vm1 data.
Proof.
  induction n as [|n IH]; intros fuel prof vm data vm1 H; cbn [executed] in H.
  - injection H as <-. reflexivity.
  - cbn [Nat.add run_loop]. destruct (vm_pc vm <? _); [|discriminate].
    destruct (execute prof vm data) as [[[v|]|e| |d] vm2] eqn:E; try discriminate.
    apply IH, H.
Qed.

(** Where a run stands before its last instruction. *)
Lemma run_loop_last : forall fuel prof vm data r vm2,
  run_loop fuel prof vm data = (Finished r, vm2) ->
  exists n vm1, executed n prof vm data = Some vm1 /\
    ((N.of_nat (length (vm_prog vm1)) <= vm_pc vm1 /\ r = Ok 0 /\ vm2 = vm1) \/
     (vm_pc vm1 < N.of_nat (length (vm_prog vm1)) /\ 
      ((exists v, r = Ok v /\ execute prof vm1 data = (Ok (Some v), vm2)) \/
       (exists e, r = Err e /\ execute prof vm1 data = (Err e, vm2)) \/
       (r = Panic /\ execute prof vm1 data = (Panic, vm2)) \/
       (exists d, r = Died d /\ execute prof vm1 data = (Died d, vm2))))).
Proof.
  induction fuel as [|fuel IH]; intros prof vm data r vm2 H; cbn [run_loop] in H;
    destruct (N.ltb_spec (vm_pc vm) (N.of_nat (length (vm_prog vm)))) as [L|L];
    try discriminate H.
  - injection H as <- <-. exists O, vm. split; [reflexivity|]. left. auto.
  - destruct (execute prof vm data) as [[[v|]|e| |d] vm3] eqn:E.
    + injection H as <- <-. exists O, vm. split; [reflexivity|]. right. split; [exact L|]. left. eauto.
    + destruct (IH _ _ _ _ _ H) as (n & vm1 & X & D). exists (S n), vm1. split; [|exact D].
      cbn [executed]. destruct (N.ltb_spec (vm_pc vm) (N.of_nat (length (vm_prog vm)))); [|lia].
      rewrite E. exact X.
    + injection H as <- <-. exists O, vm. split; [reflexivity|]. right. split; [exact L|]. right. left. eauto.
    + injection H as <- <-. exists O, vm. split; [reflexivity|]. right. split; [exact L|]. right. right. left. auto.
    + injection H as <- <-. exists O, vm. split; [reflexivity|]. right. split; [exact L|]. right. right. right. eauto.
  - injection H as <- <-. exists O, vm. split; [reflexivity|]. left. auto.
Qed.

Lemma executed_fuel : forall n prof vm data vm1, executed n prof (vm_reset vm) data = Some vm1 ->
  vm_pc vm1 < N.of_nat (length (vm_prog vm)) ->
  exists fuel, vm_run prof vm data = run_loop (S fuel) prof vm1 data.
Proof.
  intros n prof vm data vm1 H L. destruct (executed_pc _ _ _ _ _ H) as [P _]. cbn in P.
  exists (length (vm_prog vm) - n - 1)%nat. unfold vm_run.
  rewrite <- (executed_run _ _ _ _ _ _ H). f_equal. lia.
Qed.

Lemma c80 : forall prof vm data r vm2,
  vm_run prof vm data = (Finished r, vm2) <->
  exists n vm1, executed n prof (vm_reset vm) data = Some vm1 /\
    ((N.of_nat (length (vm_prog vm)) <= vm_pc vm1 /\ r = Ok 0 /\ vm2 = vm1) \/
     (vm_pc vm1 < N.of_nat (length (vm_prog vm)) /\
      ((exists v, r = Ok v /\ execute prof vm1 data = (Ok (Some v), vm2)) \/
       (exists e, r = Err e /\ execute prof vm1 data = (Err e, vm2)) \/
       (r = Panic /\ execute prof vm1 data = (Panic, vm2))))).
Proof.
  intros prof vm data r vm2. split.
  - intros H. destruct (run_loop_last _ _ _ _ _ _ H) as (n & vm1 & X & D).
    destruct (executed_pc _ _ _ _ _ X) as [_ P]. cbn in P. rewrite P in D.
    exists n, vm1. split; [exact X|]. destruct D as [D|(L & D)]; [left; exact D|right].
    split; [exact L|]. destruct D as [D|[D|[D|(d & _ & D)]]]; auto.
    exfalso. destruct (nth_error (vm_prog vm1) (N.to_nat (vm_pc vm1))) as [f|] eqn:F.
    + destruct (execute_outcome prof vm1 data f F) as [O _]. rewrite D in O. exact O.
    + apply nth_error_None in F. rewrite P in F. lia.
  - intros (n & vm1 & X & D). destruct (executed_pc _ _ _ _ _ X) as [Q P]. cbn in P, Q.
    destruct D as [(L & -> & ->)|(L & D)].
    + unfold vm_run.
      assert (N.of_nat n <= N.of_nat (length (vm_prog vm))) as B.
      { pose proof (executed_bound _ _ _ _ _ X) as B. cbn in B. lia. }
      replace (length (vm_prog vm)) with (n + (length (vm_prog vm) - n))%nat by lia.
      rewrite (executed_run _ _ _ _ _ _ X).
      destruct (length (vm_prog vm) - n)%nat; cbn [run_loop]; rewrite P;
        (destruct (N.ltb_spec (vm_pc vm1) (N.of_nat (length (vm_prog vm)))); [lia|reflexivity]).
    + destruct (executed_fuel _ _ _ _ _ X L) as [fuel ->]. cbn [run_loop]. rewrite P.
      destruct (N.ltb_spec (vm_pc vm1) (N.of_nat (length (vm_prog vm)))); [|lia].
      destruct D as [(v & -> & ->)|[(e & -> & ->)|(-> & ->)]]; reflexivity.
Qed.

(** * C79 for whole runs *)
Lemma in_program : forall A (l : list A) i, i < N.of_nat (length l) ->
  exists a, nth_error l (N.to_nat i) = Some a.
Proof.
  intros A l i H. destruct (nth_error l (N.to_nat i)) eqn:E; [eauto|].
  apply nth_error_None in E. lia.
Qed.
Lemma in_range : forall A (l : list A) i a, nth_error l (N.to_nat i) = Some a -> i < N.of_nat (length l).
Proof.
  intros A l i a H. assert (nth_error l (N.to_nat i) <> None) as X by congruence.
  apply nth_error_Some in X. lia.
Qed.

Lemma run_pair : forall prof vm data r, fst (vm_run prof vm data) = Finished r ->
  exists vm2, vm_run prof vm data = (Finished r, vm2).
Proof. intros prof vm data r H. destruct (vm_run prof vm data) as [x vm2]. cbn in H. subst. eauto. Qed.

Lemma c79_run : forall prof vm data,
  (forall e, fst (vm_run prof vm data) = Finished (Err e) <->
    exists n vm1 f, executed n prof (vm_reset vm) data = Some vm1 /\
      nth_error (vm_prog vm) (N.to_nat (vm_pc vm1)) = Some f /\
      insn_error f = Some e /\ ~ panics_here prof f vm1 data) /\
  (fst (vm_run prof vm data) = Finished Panic <->
    exists n vm1 f, executed n prof (vm_reset vm) data = Some vm1 /\
      nth_error (vm_prog vm) (N.to_nat (vm_pc vm1)) = Some f /\ panics_here prof f vm1 data).
Proof.
  intros prof vm data. split.
  - intros e. split.
    + intros H. destruct (run_pair _ _ _ _ H) as [vm2 R]. apply c80 in R.
      destruct R as (n & vm1 & X & [(_ & E & _)|(L & D)]); [discriminate E|].
      destruct (executed_pc _ _ _ _ _ X) as [_ P]. cbn in P.
      destruct (in_program _ _ _ L) as [f F].
      exists n, vm1, f. split; [exact X|]. split; [exact F|].
      rewrite <- P in F. destruct (c79 prof vm1 data f F) as (_ & E & _).
      apply E. destruct D as [(v & Y & _)|[(e' & Y & Z)|(Y & _)]]; try discriminate Y.
      injection Y as <-. rewrite Z. reflexivity.
    + intros (n & vm1 & f & X & F & E & N).
      destruct (executed_pc _ _ _ _ _ X) as [_ P]. cbn in P.
      assert (F' := F). rewrite <- P in F'. destruct (c79 prof vm1 data f F') as (_ & Q & _).
      assert (fst (execute prof vm1 data) = Err e) as Z by (apply Q; auto).
      assert (vm_run prof vm data = (Finished (Err e), snd (execute prof vm1 data))) as ->; [|reflexivity].
      apply c80. exists n, vm1. split; [exact X|]. right. split; [exact (in_range _ _ _ _ F)|].
      right. left. exists e. split; [reflexivity|]. rewrite <- Z. apply surjective_pairing.
  - split.
    + intros H. destruct (run_pair _ _ _ _ H) as [vm2 R]. apply c80 in R.
      destruct R as (n & vm1 & X & [(_ & E & _)|(L & D)]); [discriminate E|].
      destruct (executed_pc _ _ _ _ _ X) as [_ P]. cbn in P.
      destruct (in_program _ _ _ L) as [f F].
      exists n, vm1, f. split; [exact X|]. split; [exact F|].
      rewrite <- P in F. destruct (c79 prof vm1 data f F) as (E & _).
      apply E. destruct D as [(v & Y & _)|[(e' & Y & _)|(_ & Z)]]; try discriminate Y.
      rewrite Z. reflexivity.
    + intros (n & vm1 & f & X & F & N).
      destruct (executed_pc _ _ _ _ _ X) as [_ P]. cbn in P.
      assert (F' := F). rewrite <- P in F'. destruct (c79 prof vm1 data f F') as (Q & _).
      assert (fst (execute prof vm1 data) = Panic) as Z by (apply Q; auto).
      assert (vm_run prof vm data = (Finished Panic, snd (execute prof vm1 data))) as ->; [|reflexivity].
      apply c80. exists n, vm1. split; [exact X|]. right. split; [exact (in_range _ _ _ _ F)|].
      right. right. split; [reflexivity|]. rewrite <- Z. apply surjective_pairing.
Qed.

Lemma c79_static : forall prof vm data e,
  fst (vm_run prof vm data) = Finished (Err e) ->
  exists f, In f (vm_prog vm) /\ insn_error f = Some e.
Proof.
  intros prof vm data e H. apply (proj1 (c79_run prof vm data)) in H.
  destruct H as (n & vm1 & f & _ & F & E & _). exists f. split; [|exact E].
  exact (nth_error_In _ _ F).
Qed.

(** * C81 and C82 *)
Lemma run_same : forall prog p1 p2 d1 d2,
  (forall vm, vm_prog vm = prog -> fst (execute p1 vm d1) <> Panic ->
     execute p2 vm d2 = execute p1 vm d1) ->
  forall fuel vm r vm', vm_prog vm = prog ->
  run_loop fuel p1 vm d1 = (Finished r, vm') -> r <> Panic ->
  run_loop fuel p2 vm d2 = (Finished r, vm').
Proof.
  intros prog p1 p2 d1 d2 S. induction fuel as [|fuel IH]; intros vm r vm' P H N;
    cbn [run_loop] in *; destruct (vm_pc vm <? _); try exact H.
  rewrite S; [|exact P|].
  - destruct (execute p1 vm d1) as [[[v|]|e| |d] vm2] eqn:E; try exact H.
    apply IH; auto. pose proof (execute_prog p1 vm d1) as Q. rewrite E in Q. cbn in Q. congruence.
  - destruct (execute p1 vm d1) as [[[v|]|e| |d] vm2]; try discriminate.
    injection H as <- _. intros _. apply N. reflexivity.
Qed.

Lemma index_more : forall E (l l' : list N) i, index (E := E) l i <> Panic ->
  index (E := E) (l ++ l') i = index l i.
Proof.
  intros E l l' i H. rewrite index_cases in *.
  destruct (nth_error l (N.to_nat i)) eqn:X; [|destruct (H eq_refl)].
  rewrite index_cases, nth_error_app1, X; [reflexivity|]. apply nth_error_Some. congruence.
Qed.

Lemma fetch_more : forall l l' o s, fetch_data l o s <> Panic -> fetch_data (l ++ l') o s = fetch_data l o s.
Proof.
  intros l l' o s H. unfold fetch_data in *. destruct (s =? BPF_W); [|reflexivity].
  apply index_more. exact H.
Qed.

Lemma exec_more : forall prof f vm data extra, ~ asks_length f ->
  fst (exec_insn prof f vm data) <> Panic ->
  exec_insn prof f vm (data ++ extra) = exec_insn prof f vm data.
Proof.
  intros prof f vm data extra A. unfold exec_insn, asks_length in *.
  rewrite f_class, f_mode. intros H.
  destruct (i_class (sf_code f) =? BPF_LD) eqn:C0; [|destruct (i_class (sf_code f) =? BPF_LDX) eqn:C1].
  - apply N.eqb_eq in C0. rewrite C0 in A.
    pose proof (mode_cases (sf_code f)) as Hm. split_in Hm; rewrite Hm in *; cbv [BPF_IMM BPF_ABS
      BPF_IND BPF_MEM BPF_LEN N.mul Pos.mul Pos.add Pos.succ N.eqb Pos.eqb] in *; try reflexivity.
    + rewrite fetch_more; [reflexivity|]. intros E. rewrite E in H. apply H. reflexivity.
    + destruct (add_u32 prof (vm_idx vm) (sf_k f)) as [o|e| |d]; cbn [bind] in *; try reflexivity.
      rewrite fetch_more; [reflexivity|]. intros E. rewrite E in H. apply H. reflexivity.
    + exfalso. apply A. split; [reflexivity|reflexivity].
  - apply N.eqb_eq in C1. rewrite C1 in A.
    pose proof (mode_cases (sf_code f)) as Hm. split_in Hm; rewrite Hm in *; cbv [BPF_IMM BPF_ABS
      BPF_IND BPF_MEM BPF_LEN N.mul Pos.mul Pos.add Pos.succ N.eqb Pos.eqb] in *; try reflexivity.
    exfalso. apply A. split; [reflexivity|reflexivity].
  - reflexivity.
Qed.

Lemma c81 : forall prof vm data extra r vm',
  Forall (fun f => ~ asks_length f) (vm_prog vm) ->
  vm_run prof vm data = (Finished r, vm') -> r <> Panic ->
  vm_run prof vm (data ++ extra) = (Finished r, vm').
Proof.
  intros prof vm data extra r vm' A H N. unfold vm_run in *.
  refine (run_same (vm_prog vm) prof prof data (data ++ extra) _ _ _ _ _ _ H N); [|reflexivity].
  intros vm1 P X. unfold execute in *. rewrite index_cases in *. rewrite P in *.
  destruct (nth_error (vm_prog vm) (N.to_nat (vm_pc vm1))) as [f|] eqn:F; [|reflexivity].
  apply exec_more; [|exact X]. rewrite Forall_forall in A. apply A. exact (nth_error_In _ _ F).
Qed.

Lemma exec_release : forall f vm data, fst (exec_insn Debug f vm data) <> Panic ->
  exec_insn Release f vm data = exec_insn Debug f vm data.
Proof.
  intros f vm data. unfold exec_insn, alu, add_u32, sub_u32, sub_mod, mul_u32, shl_u32, shr_u32.
  destruct (N.land (sf_code f) 7 =? BPF_LD).
  { repeat match goal with |- context [if ?b then _ else _] => destruct b end; try reflexivity;
      cbn; intros H; destruct (H eq_refl). }
  do 3 (destruct (_ =? _); [reflexivity|]).
  destruct (_ =? BPF_ALU); [|reflexivity].
  destruct (fetch_src _ _ _) as [s|e| |d]; cbn [bind]; try reflexivity.
  repeat match goal with |- context [if ?b then _ else _] => destruct b end; try reflexivity;
      cbn; intros H; destruct (H eq_refl).
Qed.

Lemma c82 : forall vm data r vm',
  vm_run Debug vm data = (Finished r, vm') -> r <> Panic ->
  vm_run Release vm data = (Finished r, vm').
Proof.
  intros vm data r vm' H N. unfold vm_run in *.
  refine (run_same (vm_prog vm) Debug Release data data _ _ _ _ _ _ H N); [|reflexivity].
  intros vm1 _ X. unfold execute in *. destruct (index _ _); try reflexivity.
  apply exec_release. exact X.
Qed.

Lemma c82_prefix : forall n vm data vm1,
  executed n Debug vm data = Some vm1 -> executed n Release vm data = Some vm1.
Proof.
  induction n as [|n IH]; intros vm data vm1 H; cbn [executed] in *; [exact H|].
  destruct (vm_pc vm <? _); [|exact H].
  assert (fst (execute Debug vm data) <> Panic -> execute Release vm data = execute Debug vm data) as S.
  { unfold execute. destruct (index _ _); try reflexivity. apply exec_release. }
  destruct (execute Debug vm data) as [[[v|]|e| |d] vm2]; try discriminate H.
  rewrite S by discriminate. apply IH, H.
Qed.

(** * C83: effect of one instruction *)
Lemma list_set_replaced : forall (l : list N) i v, (i < length l)%nat ->
  list_set l i v = firstn i l ++ v :: skipn (S i) l.
Proof.
  induction l as [|a l IH]; intros i v H; cbn in H; [lia|].
  destruct i as [|i]; [reflexivity|]. cbn [list_set firstn skipn app]. f_equal.
  rewrite IH by lia. reflexivity.
Qed.
Lemma index_nth : forall E (l : list N) i v, index (E := E) l i = Ok v -> v = nth (N.to_nat i) l 0.
Proof.
  intros E l i v H. apply index_Ok in H. symmetry. apply (nth_error_nth l _ 0 H).
Qed.

Ltac okn H := injection H as <-; unfold set_acc, set_idx, set_mem, set_pc; cbn [vm_pc vm_acc vm_idx vm_mem vm_prog].

Lemma exec_effect : forall prof f pc acc idx cells prog data vm',
  word acc -> word idx -> word (sf_k f) ->
  exec_insn prof f (mkVM (pc + 1) acc idx cells prog) data = (Ok None, vm') ->
  vm' = insn_effect f (mkVM pc acc idx cells prog) data.
Proof.
  intros prof f pc acc idx cells prog data vm' Wa Wx Wk. unfold exec_insn.
  cbn [vm_pc vm_acc vm_idx vm_mem vm_prog].
  rewrite f_class, f_size, f_src, f_mode, f_op. unfold insn_effect.
  pose proof (class_cases (sf_code f)) as Hc. split_in Hc; rewrite Hc; cbn [N.eqb Pos.eqb BPF_LD BPF_LDX
    BPF_ST BPF_STX BPF_ALU BPF_JMP BPF_RET BPF_MISC].
  - unfold loaded. pose proof (mode_cases (sf_code f)) as Hm. split_in Hm; rewrite Hm;
      cbn [N.mul N.eqb Pos.eqb Pos.mul Pos.add Pos.succ BPF_IMM BPF_ABS BPF_IND BPF_MEM BPF_LEN];
      try (intros H; okn H; reflexivity); try discriminate.
    + unfold fetch_data, fetch_u32. destruct (_ =? BPF_W).
      2: { destruct (_ =? BPF_H); [discriminate|]. destruct (_ =? BPF_B); discriminate. }
      destruct (index data (sf_k f / 4)) eqn:X; try discriminate. apply index_nth in X.
      intros H. okn H. rewrite X. reflexivity.
    + unfold add_u32, u32_mod.
      assert (forall o, o = (idx + sf_k f) mod 2 ^ 32 ->
        match fetch_data data o (i_size (sf_code f) * 8) with
        | Ok v => (Ok (@None N), set_acc (mkVM (pc + 1) acc idx cells prog) v)
        | Err e => (Err e, mkVM (pc + 1) acc idx cells prog)
        | Panic => (Panic, mkVM (pc + 1) acc idx cells prog)
        | Died d => (Died d, mkVM (pc + 1) acc idx cells prog)
        end = (Ok None, vm') ->
        vm' = mkVM (pc + 1) (nth (N.to_nat ((idx + sf_k f) mod 2 ^ 32 / 4)) data 0) idx cells prog) as K.
      { intros o Ho. unfold fetch_data, fetch_u32. destruct (_ =? BPF_W).
        2: { destruct (_ =? BPF_H); [discriminate|]. destruct (_ =? BPF_B); discriminate. }
        destruct (index data (o / 4)) eqn:X; try discriminate. apply index_nth in X.
        intros H. okn H. rewrite X, <- Ho. reflexivity. }
      destruct (N.ltb_spec (idx + sf_k f) (2 ^ 32)) as [L|L]; cbn [bind].
      * apply K. symmetry. apply N.mod_small, L.
      * destruct prof; cbn [bind]; [discriminate|]. apply K. reflexivity.
    + destruct (index cells (sf_k f)) eqn:X; try discriminate. apply index_nth in X.
      intros H. okn H. rewrite X. reflexivity.
  - unfold loaded. pose proof (mode_cases (sf_code f)) as Hm. split_in Hm; rewrite Hm;
      cbn [N.mul N.eqb Pos.eqb Pos.mul Pos.add Pos.succ BPF_IMM BPF_ABS BPF_IND BPF_MEM BPF_LEN];
      try (intros H; okn H; reflexivity); try discriminate.
    destruct (index cells (sf_k f)) eqn:X; try discriminate. apply index_nth in X.
    intros H. okn H. rewrite X. reflexivity.
  - unfold index_set. destruct (N.ltb_spec (sf_k f) (N.of_nat (length cells))) as [L|L]; [|discriminate].
    intros H. okn H. rewrite list_set_replaced by lia. reflexivity.
  - unfold index_set. destruct (N.ltb_spec (sf_k f) (N.of_nat (length cells))) as [L|L]; [|discriminate].
    intros H. okn H. rewrite list_set_replaced by lia. reflexivity.
  - unfold computed.
    assert (exists s, fetch_src (mkVM (pc + 1) acc idx cells prog) (i_src (sf_code f) * 8) f = Ok s /\
              s = (if i_src (sf_code f) =? 0 then sf_k f else idx) /\ word s) as (s & -> & Hs & Ws).
    { pose proof (src_cases (sf_code f)) as H. split_in H; rewrite H; eexists; split; try reflexivity;
        split; try reflexivity; assumption. }
    rewrite <- Hs. cbn [bind]. cbv zeta. unfold alu. unfold word in *.
    pose proof (op_cases (sf_code f)) as Ho. split_in Ho; rewrite Ho;
      cbn [N.mul N.eqb Pos.eqb Pos.mul Pos.add Pos.succ BPF_ADD BPF_SUB BPF_MUL BPF_DIV BPF_OR BPF_AND
           BPF_LSH BPF_RSH BPF_NEG BPF_MOD BPF_XOR]; try discriminate;
      try (intros H; okn H; reflexivity);
      unfold add_u32, sub_u32, sub_mod, mul_u32, div_u32, rem_u32, shl_u32, shr_u32, u32_mod.
    + destruct (N.ltb_spec (acc + s) (2 ^ 32)) as [L|L].
      * intros H. okn H. rewrite N.mod_small by exact L. reflexivity.
      * destruct prof; [discriminate|]. intros H. okn H. reflexivity.
    + destruct (N.leb_spec s acc) as [L|L].
      * intros H. okn H. f_equal. replace (acc + 2 ^ 32 - s) with (acc - s + 1 * 2 ^ 32) by lia.
        rewrite N.mod_add by discriminate. rewrite N.mod_small by lia. reflexivity.
      * destruct prof; [discriminate|]. intros H. okn H. reflexivity.
    + destruct (N.ltb_spec (acc * s) (2 ^ 32)) as [L|L].
      * intros H. okn H. rewrite N.mod_small by exact L. reflexivity.
      * destruct prof; [discriminate|]. intros H. okn H. reflexivity.
    + destruct (s =? 0); [discriminate|]. intros H. okn H. reflexivity.
    + destruct (N.ltb_spec s 32) as [L|L].
      * intros H. okn H. rewrite (N.mod_small s 32) by exact L. rewrite N.shiftl_mul_pow2. reflexivity.
      * destruct prof; [discriminate|]. intros H. okn H. rewrite N.shiftl_mul_pow2. reflexivity.
    + destruct (N.ltb_spec s 32) as [L|L].
      * intros H. okn H. rewrite (N.mod_small s 32) by exact L. rewrite N.shiftr_div_pow2. reflexivity.
      * destruct prof; [discriminate|]. intros H. okn H. rewrite N.shiftr_div_pow2. reflexivity.
    + destruct (s =? 0); [discriminate|]. intros H. okn H. reflexivity.
  - unfold jumped. pose proof (op_cases (sf_code f)) as Ho. split_in Ho; rewrite Ho;
      cbn [N.mul N.eqb Pos.eqb Pos.mul Pos.add Pos.succ BPF_JA BPF_JEQ BPF_JGT BPF_JGE BPF_JSET];
      intros H; try discriminate H; okn H; try reflexivity.
    destruct (N.land acc (sf_k f)); reflexivity.
  - unfold fetch_src. cbn [vm_acc vm_idx].
    destruct (_ =? BPF_K); [discriminate|]. destruct (_ =? BPF_X); [discriminate|].
    destruct (_ =? BPF_A); discriminate.
  - discriminate.
Qed.

Lemma c83 : forall prof vm data f vm',
  nth_error (vm_prog vm) (N.to_nat (vm_pc vm)) = Some f ->
  word (vm_acc vm) -> word (vm_idx vm) -> word (sf_k f) ->
  insn_error f = None -> insn_returns f (vm_acc vm) (vm_idx vm) = None ->
  (execute prof vm data = (Ok None, vm') <->
   vm' = insn_effect f vm data /\ ~ panics_here prof f vm data).
Proof.
  intros prof vm data f vm' F Wa Wx Wk E R.
  pose proof (c79 prof vm data f F) as (P & Q & V & D & _).
  pose proof (execute_at prof vm data f F) as X. destruct vm as [pc acc idx cells prog].
  cbn [vm_pc vm_acc vm_idx vm_mem vm_prog set_pc] in *. split.
  - intros H. split.
    + apply (exec_effect prof f pc acc idx cells prog data vm' Wa Wx Wk). rewrite <- H, X. reflexivity.
    + intros N. apply P in N. rewrite H in N. discriminate N.
  - intros [-> N].
    destruct (execute prof (mkVM pc acc idx cells prog) data) as [[[v|]|e| |d] vm2] eqn:Z;
      cbn [fst] in *.
    + assert (None = Some v) as A by (rewrite <- R; apply V; reflexivity). discriminate A.
    + f_equal. symmetry in X. apply (exec_effect prof f pc acc idx cells prog data vm2 Wa Wx Wk). exact X.
    + destruct (proj1 (Q e) eq_refl) as [A _]. congruence.
    + exfalso. apply N, P. reflexivity.
    + exfalso. apply (D d). reflexivity.
Qed.
