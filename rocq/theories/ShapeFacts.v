(** Exactly which programs the assembler can produce (C104). *)
From Coq Require Import NArith ZArith String Ascii List Bool Lia.
From Verif Require Import Libc Machine Bpf SeccompRet Asm Vm Kernel Spec AsmSpec VmProofs AsmProofs KernelVmProofs.
Import ListNotations.
Local Open Scope N_scope.

Lemma mapM_nth : forall E A B (f : N * A -> res E B) l n r i b,
  mapM f (enumerate n l) = Ok r -> nth_error r i = Some b ->
  exists a, nth_error l i = Some a /\ f (n + N.of_nat i, a) = Ok b.
Proof.
  intros E A B f. induction l as [|a l IH]; intros n r i b M Hi; cbn [enumerate mapM] in M.
  - injection M as <-. destruct i; discriminate.
  - destruct (f (n, a)) as [b0| | |] eqn:Ea; cbn [bind] in M; try discriminate.
    destruct (mapM f (enumerate (n + 1) l)) as [bs| | |] eqn:El; cbn [bind] in M; try discriminate.
    injection M as <-. destruct i as [|i].
    + injection Hi as <-. exists a. split; [reflexivity|]. rewrite N.add_0_r. exact Ea.
    + destruct (IH _ _ _ _ El Hi) as (a' & Ha & Hf). exists a'. split; [exact Ha|].
      rewrite <- Hf. f_equal. f_equal. lia.
Qed.

Lemma jmp_calc_range : forall prog lo n v,
  n + 1 <= instructions prog ->
  jmp_calc Debug (map_labels prog) lo n = Ok v -> n + 1 + v <= instructions prog.
Proof.
  intros prog [l|] n v Hn H; cbn [jmp_calc] in H; [|injection H as <-; lia].
  rewrite map_labels_get in H. destruct (distance l prog) as [k|] eqn:D; [|discriminate].
  apply distance_le in D. unfold sub_usize, sub_mod in H.
  destruct (N.leb_spec n k); cbn [bind] in H; [|discriminate].
  destruct (N.leb_spec 1 (k - n)); [|discriminate]. injection H as <-. lia.
Qed.

Lemma mod_le' : forall a m, m <> 0 -> a mod m <= a.
Proof. intros a m H. apply N.mod_le. exact H. Qed.

Lemma emits_expressible : forall prog i op f,
  nth_error (strip prog) i = Some op -> word_token op ->
  to_sock_filter Debug (N.of_nat i) op (map_labels prog) = Ok f ->
  expressible (length (strip prog)) i f.
Proof.
  intros prog i op f Hi Hw Hf.
  assert (L : N.of_nat i + 1 <= instructions prog).
  { rewrite instructions_strip. assert (i < length (strip prog))%nat by (apply nth_error_Some; congruence). lia. }
  unfold expressible. rewrite <- instructions_strip. split.
  { destruct op as [l|m v|m v|m v|m v|o s v|s v|l|o k lt lf]; cbn [to_sock_filter word_token] in Hf, Hw;
      try discriminate; try (injection Hf as <-; exact Hw).
    - destruct (jmp_calc _ _ _ _); cbn [bind] in Hf; try discriminate. injection Hf as <-.
      apply N.mod_lt. discriminate.
    - destruct (jmp_calc _ _ lt _); cbn [bind] in Hf; try discriminate.
      destruct (jmp_calc _ _ lf _); cbn [bind] in Hf; try discriminate. injection Hf as <-. exact Hw. }
  destruct op as [l|m v|m v|m v|m v|o s v|s v|l|o k lt lf]; cbn [to_sock_filter] in Hf.
  - discriminate.
  - left. injection Hf as <-. destruct m; (split; [vm_compute; tauto|split; reflexivity]).
  - left. injection Hf as <-. destruct m; (split; [vm_compute; tauto|split; reflexivity]).
  - left. injection Hf as <-. destruct m; (split; [vm_compute; tauto|split; reflexivity]).
  - left. injection Hf as <-. destruct m; (split; [vm_compute; tauto|split; reflexivity]).
  - left. injection Hf as <-. destruct o, s; (split; [vm_compute; tauto|split; reflexivity]).
  - left. injection Hf as <-. destruct s; (split; [vm_compute; tauto|split; reflexivity]).
  - right. destruct (jmp_calc Debug (map_labels prog) (Some l) (N.of_nat i)) as [v| | |] eqn:J;
      cbn [bind] in Hf; try discriminate. injection Hf as <-. cbn [sf_code sf_jt sf_jf bpf_jmp].
    split; [vm_compute; tauto|]. repeat split; try reflexivity; lia.
  - right. destruct (jmp_calc Debug (map_labels prog) lt (N.of_nat i)) as [a| | |] eqn:J;
      cbn [bind] in Hf; try discriminate.
    destruct (jmp_calc Debug (map_labels prog) lf (N.of_nat i)) as [b| | |] eqn:K;
      cbn [bind] in Hf; try discriminate.
    injection Hf as <-. cbn [sf_code sf_jt sf_jf bpf_jmp].
    apply (jmp_calc_range _ _ _ _ L) in J. apply (jmp_calc_range _ _ _ _ L) in K.
    split; [destruct o; vm_compute; tauto|]. unfold as_u8.
    pose proof (mod_le' a u8_mod ltac:(discriminate)). pose proof (mod_le' b u8_mod ltac:(discriminate)).
    repeat split; try (apply N.mod_lt; discriminate); lia.
Qed.

Lemma c104_only : forall prog code,
  Forall word_token prog -> compile Debug prog = Ok code ->
  forall i f, nth_error code i = Some f -> expressible (length code) i f.
Proof.
  intros prog code W C i f Hi. unfold compile in C.
  change (filter (fun op => negb (is_label op)) prog) with (strip prog) in C.
  destruct (mapM_nth _ _ _ _ _ _ _ _ _ C Hi) as (op & Ho & Hf). cbn [fst snd] in Hf.
  rewrite N.add_0_l in Hf.
  pose proof (mapM_length _ _ _ _ _ _ C) as Len. rewrite enumerate_length in Len. rewrite Len.
  refine (emits_expressible _ _ _ _ Ho _ Hf).
  apply nth_error_In in Ho. unfold strip in Ho. apply filter_In in Ho.
  exact (proj1 (Forall_forall _ _) W _ (proj1 Ho)).
Qed.

(** * Writing tokens for given instructions *)
(** A different label for every number. *)
Fixpoint name (n : nat) : string :=
  match n with O => EmptyString | S n' => String "a"%char (name n') end.
Lemma name_inj : forall a b, name a = name b -> a = b.
Proof. induction a as [|a IH]; intros [|b] H; cbn in H; try discriminate; [reflexivity|]. injection H as H. f_equal. auto. Qed.
Lemma name_eqb : forall a b, String.eqb (name a) (name b) = Nat.eqb a b.
Proof.
  intros a b. destruct (String.eqb_spec (name a) (name b)) as [E|E], (Nat.eqb_spec a b) as [F|F]; try reflexivity.
  - elim F. apply name_inj. exact E.
  - elim E. now rewrite F.
Qed.

Lemma statement_token : forall f, In (sf_code f) statement_codes -> sf_jt f = 0 -> sf_jf f = 0 -> sf_k f < 2 ^ 32 ->
  exists op, (is_label op = false /\ word_token op) /\ forall prof n labels, to_sock_filter prof n op labels = Ok f.
Proof.
  intros [c jt jf k] Hc Ht Hf Hk. cbn [sf_code sf_jt sf_jf sf_k] in *. subst jt jf.
  assert (LD : forall m, sf_code (bpf_ld m k) = c -> exists op, (is_label op = false /\ word_token op) /\
    forall prof n labels, to_sock_filter prof n op labels = Ok (SockFilter c 0 0 k)).
  { intros m <-. exists (Load m k). split; [split; [reflexivity|exact Hk]|reflexivity]. }
  assert (LDX : forall m, sf_code (bpf_ldx m k) = c -> exists op, (is_label op = false /\ word_token op) /\
    forall prof n labels, to_sock_filter prof n op labels = Ok (SockFilter c 0 0 k)).
  { intros m <-. exists (LoadIdx m k). split; [split; [reflexivity|exact Hk]|reflexivity]. }
  assert (ST : forall m, sf_code (bpf_st m k) = c -> exists op, (is_label op = false /\ word_token op) /\
    forall prof n labels, to_sock_filter prof n op labels = Ok (SockFilter c 0 0 k)).
  { intros m <-. exists (Store m k). split; [split; [reflexivity|exact Hk]|reflexivity]. }
  assert (STX : forall m, sf_code (bpf_stx m k) = c -> exists op, (is_label op = false /\ word_token op) /\
    forall prof n labels, to_sock_filter prof n op labels = Ok (SockFilter c 0 0 k)).
  { intros m <-. exists (StoreIdx m k). split; [split; [reflexivity|exact Hk]|reflexivity]. }
  assert (AL : forall o s, sf_code (bpf_alu o s k) = c -> exists op, (is_label op = false /\ word_token op) /\
    forall prof n labels, to_sock_filter prof n op labels = Ok (SockFilter c 0 0 k)).
  { intros o s <-. exists (Alu o s k). split; [split; [reflexivity|exact Hk]|reflexivity]. }
  assert (RT : forall s, sf_code (bpf_ret s k) = c -> exists op, (is_label op = false /\ word_token op) /\
    forall prof n labels, to_sock_filter prof n op labels = Ok (SockFilter c 0 0 k)).
  { intros s <-. exists (Return s k). split; [split; [reflexivity|exact Hk]|reflexivity]. }
  cbn [statement_codes In] in Hc.
  repeat (destruct Hc as [Hc|Hc]; [clear - Hc LD LDX ST STX AL RT; subst c;
    first [ exact (LD IMM eq_refl) | exact (LD ABS eq_refl) | exact (LD IND eq_refl)
          | exact (LD MEM eq_refl) | exact (LD LEN eq_refl)
          | exact (LDX IMM eq_refl) | exact (LDX ABS eq_refl) | exact (LDX IND eq_refl)
          | exact (LDX MEM eq_refl) | exact (LDX LEN eq_refl)
          | exact (ST IMM eq_refl) | exact (ST ABS eq_refl) | exact (ST IND eq_refl)
          | exact (ST MEM eq_refl) | exact (ST LEN eq_refl)
          | exact (STX IMM eq_refl) | exact (STX ABS eq_refl) | exact (STX IND eq_refl)
          | exact (STX MEM eq_refl) | exact (STX LEN eq_refl)
          | exact (RT Const eq_refl) | exact (RT Idx eq_refl) | exact (RT Acc eq_refl)
          | exact (AL ADD Const eq_refl) | exact (AL SUB Const eq_refl) | exact (AL MUL Const eq_refl)
          | exact (AL DIV Const eq_refl) | exact (AL OR Const eq_refl) | exact (AL AND Const eq_refl)
          | exact (AL LSH Const eq_refl) | exact (AL RSH Const eq_refl) | exact (AL MOD Const eq_refl)
          | exact (AL XOR Const eq_refl)
          | exact (AL ADD Idx eq_refl) | exact (AL SUB Idx eq_refl) | exact (AL MUL Idx eq_refl)
          | exact (AL DIV Idx eq_refl) | exact (AL OR Idx eq_refl) | exact (AL AND Idx eq_refl)
          | exact (AL LSH Idx eq_refl) | exact (AL RSH Idx eq_refl) | exact (AL MOD Idx eq_refl)
          | exact (AL XOR Idx eq_refl) | exact (AL XOR Acc eq_refl) ]|]).
  destruct Hc.
Qed.

Lemma jump_op : forall c, In c jump_codes -> exists o, as_u16 (N.lor BPF_JMP (jmpop_code o)) = c.
Proof.
  intros c H. cbn [jump_codes In] in H.
  destruct H as [<-|[<-|[<-|[<-|[<-|[]]]]]];
    [exists JA|exists JEQ|exists JGT|exists JGE|exists JSET]; reflexivity.
Qed.

(** Every label [name j] with j up to [len] is defined at line j. *)
Lemma some_token : forall len i f labels, expressible len i f ->
  (forall j, (j <= len)%nat -> lm_get labels (name j) = Some (N.of_nat j)) ->
  exists op, (is_label op = false /\ word_token op) /\
    forall prof, to_sock_filter prof (N.of_nat i) op labels = Ok f.
Proof.
  intros len i f labels [Hk [(A & B & C)|(A & B & C & D & E)]] HL.
  - destruct (statement_token f A B C Hk) as (op & Ho & H). exists op. split; [exact Ho|]. intros prof. apply H.
  - destruct (jump_op _ A) as [o Ho].
    exists (Jump o (sf_k f) (Some (name (i + 1 + N.to_nat (sf_jt f)))) (Some (name (i + 1 + N.to_nat (sf_jf f))))).
    split; [split; [reflexivity|exact Hk]|]. intros prof. cbn [to_sock_filter].
    assert (K : forall v, v < 2 ^ 8 -> N.of_nat i + 1 + v <= N.of_nat len ->
      jmp_calc prof labels (Some (name (i + 1 + N.to_nat v))) (N.of_nat i) = Ok v).
    { intros v _ Hv. cbn [jmp_calc]. rewrite HL by lia. unfold sub_usize, sub_mod.
      destruct (N.leb_spec (N.of_nat i) (N.of_nat (i + 1 + N.to_nat v))); [|lia]. cbn [bind].
      destruct (N.leb_spec 1 (N.of_nat (i + 1 + N.to_nat v) - N.of_nat i)); [|lia]. f_equal. lia. }
    rewrite (K _ B D). cbn [bind]. rewrite (K _ C E). cbn [bind]. f_equal.
    destruct f as [c jt jf k]. unfold bpf_jmp. cbn [sf_code sf_jt sf_jf sf_k] in *. rewrite Ho.
    unfold as_u8. rewrite !N.mod_small by assumption. reflexivity.
Qed.

(** A label before every token and one at the end. *)
Fixpoint labelled (i : nat) (ops : list Operation) : list Operation :=
  match ops with [] => [Label (name i)] | op :: ops' => Label (name i) :: op :: labelled (S i) ops' end.
Lemma labelled_strip : forall ops i, Forall (fun op => is_label op = false) ops -> strip (labelled i ops) = ops.
Proof.
  induction ops as [|op ops IH]; intros i F; [reflexivity|]. inversion F as [|? ? H F']; subst.
  cbn [labelled]. unfold strip. cbn [filter is_label negb]. rewrite H. cbn [negb]. f_equal. apply IH. exact F'.
Qed.
Lemma labelled_words : forall ops i, Forall word_token ops -> Forall word_token (labelled i ops).
Proof.
  induction ops as [|op ops IH]; intros i F; cbn [labelled]; [repeat constructor|].
  inversion F; subst. constructor; [exact Logic.I|]. constructor; [assumption|]. apply IH. assumption.
Qed.

Lemma tokens_for : forall labels len code i,
  (forall k f, nth_error code k = Some f -> expressible len (i + k) f) ->
  (forall j, (j <= len)%nat -> lm_get labels (name j) = Some (N.of_nat j)) ->
  exists ops, (Forall (fun op => is_label op = false) ops /\ Forall word_token ops) /\ length ops = length code /\
    forall prof, mapM (fun p => to_sock_filter prof (fst p) (snd p) labels) (enumerate (N.of_nat i) ops) = Ok code.
Proof.
  intros labels len. induction code as [|f code IH]; intros i H HL.
  - exists []. repeat split; constructor.
  - destruct (some_token len i f labels) as (op & [Ho Hw] & Hf); [|exact HL|].
    { rewrite <- (Nat.add_0_r i). apply (H O). reflexivity. }
    destruct (IH (S i)) as (ops & [Fo Fw] & Lo & Mo); [|exact HL|].
    { intros k g Hk. replace (S i + k)%nat with (i + S k)%nat by lia. apply H. exact Hk. }
    exists (op :: ops). split; [split; constructor; assumption|]. split; [cbn; congruence|].
    intros prof. cbn [enumerate mapM fst snd]. rewrite Hf. cbn [bind].
    replace (N.of_nat i + 1) with (N.of_nat (S i)) by lia. rewrite Mo. reflexivity.
Qed.

(** The token list depends on the labels and these on its length only, so first fix the labels. *)
Fixpoint all_labels (i : nat) (n : nat) (acc : labelmap) : labelmap :=
  match n with O => lm_insert acc (name i) (N.of_nat i) | S n' => all_labels (S i) n' (lm_insert acc (name i) (N.of_nat i)) end.
Lemma all_labels_get : forall n i j acc, (i <= j <= i + n)%nat ->
  lm_get (all_labels i n acc) (name j) = Some (N.of_nat j).
Proof.
  assert (Z : forall n i j acc, lm_get acc (name j) = Some (N.of_nat j) ->
    lm_get (all_labels i n acc) (name j) = Some (N.of_nat j)).
  { induction n as [|n IH]; intros i j acc H; cbn [all_labels].
    - unfold lm_insert. cbn [lm_get]. rewrite name_eqb. destruct (Nat.eqb_spec j i); [now subst|exact H].
    - apply IH. unfold lm_insert. cbn [lm_get]. rewrite name_eqb. destruct (Nat.eqb_spec j i); [now subst|exact H]. }
  induction n as [|n IH]; intros i j acc H; cbn [all_labels].
  - unfold lm_insert. cbn [lm_get]. rewrite name_eqb. destruct (Nat.eqb_spec j i); [now subst|lia].
  - destruct (Nat.eq_dec j i) as [->|Hn].
    + apply Z. unfold lm_insert. cbn [lm_get]. rewrite name_eqb, Nat.eqb_refl. reflexivity.
    + apply IH. lia.
Qed.
Lemma labelled_map : forall ops i acc, Forall (fun op => is_label op = false) ops ->
  map_labels_loop (labelled i ops) (N.of_nat i) acc = all_labels i (length ops) acc.
Proof.
  induction ops as [|op ops IH]; intros i acc F; [reflexivity|]. inversion F as [|? ? H F']; subst.
  cbn [labelled length all_labels]. rewrite <- (IH (S i) _ F'). 
  replace (N.of_nat (S i)) with (N.of_nat i + 1) by lia. destruct op; try reflexivity. discriminate.
Qed.

Lemma c104_all : forall code,
  (forall i f, nth_error code i = Some f -> expressible (length code) i f) ->
  exists prog, Forall word_token prog /\ forall prof, compile prof prog = Ok code.
Proof.
  intros code H.
  destruct (tokens_for (all_labels 0 (length code) []) (length code) code 0) as (ops & [Fo Fw] & Lo & Mo).
  - exact H.
  - intros j Hj. apply all_labels_get. lia.
  - exists (labelled 0 ops). split; [exact (labelled_words _ _ Fw)|]. intros prof. unfold compile.
    change (filter (fun op => negb (is_label op)) (labelled 0 ops)) with (strip (labelled 0 ops)).
    rewrite (labelled_strip _ _ Fo). unfold map_labels.
    pose proof (labelled_map ops 0 [] Fo) as E. cbn [N.of_nat] in E. rewrite E, Lo. apply Mo.
Qed.

Lemma c104 : forall code,
  (exists prog, Forall word_token prog /\ compile Debug prog = Ok code) <->
  (forall i f, nth_error code i = Some f -> expressible (length code) i f).
Proof.
  intros code. split.
  - intros (prog & W & C). exact (c104_only _ _ W C).
  - intros H. destruct (c104_all _ H) as (prog & W & P). exists prog. split; [exact W|apply P].
Qed.

(** Filters the kernel accepts: it checks the range of every jump itself. *)
Lemma checked_nth : forall code i f, check_insns code = true -> nth_error code i = Some f ->
  check_insn f (N.of_nat (length code - i - 1)) = true.
Proof.
  induction code as [|g code IH]; intros i f H Hi; [destruct i; discriminate|].
  cbn [check_insns] in H. apply andb_true_iff in H. destruct H as [H1 H2]. destruct i as [|i].
  - injection Hi as <-. cbn [length]. replace (S (length code) - 0 - 1)%nat with (length code) by lia. exact H1.
  - cbn [length]. replace (S (length code) - S i - 1)%nat with (length code - i - 1)%nat by lia.
    apply IH; assumption.
Qed.
Lemma checked_expressible : forall len i f, (i < len)%nat ->
  check_insn f (N.of_nat (len - i - 1)) = true -> wf_insn f -> unused_zero f ->
  ~ In (sf_code f) missing_codes -> expressible len i f.
Proof.
  intros len i [c jt jf k] Hi C (_ & Wt & Wf & Wk) Z M. unfold check_insn, unused_zero, expressible in *.
  cbn [sf_code sf_jt sf_jf sf_k] in *. split; [exact Wk|].
  destruct (kdecode c) as [j|] eqn:D; [|discriminate]. apply kdecode_sound in D.
  assert (ST : In c statement_codes -> ~ In c [0x15; 0x25; 0x35; 0x45; 0x1d; 0x2d; 0x3d; 0x4d] ->
    (In c statement_codes /\ jt = 0 /\ jf = 0) \/
    (In c jump_codes /\ jt < 2 ^ 8 /\ jf < 2 ^ 8 /\
     N.of_nat i + 1 + jt <= N.of_nat len /\ N.of_nat i + 1 + jf <= N.of_nat len)) by tauto.
  destruct j as [| | | | | | | | |o x| | |o x| | | |]; cbn [kencode] in D;
    try (subst c; apply ST; [vm_compute; tauto|vm_compute; intuition discriminate]);
    try (subst c; exfalso; apply M; vm_compute; tauto).
  - destruct o, x; cbn [kencode] in D; subst c; apply ST; (vm_compute; tauto) || (vm_compute; intuition discriminate).
  - right. destruct Z as [Z|[-> ->]]; [subst c; vm_compute in Z; exfalso; intuition discriminate|].
    split; [subst c; vm_compute; tauto|]. repeat split; try reflexivity; lia.
  - destruct x; [subst c; exfalso; apply M; destruct o; vm_compute; tauto|].
    right. split; [subst c; destruct o; vm_compute; tauto|]. apply andb_true_iff in C. destruct C as [C1 C2].
    apply N.ltb_lt in C1, C2. repeat split; try assumption; lia.
Qed.

Lemma c104_kernel : forall code,
  kernel_accepts code = true -> Forall wf_insn code -> Forall unused_zero code ->
  ((exists prog, Forall word_token prog /\ compile Debug prog = Ok code) <->
   Forall (fun f => ~ In (sf_code f) missing_codes) code).
Proof.
  intros code K W Z. rewrite c104. split.
  - intros H. apply Forall_forall. intros f Hf M. apply In_nth_error in Hf. destruct Hf as [i Hi].
    destruct (H i f Hi) as [_ [(S & _)|(S & _)]]; clear - M S; cbn [missing_codes In] in M;
      repeat (destruct M as [M|M]; [rewrite <- M in S; vm_compute in S; intuition discriminate|]); destruct M.
  - intros H i f Hi. unfold kernel_accepts in K. rewrite !andb_true_iff in K.
    destruct K as [[[_ K] _] _]. pose proof (checked_nth _ _ _ K Hi) as C.
    assert (L : (i < length code)%nat) by (apply nth_error_Some; congruence).
    apply nth_error_In in Hi. rewrite Forall_forall in W, Z, H.
    apply checked_expressible; auto.
Qed.

(** * C105 *)
Lemma jmp_calc_offset : forall prof prog here lo v m k,
  here < 2 ^ 64 -> m <> 0 -> 2 ^ 64 = m * k ->
  jmp_calc prof (map_labels prog) lo here = Ok v ->
  offset_to prof prog here (Z.of_N m) lo (v mod m).
Proof.
  intros prof prog here [l|] v m k Hh Hm Hk H; cbn [jmp_calc offset_to] in *;
    [|injection H as <-; apply N.mod_0_l; exact Hm].
  rewrite map_labels_get in H. destruct (distance l prog) as [n|]; [|discriminate].
  exists n. split; [reflexivity|].
  assert (E : (exists q, Z.of_N v = Z.of_N n - Z.of_N here - 1 + q * Z.of_N m)%Z /\ (prof = Debug -> here < n)).
  { unfold sub_usize, sub_mod in H. change usize_mod with (2 ^ 64) in H.
    assert (P : Z.of_N (2 ^ 64) = (Z.of_N k * Z.of_N m)%Z) by (rewrite Hk; lia).
    destruct (N.leb_spec here n) as [L|L]; cbn [bind] in H.
    - destruct (N.leb_spec 1 (n - here)) as [G|G].
      + injection H as <-. split; [exists 0%Z; lia|lia].
      + destruct prof; [discriminate|]. injection H as <-. split; [|discriminate]. exists (Z.of_N k).
        rewrite N.mod_small by lia. lia.
    - destruct prof; [discriminate|]. cbn [bind] in H. rewrite (N.mod_small (n + 2 ^ 64 - here)) in H by lia.
      destruct (N.leb_spec 1 (n + 2 ^ 64 - here)) as [G|G]; [|lia]. injection H as <-.
      split; [|discriminate]. exists (Z.of_N k). lia. }
  destruct E as [[q E] D]. split; [|exact D].
  rewrite N2Z.inj_mod by exact Hm. rewrite E, Z.mod_add by lia. reflexivity.
Qed.

Lemma c105 : forall prof prog code pre post,
  compile prof prog = Ok code -> instructions pre < 2 ^ 64 ->
  (forall l, prog = pre ++ JumpTo l :: post ->
     exists f, nth_error code (N.to_nat (instructions pre)) = Some f /\
       sf_code f = 0x05 /\ sf_jt f = 0 /\ sf_jf f = 0 /\
       offset_to prof prog (instructions pre) (2 ^ 32) (Some l) (sf_k f)) /\
  (forall o k lt lf, prog = pre ++ Jump o k lt lf :: post ->
     exists f, nth_error code (N.to_nat (instructions pre)) = Some f /\
       sf_code f = jump_code o /\ sf_k f = k /\
       offset_to prof prog (instructions pre) (2 ^ 8) lt (sf_jt f) /\
       offset_to prof prog (instructions pre) (2 ^ 8) lf (sf_jf f)).
Proof.
  intros prof prog code pre post H Hh. split.
  - intros l E. destruct (emitted_nth prof prog prog 0 code pre (JumpTo l) post H E eq_refl)
      as [f [F1 F2]]. exists f. split; [exact F1|]. cbn [to_sock_filter] in F2.
    rewrite N.add_0_l in F2.
    destruct (jmp_calc prof (map_labels prog) (Some l) (instructions pre)) as [v|e| |d] eqn:J;
      try discriminate. cbn [bind] in F2. injection F2 as <-. repeat (split; [reflexivity|]).
    exact (jmp_calc_offset _ _ _ _ _ (2 ^ 32) (2 ^ 32) Hh ltac:(discriminate) eq_refl J).
  - intros o k lt lf E.
    destruct (emitted_nth prof prog prog 0 code pre (Jump o k lt lf) post H E eq_refl)
      as [f [F1 F2]]. exists f. split; [exact F1|]. cbn [to_sock_filter] in F2.
    rewrite N.add_0_l in F2.
    destruct (jmp_calc prof (map_labels prog) lt (instructions pre)) as [v|e| |d] eqn:J;
      try discriminate. cbn [bind] in F2.
    destruct (jmp_calc prof (map_labels prog) lf (instructions pre)) as [w|e| |d] eqn:K;
      try discriminate. cbn [bind] in F2. injection F2 as <-.
    split; [destruct o; reflexivity|]. split; [reflexivity|]. split.
    + exact (jmp_calc_offset _ _ _ _ _ (2 ^ 8) (2 ^ 56) Hh ltac:(discriminate) eq_refl J).
    + exact (jmp_calc_offset _ _ _ _ _ (2 ^ 8) (2 ^ 56) Hh ltac:(discriminate) eq_refl K).
Qed.
