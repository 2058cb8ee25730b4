(** When two programs compile to the same code (C124). *)
From Coq Require Import NArith ZArith String List Bool Lia.
From Verif Require Import Libc Machine Bpf Asm Vm Spec AsmSpec AsmProofs ShapeFacts TokenSpec.
Import ListNotations.
Local Open Scope N_scope.

Lemma offset_unique : forall prof prog here m lo v w, offset_to prof prog here m lo v -> offset_to prof prog here m lo w -> v = w.
Proof.
  intros prof prog here m [l|] v w; cbn [offset_to]; [|congruence].
  intros (n & D & E & _) (n' & D' & E' & _). assert (n' = n) by congruence. subst n'. lia.
Qed.

(** Statements: the instruction determines the token but for [taken_for]. *)
Definition is_jump (op : Operation) : bool := match op with Jump _ _ _ _ | JumpTo _ => true | _ => false end.
Definition statement (op : Operation) : sock_filter :=
  match op with
  | Load m v => bpf_ld m v | LoadIdx m v => bpf_ldx m v | Store m v => bpf_st m v | StoreIdx m v => bpf_stx m v
  | Alu o s v => bpf_alu o s v | Return s v => bpf_ret s v | _ => SockFilter 0 0 0 0
  end.
Lemma taken_same : forall op, statement (taken_for op) = statement op.
Proof. intros [l|m v|m v|m v|m v|o [] v|s v|l|o k lt lf]; try reflexivity. destruct o; reflexivity. Qed.
Lemma statement_code : forall op, is_jump op = false -> is_label op = false ->
  N.land (sf_code (statement op)) 7 <> 5.
Proof. intros [l|[] v|[] v|[] v|[] v|[] [] v|[] v|l|o k lt lf] J L; try discriminate; vm_compute; discriminate. Qed.
Lemma codes_differ : forall f g, f = g -> sf_code f = sf_code g /\ sf_k f = sf_k g.
Proof. intros f g ->. split; reflexivity. Qed.
Lemma statement_inj : forall a b, is_jump a = false -> is_label a = false -> is_jump b = false -> is_label b = false ->
  statement a = statement b -> taken_for a = taken_for b.
Proof.
  intros a b Ja La Jb Lb E. apply codes_differ in E. destruct E as [C K]. revert C K.
  destruct a as [l|[] v|[] v|[] v|[] v|[] [] v|[] v|l|o k lt lf]; try discriminate;
    destruct b as [l'|[] v'|[] v'|[] v'|[] v'|[] [] v'|[] v'|l'|o' k' lt' lf']; try discriminate;
    cbn [statement]; intros C K; (cbn in K; subst v'; reflexivity) || (exfalso; vm_compute in C; discriminate C).
Qed.

Lemma jump_codes_inj : forall o o', sf_code (bpf_jmp o 0 0 0) = sf_code (bpf_jmp o' 0 0 0) -> o = o'.
Proof. intros [] [] H; try reflexivity; vm_compute in H; discriminate H. Qed.
Lemma jump_code_5 : forall o k a b, N.land (sf_code (bpf_jmp o k a b)) 7 = 5.
Proof. intros [] k a b; reflexivity. Qed.

(** One instruction. *)
Lemma same_instruction : forall prof p1 p2 here a b f g, here < 2 ^ 64 -> is_label a = false -> is_label b = false ->
  to_sock_filter prof here a (map_labels p1) = Ok f -> to_sock_filter prof here b (map_labels p2) = Ok g ->
  (f = g <-> written_alike prof p1 p2 here a b).
Proof.
  intros prof p1 p2 here a b f g Hh La Lb Fa Fb.
  assert (ST : forall op p f, is_jump op = false -> is_label op = false -> to_sock_filter prof here op (map_labels p) = Ok f ->
    f = statement op).
  { intros op p f0 J L H. destruct op; try discriminate; injection H as <-; reflexivity. }
  assert (O8 : forall p lo v, jmp_calc prof (map_labels p) lo here = Ok v -> offset_to prof p here (2 ^ 8) lo (as_u8 v)).
  { intros p lo v H. exact (jmp_calc_offset _ _ _ _ _ (2 ^ 8) (2 ^ 56) Hh ltac:(discriminate) eq_refl H). }
  assert (O32 : forall p lo v, jmp_calc prof (map_labels p) lo here = Ok v -> offset_to prof p here (2 ^ 32) lo (as_u32 v)).
  { intros p lo v H. exact (jmp_calc_offset _ _ _ _ _ (2 ^ 32) (2 ^ 32) Hh ltac:(discriminate) eq_refl H). }
  assert (JU : forall p o k lt lf f, to_sock_filter prof here (Jump o k lt lf) (map_labels p) = Ok f ->
    exists jt jf, f = bpf_jmp o k jt jf /\ offset_to prof p here (2 ^ 8) lt jt /\ offset_to prof p here (2 ^ 8) lf jf).
  { intros p o k lt lf f0 H. cbn [to_sock_filter] in H.
    destruct (jmp_calc prof (map_labels p) lt here) as [v|e| |d] eqn:V; try discriminate. cbn [bind] in H.
    destruct (jmp_calc prof (map_labels p) lf here) as [w|e| |d] eqn:W; try discriminate. cbn [bind] in H.
    injection H as <-. exists (as_u8 v), (as_u8 w). auto. }
  assert (JT : forall p l f, to_sock_filter prof here (JumpTo l) (map_labels p) = Ok f ->
    exists k, f = bpf_jmp JA k 0 0 /\ offset_to prof p here (2 ^ 32) (Some l) k).
  { intros p l f0 H. cbn [to_sock_filter] in H.
    destruct (jmp_calc prof (map_labels p) (Some l) here) as [v|e| |d] eqn:V; try discriminate. cbn [bind] in H.
    injection H as <-. exists (as_u32 v). auto. }
  destruct (is_jump a) eqn:Ja; destruct (is_jump b) eqn:Jb.
  - destruct a as [| | | | | | |l|o k lt lf]; try discriminate; destruct b as [| | | | | | |l'|o' k' lt' lf']; try discriminate;
      cbn [written_alike].
    + destruct (JT _ _ _ Fa) as (k & -> & K). destruct (JT _ _ _ Fb) as (k' & -> & K'). split.
      * intros E. injection E as ->. exists k'. auto.
      * intros (v & V & V'). rewrite (offset_unique _ _ _ _ _ _ _ K V), (offset_unique _ _ _ _ _ _ _ K' V'). reflexivity.
    + destruct (JT _ _ _ Fa) as (k & -> & K). destruct (JU _ _ _ _ _ _ Fb) as (jt & jf & -> & T & F). split.
      * intros E. assert (C : JA = o') by (apply jump_codes_inj; exact (f_equal sf_code E)). subst o'. injection E as <- <- <-. auto.
      * intros (-> & V & V' & KK). rewrite (offset_unique _ _ _ _ _ _ _ K KK), (offset_unique _ _ _ _ _ _ _ T V),
          (offset_unique _ _ _ _ _ _ _ F V'). reflexivity.
    + destruct (JU _ _ _ _ _ _ Fa) as (jt & jf & -> & T & F). destruct (JT _ _ _ Fb) as (k' & -> & K). split.
      * intros E. assert (C : o = JA) by (apply jump_codes_inj; exact (f_equal sf_code E)). subst o. injection E as -> -> ->. auto.
      * intros (-> & V & V' & KK). rewrite (offset_unique _ _ _ _ _ _ _ K KK), (offset_unique _ _ _ _ _ _ _ T V),
          (offset_unique _ _ _ _ _ _ _ F V'). reflexivity.
    + destruct (JU _ _ _ _ _ _ Fa) as (jt & jf & -> & T & F). destruct (JU _ _ _ _ _ _ Fb) as (jt' & jf' & -> & T' & F'). split.
      * intros E. assert (C : o = o') by (apply jump_codes_inj; exact (f_equal sf_code E)). subst o'. injection E as -> -> ->.
        split; [reflexivity|]. split; [reflexivity|]. split; eexists; split; eassumption.
      * intros (-> & -> & (v & V & V') & (w & U & U')). rewrite (offset_unique _ _ _ _ _ _ _ T V), (offset_unique _ _ _ _ _ _ _ T' V'),
          (offset_unique _ _ _ _ _ _ _ F U), (offset_unique _ _ _ _ _ _ _ F' U'). reflexivity.
  - assert (Eg := ST b p2 g Jb Lb Fb). subst g. assert (C := statement_code b Jb Lb). split.
    + intros E. exfalso. apply C. rewrite <- E. destruct a as [| | | | | | |l|o k lt lf]; try discriminate.
      * destruct (JT _ _ _ Fa) as (k & -> & _). apply jump_code_5.
      * destruct (JU _ _ _ _ _ _ Fa) as (jt & jf & -> & _). apply jump_code_5.
    + intros W. exfalso. destruct a; try discriminate; destruct b as [| | | | |[] []| | |]; try discriminate.
  - assert (Ef := ST a p1 f Ja La Fa). subst f. assert (C := statement_code a Ja La). split.
    + intros E. exfalso. apply C. rewrite E. destruct b as [| | | | | | |l|o k lt lf]; try discriminate.
      * destruct (JT _ _ _ Fb) as (k & -> & _). apply jump_code_5.
      * destruct (JU _ _ _ _ _ _ Fb) as (jt & jf & -> & _). apply jump_code_5.
    + intros W. exfalso. destruct b; try discriminate; destruct a as [| | | | |[] []| | |]; try discriminate.
  - assert (Ef := ST a p1 f Ja La Fa). assert (Eg := ST b p2 g Jb Lb Fb). subst f g.
    assert (W : written_alike prof p1 p2 here a b <-> taken_for a = taken_for b).
    { destruct a; try discriminate; destruct b; try discriminate; reflexivity. }
    rewrite W. split; [apply statement_inj; assumption|]. intros E. rewrite <- (taken_same a), <- (taken_same b), E. reflexivity.
Qed.

Lemma mapM_tokens : forall prof labels toks n code, mapM (fun p => to_sock_filter prof (fst p) (snd p) labels) (enumerate n toks) = Ok code ->
  length code = length toks /\
  forall i a, nth_error toks i = Some a ->
    exists f, nth_error code i = Some f /\ to_sock_filter prof (n + N.of_nat i) a labels = Ok f.
Proof.
  intros prof labels. induction toks as [|a toks IH]; intros n code H; cbn [enumerate mapM] in H.
  - injection H as <-. split; [reflexivity|]. intros [|i] b I; discriminate.
  - cbn [fst snd] in H. destruct (to_sock_filter prof n a labels) as [f|e| |d] eqn:F; try discriminate. cbn [bind] in H.
    destruct (mapM _ (enumerate (n + 1) toks)) as [c|e| |d] eqn:M; try discriminate. cbn [bind] in H. injection H as <-.
    destruct (IH _ _ M) as [L H]. split; [cbn [length]; rewrite L; reflexivity|]. intros [|i] b I; cbn [nth_error] in *.
    + injection I as <-. exists f. rewrite N.add_0_r. auto.
    + destruct (H i b I) as (g & G1 & G2). exists g. split; [exact G1|]. rewrite <- G2. f_equal. lia.
Qed.

Lemma c124 : forall prof p1 p2 code1 code2,
  compile prof p1 = Ok code1 -> compile prof p2 = Ok code2 ->
  N.of_nat (length p1) < 2 ^ 64 ->
  (code1 = code2 <->
   length (without_labels p1) = length (without_labels p2) /\
   forall i a b, nth_error (without_labels p1) i = Some a -> nth_error (without_labels p2) i = Some b ->
     written_alike prof p1 p2 (N.of_nat i) a b).
Proof.
  intros prof p1 p2 c1 c2 C1 C2 B. unfold compile in C1, C2.
  assert (S : forall p, filter (fun op => negb (is_label op)) p = without_labels p).
  { intros p. apply filter_ext. intros []; reflexivity. }
  rewrite S in C1, C2. destruct (mapM_tokens _ _ _ _ _ C1) as [L1 H1]. destruct (mapM_tokens _ _ _ _ _ C2) as [L2 H2].
  assert (NL : forall p i a, nth_error (without_labels p) i = Some a -> is_label a = false).
  { intros p i a I. apply nth_error_In in I. apply filter_In in I. destruct I as [_ I]. destruct a; [discriminate|reflexivity..]. }
  assert (SM : forall i a, nth_error (without_labels p1) i = Some a -> N.of_nat i < 2 ^ 64).
  { intros i a I. assert (X : nth_error (without_labels p1) i <> None) by congruence. apply nth_error_Some in X.
    assert (Y : (length (without_labels p1) <= length p1)%nat).
    { clear. induction p1 as [|a p IH]; [reflexivity|]. unfold without_labels in *. cbn [filter length]. destruct a; cbn [length]; lia. }
    lia. }
  split.
  - intros ->. split; [congruence|]. intros i a b Ia Ib. destruct (H1 i a Ia) as (f & F1 & F2). destruct (H2 i b Ib) as (g & G1 & G2).
    rewrite N.add_0_l in F2, G2. apply (same_instruction prof p1 p2 (N.of_nat i) a b f g (SM i a Ia) (NL _ _ _ Ia) (NL _ _ _ Ib) F2 G2). congruence.
  - intros [L W].
    assert (E : forall i, nth_error c1 i = nth_error c2 i).
    { intros i. destruct (nth_error (without_labels p1) i) as [a|] eqn:Ia, (nth_error (without_labels p2) i) as [b|] eqn:Ib.
      - destruct (H1 i a Ia) as (f & F1 & F2). destruct (H2 i b Ib) as (g & G1 & G2). rewrite F1, G1. f_equal. rewrite N.add_0_l in F2, G2.
        apply (same_instruction prof p1 p2 (N.of_nat i) a b f g (SM i a Ia) (NL _ _ _ Ia) (NL _ _ _ Ib) F2 G2). apply W; assumption.
      - exfalso. apply nth_error_None in Ib. assert (X : nth_error (without_labels p1) i <> None) by congruence. apply nth_error_Some in X. lia.
      - exfalso. apply nth_error_None in Ia. assert (X : nth_error (without_labels p2) i <> None) by congruence. apply nth_error_Some in X. lia.
      - apply nth_error_None in Ia, Ib. rewrite (proj2 (nth_error_None c1 i)), (proj2 (nth_error_None c2 i)) by lia. reflexivity. }
    clear - E. revert c2 E. induction c1 as [|f c1 IH]; intros [|g c2] E; [reflexivity|specialize (E 0%nat); discriminate..|].
    f_equal; [specialize (E 0%nat); cbn in E; congruence|]. apply IH. intros i. exact (E (S i)).
Qed.

(** * C05: jumps *)
Lemma c05_jumps : forall prof prog code pre post vm data,
  compile prof prog = Ok code -> instructions pre < 2 ^ 64 ->
  (forall l, prog = pre ++ JumpTo l :: post ->
     exists f j, nth_error code (N.to_nat (instructions pre)) = Some f /\
       offset_to prof prog (instructions pre) (2 ^ 32) (Some l) j /\
       exec_insn prof f vm data = (Ok None, set_pc vm (vm_pc vm + j))) /\
  (forall o k lt lf, prog = pre ++ Jump o k lt lf :: post -> o <> JA ->
     exists f t e, nth_error code (N.to_nat (instructions pre)) = Some f /\
       offset_to prof prog (instructions pre) (2 ^ 8) lt t /\ offset_to prof prog (instructions pre) (2 ^ 8) lf e /\
       exec_insn prof f vm data = (Ok None, set_pc vm (vm_pc vm + (if cmp_meaning o (vm_acc vm) k then t else e)))).
Proof.
  intros prof prog code pre post vm data C L. destruct (ShapeFacts.c105 prof prog code pre post C L) as [A B]. split.
  - intros l E. destruct (A l E) as (f & Nf & F1 & F2 & F3 & O). exists f, (sf_k f). split; [exact Nf|]. split; [exact O|].
    destruct f as [c jt jf k]. cbn [sf_code sf_jt sf_jf sf_k] in *. subst. destruct vm. reflexivity.
  - intros o k lt lf E J. destruct (B o k lt lf E) as (f & Nf & F1 & F2 & O1 & O2). exists f, (sf_jt f), (sf_jf f).
    split; [exact Nf|]. split; [exact O1|]. split; [exact O2|].
    destruct f as [c jt jf k']. cbn [sf_code sf_jt sf_jf sf_k] in *. subst. destruct vm.
    assert (Z : forall x, (0 <? x) = negb (x =? 0)) by (intros [|x]; reflexivity).
    destruct o; try reflexivity; [congruence|]. cbn [cmp_meaning]. rewrite <- Z. reflexivity.
Qed.
