(** Exactly which filters the kernel accepts (C118). *)
From Coq Require Import NArith ZArith List Bool Lia Arith.
From Verif Require Import Libc Machine Bpf SeccompRet Asm Vm Promises Filters Kernel World Spec AsmSpec AsmProofs ShapeFacts.
Import ListNotations.
Local Open Scope N_scope.

Lemma kdecode_some : forall c i, kdecode c = Some i -> In c filter_codes.
Proof.
  intros c i H. unfold kdecode in H. destruct c as [|p]; [cbn; tauto|].
  do 8 (try (destruct p as [p|p|]; try discriminate H)); cbn; tauto.
Qed.

Lemma code_cases : forall c, In c filter_codes \/ kdecode c = None.
Proof.
  intros c. destruct (kdecode c) as [i|] eqn:E; [left; exact (kdecode_some c i E)|right; reflexivity].
Qed.

Lemma check_insn_allowed : forall f i left, 
  check_insn f left = true <-> insn_allowed i (i + 1 + left) f.
Proof.
  intros [c jt jf k] i left. unfold check_insn, insn_allowed. cbn [sf_code sf_k sf_jt sf_jf].
  assert (J : forall z, i + 1 + z < i + 1 + left <-> z < left) by (intros z; lia).
  rewrite !J. clear J.
  destruct (code_cases c) as [I|N].
  - assert (I' := I). cbn [filter_codes branch_codes app In] in I.
    repeat (destruct I as [<-|I]; [cbn [kdecode];
      rewrite ?andb_true_iff, ?negb_true_iff, ?N.ltb_lt, ?N.eqb_eq, ?N.eqb_neq;
      change SECCOMP_DATA_SIZE with 64; change BPF_MEMWORDS with 16;
      split;
      [ intros H; split; [exact I'|];
        repeat match goal with |- _ /\ _ => split | |- _ -> _ => intros ?X end;
        first [exact H|apply H|exfalso; first [discriminate X|cbn [branch_codes In] in X; clear - X; intuition discriminate]]
      | intros (_ & H1 & H2 & H3 & H4 & H5 & H6);
        first [reflexivity|exact (H1 eq_refl)|exact (H2 eq_refl)|exact (H5 eq_refl)
              |apply H3; cbn; clear; tauto|apply H4; cbn; clear; tauto|apply H6; cbn; clear; tauto] ]|]).
    destruct I.
  - rewrite N. split; [discriminate|]. intros (I & _). exfalso.
    cbn [filter_codes branch_codes app In] in I.
    repeat (destruct I as [<-|I]; [discriminate N|]). destruct I.
Qed.

Lemma check_insns_allowed : forall prog i,
  check_insns prog = true <->
  (forall j f, nth_error prog j = Some f ->
     insn_allowed (i + N.of_nat j) (i + N.of_nat (length prog)) f).
Proof.
  induction prog as [|g rest IH]; intros i.
  - split; [intros _ j f H; destruct j; discriminate|reflexivity].
  - cbn [check_insns]. rewrite andb_true_iff, (check_insn_allowed g i), (IH (i + 1)).
    replace (i + N.of_nat (length (g :: rest))) with (i + 1 + N.of_nat (length rest)) by (cbn [length]; lia).
    split.
    + intros [A B] [|j] f H; cbn [nth_error] in H.
      * injection H as <-. rewrite N.add_0_r. exact A.
      * specialize (B j f H). replace (i + N.of_nat (S j)) with (i + 1 + N.of_nat j) by lia. exact B.
    + intros H. split.
      * specialize (H 0%nat g eq_refl). rewrite N.add_0_r in H. exact H.
      * intros j f Hj. specialize (H (S j) f Hj). replace (i + 1 + N.of_nat j) with (i + N.of_nat (S j)) by lia. exact H.
Qed.

Lemma ends_in_ret_iff : forall prog, ends_in_ret prog = true <->
  exists init f, prog = init ++ [f] /\ In (sf_code f) [0x06; 0x16].
Proof.
  induction prog as [|g rest IH].
  - split; [discriminate|]. intros (init & f & E & _). destruct init; discriminate.
  - destruct rest as [|h rest].
    + cbn [ends_in_ret]. split.
      * intros H. exists [], g. split; [reflexivity|].
        destruct (code_cases (sf_code g)) as [I|N]; [|rewrite N in H; discriminate].
        cbn [filter_codes branch_codes app In] in I. cbn [In].
        repeat (destruct I as [I|I]; [rewrite <- I in H |- *; cbn in H; try discriminate; tauto|]). destruct I.
      * intros (init & f & E & I). destruct init as [|x init]; [|destruct init; discriminate].
        injection E as ->. destruct I as [<-|[<-|[]]]; reflexivity.
    + change (ends_in_ret (g :: h :: rest)) with (ends_in_ret (h :: rest)). rewrite IH. split.
      * intros (init & f & -> & I). exists (g :: init), f. auto.
      * intros (init & f & E & I). destruct init as [|x init]; [discriminate|]. injection E as <- E.
        exists init, f. auto.
Qed.

(** * Scratch memory *)

(** From here on, with the cells [s] written, no load reads another cell. *)
Fixpoint msafe (prog : list sock_filter) (skip : nat) (s : N) : Prop :=
  match prog with
  | [] => True
  | f :: rest =>
      match skip with
      | S n => msafe rest n s
      | O =>
          match kdecode (sf_code f) with
          | Some KSt | Some KStx => msafe rest 0 (N.lor s (N.shiftl 1 (sf_k f)))
          | Some KLdMem | Some KLdxMem => N.testbit s (sf_k f) = true /\ msafe rest 0 s
          | Some KJa => msafe rest (N.to_nat (sf_k f)) s
          | Some (KJcc _ _) => msafe rest (N.to_nat (sf_jt f)) s /\ msafe rest (N.to_nat (sf_jf f)) s
          | _ => msafe rest 0 s
          end
      end
  end.

Lemma land_lor : forall s t b, N.lor (N.land s t) b = N.land (N.lor s b) (N.lor t b).
Proof. intros. apply N.bits_inj. intros n. rewrite !N.lor_spec, !N.land_spec, !N.lor_spec.
  destruct (N.testbit s n), (N.testbit t n), (N.testbit b n); reflexivity. Qed.

Lemma msafe_land : forall prog skip s t, msafe prog skip (N.land s t) <-> msafe prog skip s /\ msafe prog skip t.
Proof.
  induction prog as [|f rest IH]; intros skip s t; [cbn; tauto|]. cbn [msafe]. destruct skip as [|n]; [|apply IH].
  destruct (kdecode (sf_code f)) as [[]|]; try apply IH.
  - rewrite IH, N.land_spec, andb_true_iff. tauto.
  - rewrite IH, N.land_spec, andb_true_iff. tauto.
  - rewrite land_lor. apply IH.
  - rewrite land_lor. apply IH.
  - rewrite !IH. tauto.
Qed.

Definition cells_ok (f : sock_filter) : Prop := In (sf_code f) [0x60; 0x61; 0x02; 0x03] -> sf_k f < 16.
Lemma all_valid_bit : forall k, k < 16 -> N.testbit all_valid k = true.
Proof.
  intros k H. change all_valid with (N.ones 16). apply N.ones_spec_low. exact H.
Qed.
Lemma all_valid_more : forall k, k < 16 -> N.lor all_valid (N.shiftl 1 k) = all_valid.
Proof.
  intros k H. apply N.bits_inj. intros n. rewrite N.lor_spec.
  destruct (N.testbit all_valid n) eqn:E; [reflexivity|]. cbn [orb].
  rewrite N.shiftl_1_l, N.pow2_bits_eqb. apply N.eqb_neq. intros <-. rewrite all_valid_bit in E by exact H. discriminate.
Qed.
Lemma kdecode_mem : forall f, kdecode (sf_code f) = Some KLdMem \/ kdecode (sf_code f) = Some KLdxMem ->
  In (sf_code f) [0x60; 0x61].
Proof.
  intros f H. destruct (code_cases (sf_code f)) as [I|N]; [|rewrite N in H; intuition discriminate].
  cbn [filter_codes branch_codes app In] in I. cbn [In].
  repeat (destruct I as [I|I]; [rewrite <- I in H |- *; cbn in H; try tauto; intuition discriminate|]). destruct I.
Qed.
Lemma kdecode_store : forall f, kdecode (sf_code f) = Some KSt \/ kdecode (sf_code f) = Some KStx ->
  In (sf_code f) [0x02; 0x03].
Proof.
  intros f H. destruct (code_cases (sf_code f)) as [I|N]; [|rewrite N in H; intuition discriminate].
  cbn [filter_codes branch_codes app In] in I. cbn [In].
  repeat (destruct I as [I|I]; [rewrite <- I in H |- *; cbn in H; try tauto; intuition discriminate|]). destruct I.
Qed.

Lemma msafe_all : forall prog skip, Forall cells_ok prog -> msafe prog skip all_valid.
Proof.
  induction prog as [|f rest IH]; intros skip C; [exact I|]. inversion C as [|? ? Cf Cr]; subst. cbn [msafe].
  destruct skip as [|n]; [|apply IH; exact Cr].
  assert (L : kdecode (sf_code f) = Some KLdMem \/ kdecode (sf_code f) = Some KLdxMem -> sf_k f < 16)
    by (intros H; apply kdecode_mem in H; apply Cf; cbn [In] in *; tauto).
  assert (St : kdecode (sf_code f) = Some KSt \/ kdecode (sf_code f) = Some KStx -> sf_k f < 16)
    by (intros H; apply kdecode_store in H; apply Cf; cbn [In] in *; tauto).
  destruct (kdecode (sf_code f)) as [[]|]; try (apply IH; exact Cr).
  - split; [apply all_valid_bit, L; auto|apply IH; exact Cr].
  - split; [apply all_valid_bit, L; auto|apply IH; exact Cr].
  - rewrite all_valid_more by (apply St; auto). apply IH; exact Cr.
  - rewrite all_valid_more by (apply St; auto). apply IH; exact Cr.
  - split; apply IH; exact Cr.
Qed.

(** What the recorded masks stand for. *)
Definition pending (prog : list sock_filter) (masks : list N) : Prop :=
  forall i, msafe prog i (nth i masks all_valid).

Lemma pending_at : forall prog i ms v, Forall cells_ok prog ->
  (pending prog (mask_at ms i v) <-> pending prog ms /\ msafe prog i v).
Proof.
  intros prog i ms v C.
  assert (At : forall i ms, nth i (mask_at ms i v) all_valid = (if i <? length ms then N.land (nth i ms all_valid) v else v)%nat).
  { clear. induction i as [|i IH]; intros [|m ms]; cbn [mask_at nth length]; try reflexivity.
    - rewrite IH. cbn [length]. destruct i; reflexivity.
    - rewrite IH. reflexivity. }
  assert (Off : forall i ms j, j <> i -> nth j (mask_at ms i v) all_valid = nth j ms all_valid).
  { clear. induction i as [|i IH]; intros [|m ms] [|j] N; cbn [mask_at nth]; try reflexivity; try congruence.
    - destruct j; reflexivity.
    - rewrite IH by congruence. destruct j; reflexivity.
    - apply IH. congruence. }
  unfold pending. split.
  - intros H. assert (Hi := H i). rewrite At in Hi. split.
    + intros j. destruct (Nat.eq_dec j i) as [->|N]; [|rewrite <- (Off i ms j N); apply H].
      destruct (Nat.ltb_spec i (length ms)) as [L|L]; [apply msafe_land in Hi; apply Hi|].
      rewrite nth_overflow by exact L. apply msafe_all. exact C.
    + destruct (i <? length ms)%nat; [apply msafe_land in Hi; apply Hi|exact Hi].
  - intros [P V] j. destruct (Nat.eq_dec j i) as [->|N]; [|rewrite (Off i ms j N); apply P].
    rewrite At. destruct (i <? length ms)%nat; [apply msafe_land; split; [apply P|exact V]|exact V].
Qed.

Lemma check_mem_safe : forall prog mv masks, Forall cells_ok prog ->
  (check_mem prog mv masks = true <-> msafe prog 0 mv /\ pending prog masks).
Proof.
  induction prog as [|f rest IH]; intros mv masks C.
  - cbn. unfold pending. cbn. tauto.
  - inversion C as [|? ? Cf Cr]; subst. cbn [check_mem].
    set (m := match masks with [] => all_valid | m :: _ => m end).
    assert (P : pending (f :: rest) masks <-> msafe (f :: rest) 0 m /\ pending rest (tl masks)).
    { unfold pending, m. split.
      - intros H. split; [specialize (H 0%nat); destruct masks; exact H|].
        intros i. specialize (H (S i)). cbn [msafe] in H. destruct masks as [|x xs]; [|exact H].
        cbn [nth] in H. cbn [tl]. destruct i; exact H.
      - intros [A B] [|i]; [destruct masks; exact A|]. cbn [msafe]. specialize (B i).
        destruct masks as [|x xs]; [|exact B]. cbn [tl] in B. cbn [nth]. destruct i; exact B. }
    rewrite P, <- and_assoc, <- msafe_land. clear P. set (s := N.land mv m). clearbody s. cbn [msafe].
    assert (All : forall i, msafe rest i all_valid) by (intros i; apply msafe_all; exact Cr).
    destruct (kdecode (sf_code f)) as [[]|]; rewrite ?andb_true_iff, ?IH, ?(pending_at _ _ _ _ Cr) by exact Cr;
      try tauto; specialize (All 0%nat); tauto.
Qed.

Lemma msafe_skip : forall prog n s, msafe prog n s <-> msafe (skipn n prog) 0 s.
Proof.
  induction prog as [|f rest IH]; intros [|n] s; cbn [skipn msafe]; try tauto. apply IH.
Qed.

(** The cells written along a path. *)
Fixpoint cells (prog : list sock_filter) (before : list nat) : N :=
  match before with
  | [] => 0
  | i :: rest =>
      match nth_error prog i with
      | Some f => match kdecode (sf_code f) with
                  | Some KSt | Some KStx => N.lor (cells prog rest) (N.shiftl 1 (sf_k f))
                  | _ => cells prog rest
                  end
      | None => cells prog rest
      end
  end.
Lemma cells_spec : forall prog before k, N.testbit (cells prog before) k = true <->
  exists j g, In j before /\ nth_error prog j = Some g /\ In (sf_code g) [0x02; 0x03] /\ sf_k g = k.
Proof.
  intros prog before k. induction before as [|i rest IH].
  - cbn. split; [discriminate|]. intros (j & g & [] & _).
  - assert (More : (exists j g, In j (i :: rest) /\ nth_error prog j = Some g /\ In (sf_code g) [0x02; 0x03] /\ sf_k g = k) <->
      (exists g, nth_error prog i = Some g /\ In (sf_code g) [0x02; 0x03] /\ sf_k g = k) \/ N.testbit (cells prog rest) k = true).
    { rewrite IH. split.
      - intros (j & g & [<-|J] & R); [left; eauto|right; exists j, g; tauto].
      - intros [(g & R)|(j & g & J & R)]; [exists i, g; split; [left; reflexivity|exact R]|exists j, g; split; [right; exact J|exact R]]. }
    rewrite More. clear More. cbn [cells].
    destruct (nth_error prog i) as [f|] eqn:E.
    + assert (St : kdecode (sf_code f) = Some KSt \/ kdecode (sf_code f) = Some KStx <-> In (sf_code f) [0x02; 0x03]).
      { split; [apply kdecode_store|]. intros [<-|[<-|[]]]; [left|right]; reflexivity. }
      assert (No : ~ In (sf_code f) [0x02; 0x03] -> (N.testbit (cells prog rest) k = true <->
        (exists g, Some f = Some g /\ In (sf_code g) [0x02; 0x03] /\ sf_k g = k) \/ N.testbit (cells prog rest) k = true)).
      { intros X. split; [auto|]. intros [(g & G & I & _)|H]; [injection G as <-; contradiction|exact H]. }
      assert (Yes : In (sf_code f) [0x02; 0x03] -> (N.testbit (N.lor (cells prog rest) (N.shiftl 1 (sf_k f))) k = true <->
        (exists g, Some f = Some g /\ In (sf_code g) [0x02; 0x03] /\ sf_k g = k) \/ N.testbit (cells prog rest) k = true)).
      { intros X. rewrite N.lor_spec, orb_true_iff, N.shiftl_1_l, N.pow2_bits_eqb, N.eqb_eq. split.
        - intros [H|H]; [auto|left; exists f; auto].
        - intros [(g & G & _ & H)|H]; [injection G as <-; auto|auto]. }
      destruct (kdecode (sf_code f)) as [[]|]; first [apply Yes; apply St; auto|apply No; rewrite <- St; intuition discriminate].
    + split; [auto|]. intros [(g & G & _)|H]; [discriminate|exact H].
Qed.

Lemma kdecode_ja : forall c, kdecode c = Some KJa <-> c = 0x05.
Proof.
  intros c. split; [|intros ->; reflexivity]. intros H. destruct (code_cases c) as [I|N]; [|congruence].
  cbn [filter_codes branch_codes app In] in I.
  repeat (destruct I as [<-|I]; [cbn in H; first [reflexivity|discriminate]|]). destruct I.
Qed.
Lemma kdecode_jcc : forall c, (exists o x, kdecode c = Some (KJcc o x)) <-> In c branch_codes.
Proof.
  intros c. split.
  - intros (o & x & H). destruct (code_cases c) as [I|N]; [|congruence].
    cbn [filter_codes branch_codes app In] in I.
    repeat (destruct I as [<-|I]; [cbn in H; first [discriminate|cbn; tauto]|]). destruct I.
  - intros I. cbn in I. repeat (destruct I as [<-|I]; [do 2 eexists; reflexivity|]). destruct I.
Qed.

(** [can_follow] by decoded instruction. *)
Lemma follow_cases : forall f i j, can_follow f i j <->
  match kdecode (sf_code f) with
  | Some KJa => j = (i + 1 + N.to_nat (sf_k f))%nat
  | Some (KJcc _ _) => j = (i + 1 + N.to_nat (sf_jt f))%nat \/ j = (i + 1 + N.to_nat (sf_jf f))%nat
  | _ => j = (i + 1)%nat
  end.
Proof.
  intros f i j. unfold can_follow.
  assert (A := kdecode_ja (sf_code f)). assert (B := kdecode_jcc (sf_code f)).
  destruct (N.eqb_spec (sf_code f) 0x05) as [E|E]; [rewrite (proj2 A E); tauto|].
  destruct (in_dec N.eq_dec (sf_code f) branch_codes) as [J|J].
  - destruct (proj2 B J) as (o & x & ->). tauto.
  - destruct (kdecode (sf_code f)) as [[]|]; try tauto.
    exfalso. apply J, B. eauto.
Qed.

Lemma skipn_nth : forall (prog : list sock_filter) i f, nth_error prog i = Some f -> skipn i prog = f :: skipn (i + 1) prog.
Proof.
  induction prog as [|g rest IH]; intros [|i] f H; try discriminate; cbn [nth_error] in H.
  - injection H as ->. reflexivity.
  - cbn [skipn Nat.add]. apply IH. exact H.
Qed.

Lemma skip_skip : forall (l : list sock_filter) n m, skipn (n + m) l = skipn m (skipn n l).
Proof.
  intros l n. revert l. induction n as [|n IH]; intros l m; [reflexivity|]. destruct l as [|f l]; [destruct m; reflexivity|].
  cbn [skipn Nat.add]. apply IH.
Qed.

Lemma safe_along : forall prog before i, msafe prog 0 0 -> path prog before i -> msafe (skipn i prog) 0 (cells prog before).
Proof.
  intros prog before i S P. induction P as [|before i f j P IH N F]; [exact S|].
  rewrite (skipn_nth prog i f N) in IH. apply follow_cases in F. cbn [cells msafe] in *. rewrite N.
  assert (Sk : forall n, skipn (i + 1 + n) prog = skipn n (skipn (i + 1) prog))
    by (intros n; apply skip_skip).
  destruct (kdecode (sf_code f)) as [[]|]; try (subst j; tauto).
  - subst j. rewrite Sk, <- msafe_skip. exact IH.
  - destruct F as [-> | ->]; rewrite Sk, <- msafe_skip; tauto.
Qed.

Definition loads_ok (prog : list sock_filter) : Prop := forall before i f,
  path prog before i -> nth_error prog i = Some f -> In (sf_code f) [0x60; 0x61] ->
  exists j g, In j before /\ nth_error prog j = Some g /\ In (sf_code g) [0x02; 0x03] /\ sf_k g = sf_k f.

Lemma along_safe : forall prog, loads_ok prog -> forall n before i, (length prog - i <= n)%nat -> path prog before i ->
  msafe (skipn i prog) 0 (cells prog before).
Proof.
  intros prog L. induction n as [|n IH]; intros before i Hn P.
  - rewrite skipn_all2 by lia. exact I.
  - destruct (nth_error prog i) as [f|] eqn:N; [|apply nth_error_None in N; rewrite skipn_all2 by exact N; exact I].
    assert (Li : (i < length prog)%nat) by (apply nth_error_Some; congruence).
    assert (Next : forall j, can_follow f i j -> msafe (skipn j prog) 0 (cells prog (i :: before))).
    { intros j F. apply IH; [|exact (path_step prog before i f j P N F)].
      assert (i < j)%nat by (apply follow_cases in F; destruct (kdecode (sf_code f)) as [[]|]; lia). lia. }
    rewrite (skipn_nth prog i f N). cbn [msafe].
    assert (Sk : forall n, skipn (i + 1 + n) prog = skipn n (skipn (i + 1) prog))
      by (intros m; apply skip_skip).
    assert (Ld : kdecode (sf_code f) = Some KLdMem \/ kdecode (sf_code f) = Some KLdxMem ->
                 N.testbit (cells prog before) (sf_k f) = true).
    { intros D. apply cells_spec. apply (L before i f P N). apply kdecode_mem. exact D. }
    assert (F := follow_cases f i). cbn [cells] in Next. rewrite N in Next.
    destruct (kdecode (sf_code f)) as [[]|]; try (apply Next, F; reflexivity).
    + split; [apply Ld; auto|apply Next, F; reflexivity].
    + split; [apply Ld; auto|apply Next, F; reflexivity].
    + rewrite msafe_skip, <- Sk. apply Next, F. reflexivity.
    + split; rewrite msafe_skip, <- Sk; apply Next, F; auto.
Qed.

Lemma safe_iff : forall prog, msafe prog 0 0 <-> loads_ok prog.
Proof.
  intros prog. split.
  - intros S before i f P N C. pose proof (safe_along prog before i S P) as H.
    rewrite (skipn_nth prog i f N) in H. apply cells_spec. cbn [msafe] in H.
    destruct C as [C|[C|[]]]; rewrite <- C in H; apply H.
  - intros L. apply (along_safe prog L (length prog) [] 0%nat); [lia|constructor].
Qed.

Lemma c118_exact : forall prog,
  kernel_accepts prog = true <->
  0 < N.of_nat (length prog) <= 4096 /\
  (exists init f, prog = init ++ [f] /\ In (sf_code f) [0x06; 0x16]) /\
  (forall i f, nth_error prog i = Some f -> insn_allowed (N.of_nat i) (N.of_nat (length prog)) f) /\
  (forall before i f, path prog before i -> nth_error prog i = Some f -> In (sf_code f) [0x60; 0x61] ->
     exists j g, In j before /\ nth_error prog j = Some g /\ In (sf_code g) [0x02; 0x03] /\ sf_k g = sf_k f).
Proof.
  intros prog. unfold kernel_accepts. rewrite !andb_true_iff, N.ltb_lt, N.leb_le, ends_in_ret_iff, (check_insns_allowed prog 0).
  change BPF_MAXINSNS with 4096. fold (loads_ok prog).
  assert (X : (forall j f, nth_error prog j = Some f -> insn_allowed (0 + N.of_nat j) (0 + N.of_nat (length prog)) f) ->
    (check_mem prog 0 [] = true <-> loads_ok prog)).
  { intros A. rewrite check_mem_safe, <- safe_iff.
    - assert (C : Forall cells_ok prog).
      { apply Forall_forall. intros f I. apply In_nth_error in I. destruct I as (j & J). destruct (A j f J) as (_ & _ & _ & _ & X & _). exact X. }
      split; [tauto|]. intros S. split; [exact S|]. intros i. replace (nth i [] all_valid) with all_valid by (destruct i; reflexivity).
      apply msafe_all. exact C.
    - apply Forall_forall. intros f I. apply In_nth_error in I. destruct I as (j & J). destruct (A j f J) as (_ & _ & _ & _ & X & _). exact X. }
  change (forall i f, nth_error prog i = Some f -> insn_allowed (N.of_nat i) (N.of_nat (length prog)) f)
    with (forall j f, nth_error prog j = Some f -> insn_allowed (0 + N.of_nat j) (0 + N.of_nat (length prog)) f).
  tauto.
Qed.

(** * Consequences *)
Lemma list_set_len : forall (l : list N) i v, length (list_set l i v) = length l.
Proof. induction l as [|a l IH]; intros [|i] v; cbn [list_set length]; auto. Qed.
Lemma list_set_at : forall (l : list N) i v, (i < length l)%nat -> nth i (list_set l i v) 0 = v.
Proof. induction l as [|a l IH]; intros [|i] v H; cbn [list_set nth length] in *; try lia; auto. apply IH. lia. Qed.
Lemma list_set_off : forall (l : list N) i j v, j <> i -> nth j (list_set l i v) 0 = nth j l 0.
Proof. induction l as [|a l IH]; intros [|i] [|j] v H; cbn [list_set nth]; try congruence; auto. Qed.

Lemma stale_scratch : forall prog skip s a x mem mem' w, msafe prog (N.to_nat skip) s -> length mem = length mem' ->
  (forall k, N.testbit s k = true -> kload mem k = kload mem' k) ->
  keval prog skip a x mem w = keval prog skip a x mem' w.
Proof.
  induction prog as [|f rest IH]; intros skip s a x mem mem' w S L M; [reflexivity|].
  cbn [msafe keval] in *. destruct (N.eqb_spec skip 0) as [->|N]; cbn [negb].
  2:{ apply (IH _ s); [|exact L|exact M]. replace (N.to_nat (skip - 1)) with (pred (N.to_nat skip)) by lia.
      destruct (N.to_nat skip) eqn:E; [lia|exact S]. }
  change (N.to_nat 0) with 0%nat in S.
  assert (Go : forall y z k, msafe rest (N.to_nat k) s -> keval rest k y z mem w = keval rest k y z mem' w)
    by (intros y z k S'; apply (IH _ s); assumption).
  assert (Put : forall v y z, msafe rest 0 (N.lor s (N.shiftl 1 (sf_k f))) ->
     keval rest 0 y z (list_set mem (N.to_nat (sf_k f)) v) w = keval rest 0 y z (list_set mem' (N.to_nat (sf_k f)) v) w).
  { intros v y z S'. apply (IH _ (N.lor s (N.shiftl 1 (sf_k f)))); [exact S'|rewrite !list_set_len; exact L|].
    intros k B. unfold kload. rewrite N.lor_spec, orb_true_iff, N.shiftl_1_l, N.pow2_bits_eqb, N.eqb_eq in B.
    destruct (N.eq_dec k (sf_k f)) as [->|Nk].
    - destruct (Nat.lt_ge_cases (N.to_nat (sf_k f)) (length mem)) as [Lt|Ge].
      + rewrite !list_set_at by (rewrite <- ?L; exact Lt). reflexivity.
      + rewrite !nth_overflow by (rewrite list_set_len, <- ?L; exact Ge). reflexivity.
    - rewrite !list_set_off by lia. apply M. destruct B as [B|B]; [exact B|congruence]. }
  destruct (kdecode (sf_code f)) as [[]|]; try reflexivity; try (apply (Go _ _ 0); exact S).
  - destruct S as [B S]. rewrite (M _ B). apply (Go _ _ 0). exact S.
  - destruct S as [B S]. rewrite (M _ B). apply (Go _ _ 0). exact S.
  - apply Put. exact S.
  - apply Put. exact S.
  - destruct (kalu_eval _ _ _); [|reflexivity]. apply (Go _ _ 0). exact S.
  - apply Go. exact S.
  - destruct (kcmp_eval _ _ _); apply Go; apply S.
Qed.

Lemma accepts_safe : forall prog, kernel_accepts prog = true -> msafe prog 0 0.
Proof. intros prog H. apply safe_iff. apply c118_exact in H. exact (proj2 (proj2 (proj2 H))). Qed.

Lemma c118_scratch : forall prog d mem mem', kernel_accepts prog = true -> length mem = length mem' ->
  kernel_eval_mem mem prog d = kernel_eval_mem mem' prog d.
Proof.
  intros prog d mem mem' H L. apply (stale_scratch prog 0 0); [apply accepts_safe; exact H|exact L|].
  intros k B. rewrite N.bits_0 in B. discriminate.
Qed.

Lemma run_ends : forall prog skip a x mem w, check_insns prog = true -> ends_in_ret prog = true ->
  skip < N.of_nat (length prog) ->
  let t := ktrace prog skip a x mem w in
  (length t <= length prog)%nat /\
  exists before f, t = before ++ [f] /\
    (sf_code f = 0x06 /\ keval prog skip a x mem w = sf_k f \/ sf_code f = 0x16 \/
     sf_code f = 0x3c /\ keval prog skip a x mem w = 0).
Proof.
  induction prog as [|f rest IH]; intros skip a x mem w C E L; [discriminate|].
  cbn [check_insns] in C. apply andb_true_iff in C. destruct C as [Cf Cr]. cbn [ktrace keval length] in *.
  destruct (N.eqb_spec skip 0) as [->|N]; cbn [negb].
  2:{ destruct rest as [|g rest]; [cbn in L; lia|].
      destruct (IH (skip - 1) a x mem w Cr E ltac:(cbn [length] in *; lia)) as [A B]. split; [cbn [length] in *; lia|exact B]. }
  assert (Ret : ends_in_ret rest = true \/ (rest = [] /\ (sf_code f = 0x06 \/ sf_code f = 0x16))).
  { destruct rest as [|g rest]; [|left; exact E]. right. split; [reflexivity|].
    apply ends_in_ret_iff in E. destruct E as (init & h & Eq & I). destruct init as [|? [|]]; try discriminate.
    injection Eq as ->. destruct I as [I|[I|[]]]; auto. }
  assert (Go : forall k y z m, (sf_code f <> 0x06 -> sf_code f <> 0x16 -> k < N.of_nat (length rest)) -> 
     sf_code f <> 0x06 -> sf_code f <> 0x16 ->
     let t := f :: ktrace rest k y z m w in
     (length t <= S (length rest))%nat /\
     exists before g, t = before ++ [g] /\
      (sf_code g = 0x06 /\ keval rest k y z m w = sf_k g \/ sf_code g = 0x16 \/ sf_code g = 0x3c /\ keval rest k y z m w = 0)).
  { intros k y z m Lk N1 N2. destruct Ret as [Ret|[-> [R|R]]]; try contradiction.
    destruct (IH k y z m w Cr Ret (Lk N1 N2)) as (A & before & g & T & Q). cbv zeta. cbn [length]. split; [lia|].
    exists (f :: before), g. rewrite T. split; [reflexivity|exact Q]. }
  assert (Pos : sf_code f <> 0x06 -> sf_code f <> 0x16 -> 0 < N.of_nat (length rest)).
  { intros N1 N2. destruct Ret as [Ret|[-> [R|R]]]; try contradiction. destruct rest; [discriminate|cbn [length]; lia]. }
  unfold check_insn in Cf. destruct f as [c jt jf k]. cbn [sf_code sf_jt sf_jf sf_k] in *.
  destruct (code_cases c) as [I|N]; [|rewrite N in Cf; discriminate].
  cbn [filter_codes branch_codes app In] in I. set (f := SockFilter c jt jf k) in *.
  assert (End : (length [f] <= S (length rest))%nat) by (cbn [length]; lia).
  repeat (destruct I as [<-|I]; [cbn [kdecode kalu_eval] in *;
    try (apply Go; [exact Pos|discriminate|discriminate])|]); try destruct I.
  { destruct (k =? 0); [discriminate|]. apply Go; [exact Pos|discriminate|discriminate]. }
  { destruct (x =? 0); [|apply Go; [exact Pos|discriminate|discriminate]].
    split; [exact End|]. exists [], f. split; [reflexivity|]. right. right. auto. }
  { split; [exact End|]. exists [], f. split; [reflexivity|]. left. auto. }
  { split; [exact End|]. exists [], f. split; [reflexivity|]. right. left. auto. }
  { apply N.ltb_lt in Cf. apply Go; [intros _ _; exact Cf|discriminate|discriminate]. }
  all: apply andb_true_iff in Cf; destruct Cf as [C1 C2]; apply N.ltb_lt in C1, C2;
    apply Go; [intros _ _; destruct (kcmp_eval _ _ _); assumption|discriminate|discriminate].
Qed.

Lemma c118_ends : forall prog d mem, kernel_accepts prog = true ->
  let t := ktrace prog 0 0 0 mem (sd_words d) in
  (length t <= length prog)%nat /\
  exists before f, t = before ++ [f] /\
    (sf_code f = 0x06 /\ kernel_eval_mem mem prog d = sf_k f \/ sf_code f = 0x16 \/
     sf_code f = 0x3c /\ kernel_eval_mem mem prog d = 0).
Proof.
  intros prog d mem H. unfold kernel_accepts in H. rewrite !andb_true_iff in H. destruct H as ((((A & _) & C) & E) & _).
  apply N.ltb_lt in A. apply run_ends; assumption.
Qed.

Lemma in_codes : forall c, (if in_dec N.eq_dec c filter_codes then true else false) = true -> In c filter_codes.
Proof. intros c. destruct (in_dec N.eq_dec c filter_codes); [auto|discriminate]. Qed.
Lemma not_in_codes : forall c P, (if in_dec N.eq_dec c filter_codes then true else false) = false ->
  (In c filter_codes /\ P <-> False).
Proof. intros c P. destruct (in_dec N.eq_dec c filter_codes); [discriminate|]. tauto. Qed.
Lemma in_small : forall c l, In c l -> existsb (N.eqb c) l = true.
Proof. intros c l H. apply existsb_exists. exists c. split; [exact H|apply N.eqb_refl]. Qed.

Lemma c118_operations : forall prof line op labels f i n,
  to_sock_filter prof line op labels = Ok f ->
  (insn_allowed i n f <->
   loadable_op op /\
   (sf_code f = 0x05 -> i + 1 + sf_k f < n) /\
   (In (sf_code f) branch_codes -> i + 1 + sf_jt f < n /\ i + 1 + sf_jf f < n)).
Proof.
  intros prof line op labels f i n H.
  assert (S : forall c k p q r, f = {| sf_code := c; sf_jt := p; sf_jf := q; sf_k := k |} ->
     (In c filter_codes /\ (c = 0x20 -> k < 64 /\ k mod 4 = 0) /\ (c = 0x34 -> k <> 0) /\
      (In c [0x64; 0x74] -> k < 32) /\ (In c [0x60; 0x61; 0x02; 0x03] -> k < 16) <-> r) ->
     (insn_allowed i n f <-> r /\ (sf_code f = 0x05 -> i + 1 + sf_k f < n) /\
        (In (sf_code f) branch_codes -> i + 1 + sf_jt f < n /\ i + 1 + sf_jf f < n))).
  { intros c k p q r -> R. rewrite <- R. unfold insn_allowed. cbn [sf_code sf_k sf_jt sf_jf]. tauto. }
  destruct op as [l|m v|m v|m v|m v|o s v|s v|l|o c lt lf]; cbn [to_sock_filter] in H; try discriminate H.
  7:{ destruct (jmp_calc prof labels (Some l) line) as [t| | |]; try discriminate H. injection H as <-.
      eapply S; [reflexivity|]. cbn. intuition discriminate. }
  7:{ destruct (jmp_calc prof labels lt line) as [t| | |]; try discriminate H.
      destruct (jmp_calc prof labels lf line) as [t'| | |]; try discriminate H. injection H as <-.
      destruct o; (eapply S; [reflexivity|]; cbn; intuition discriminate). }
  all: injection H as <-.
  1-4: destruct m.
  21: destruct o, s.
  51: destruct s.
  all: eapply S; [reflexivity|].
  all: match goal with |- In ?c _ /\ _ <-> _ => let c' := eval vm_compute in c in change c with c' end.
  all: cbn [loadable_op].
  all: match goal with |- ?c <-> False => apply not_in_codes; reflexivity | _ => idtac end.
  all: match goal with |- In ?c _ /\ _ <-> _ => assert (I : In c filter_codes) by (apply in_codes; reflexivity) end.
  all: split;
    [ intros (_ & H1 & H2 & H3 & H4); clear I S;
      first [exact Logic.I|exact (H1 eq_refl)|exact (H2 eq_refl)|apply H3; cbn; clear; tauto|apply H4; cbn; clear; tauto]
    | intros R; split; [exact I|clear I S; split; [|split; [|split]]; intros X;
        first [exact R|exfalso; clear R; first [discriminate X|apply in_small in X; discriminate X]]] ].
Qed.

Lemma mapM_nth_err : forall E A B (f : N * A -> res E B) l n r i a,
  mapM f (enumerate n l) = Ok r -> nth_error l i = Some a ->
  exists b, nth_error r i = Some b /\ f (n + N.of_nat i, a) = Ok b.
Proof.
  intros E A B f. induction l as [|a l IH]; intros n r i b M Hi; cbn [enumerate mapM] in M.
  - destruct i; discriminate.
  - destruct (f (n, a)) as [b0| | |] eqn:Ea; cbn [bind] in M; try discriminate.
    destruct (mapM f (enumerate (n + 1) l)) as [bs| | |] eqn:El; cbn [bind] in M; try discriminate.
    injection M as <-. destruct i as [|i].
    + injection Hi as <-. exists b0. split; [reflexivity|]. rewrite N.add_0_r. exact Ea.
    + destruct (IH _ _ _ _ El Hi) as (a' & Ha & Hf). exists a'. split; [exact Ha|].
      rewrite <- Hf. f_equal. f_equal. lia.
Qed.

(** Which operations write returns and loads from scratch cells. *)
Lemma writes_return : forall prof line op labels f, to_sock_filter prof line op labels = Ok f ->
  (In (sf_code f) [0x06; 0x16] <-> exists s v, op = Return s v /\ s <> Idx).
Proof.
  intros prof line op labels f H.
  assert (K : forall c (P : Prop), ((if in_dec N.eq_dec c [0x06; 0x16] then True else False) <-> P) -> (In c [0x06; 0x16] <-> P)).
  { intros c P. destruct (in_dec N.eq_dec c [0x06; 0x16]); tauto. }
  apply K. clear K.
  destruct op as [l|m v|m v|m v|m v|o s v|s v|l|o c lt lf]; cbn [to_sock_filter] in H; try discriminate H.
  7:{ destruct (jmp_calc prof labels (Some l) line) as [t| | |]; try discriminate H. injection H as <-.
      cbn. split; [intros []|]. intros (s & v & E & _). discriminate E. }
  7:{ destruct (jmp_calc prof labels lt line) as [t| | |]; try discriminate H.
      destruct (jmp_calc prof labels lf line) as [t'| | |]; try discriminate H. injection H as <-.
      destruct o; (cbn; split; [intros []|]; intros (s & v & E & _); discriminate E). }
  all: injection H as <-.
  1-4: destruct m; (cbn; split; [intros []|]; intros (s & w & E & _); discriminate E).
  - destruct o, s; (cbn; split; [intros []|]; intros (s & w & E & _); discriminate E).
  - destruct s; cbn.
    + split; [|auto]. intros _. exists Const, v. split; [reflexivity|discriminate].
    + split; [intros []|]. intros (s & w & E & X). injection E as <- _. exact (X eq_refl).
    + split; [|auto]. intros _. exists Acc, v. split; [reflexivity|discriminate].
Qed.
Lemma writes_load : forall prof line op labels f, to_sock_filter prof line op labels = Ok f ->
  In (sf_code f) [0x60; 0x61] -> exists v, op = Load MEM v \/ op = LoadIdx MEM v.
Proof.
  intros prof line op labels f H I.
  assert (K : if in_dec N.eq_dec (sf_code f) [0x60; 0x61] then True else False).
  { destruct (in_dec N.eq_dec (sf_code f) [0x60; 0x61]); tauto. }
  clear I.
  destruct op as [l|m v|m v|m v|m v|o s v|s v|l|o c lt lf]; cbn [to_sock_filter] in H; try discriminate H.
  7:{ destruct (jmp_calc prof labels (Some l) line) as [t| | |]; try discriminate H. injection H as <-. destruct K. }
  7:{ destruct (jmp_calc prof labels lt line) as [t| | |]; try discriminate H.
      destruct (jmp_calc prof labels lf line) as [t'| | |]; try discriminate H. injection H as <-. destruct o; destruct K. }
  all: injection H as <-.
  - destruct m; try (destruct K; fail). exists v. left. reflexivity.
  - destruct m; try (destruct K; fail). exists v. right. reflexivity.
  - destruct m; destruct K.
  - destruct m; destruct K.
  - destruct o, s; destruct K.
  - destruct s; destruct K.
Qed.

Lemma c118_assembled : forall prof prog code,
  compile prof prog = Ok code ->
  (forall v, ~ In (Load MEM v) prog /\ ~ In (LoadIdx MEM v) prog) ->
  (kernel_accepts code = true <->
   0 < instructions prog <= 4096 /\
   (exists pre s v post, prog = pre ++ Return s v :: post /\ s <> Idx /\ instructions post = 0) /\
   (forall op, In op prog -> loadable_op op) /\
   (forall i f, nth_error code i = Some f ->
      (sf_code f = 0x05 -> N.of_nat i + 1 + sf_k f < instructions prog) /\
      (In (sf_code f) branch_codes ->
         N.of_nat i + 1 + sf_jt f < instructions prog /\ N.of_nat i + 1 + sf_jf f < instructions prog))).
Proof.
  intros prof prog code H NM. unfold compile in H. fold (strip prog) in H.
  assert (L : N.of_nat (length code) = instructions prog).
  { rewrite instructions_strip. apply mapM_length in H. rewrite H, enumerate_length. reflexivity. }
  assert (SI : forall op, In op (strip prog) <-> In op prog /\ is_label op = false).
  { intros op. unfold strip. rewrite filter_In, negb_true_iff. reflexivity. }
  rewrite c118_exact, L. 
  assert (A : (exists init f, code = init ++ [f] /\ In (sf_code f) [0x06; 0x16]) <->
              (exists pre s v post, prog = pre ++ Return s v :: post /\ s <> Idx /\ instructions post = 0)).
  { split.
    - intros (init & f & E & I).
      destruct (mapM_nth _ _ _ _ _ _ _ (length init) f H) as (op & O1 & O2).
      { rewrite E, nth_error_app2, Nat.sub_diag by lia. reflexivity. }
      cbn [fst snd] in O2. apply (writes_return _ _ _ _ _ O2) in I. destruct I as (s & v & -> & Sx).
      assert (LL : length (strip prog) = S (length init)).
      { apply mapM_length in H. rewrite enumerate_length, E, app_length in H. cbn in H. lia. }
      clear - O1 Sx LL. revert O1 LL. generalize (length init) as n.
      induction prog as [|o prog IH]; intros n O1 LL; [destruct n; discriminate|].
      unfold strip in O1, LL. cbn [filter] in O1, LL.
      destruct (is_label o) eqn:Lo; cbn [negb] in O1, LL; fold (strip prog) in O1, LL.
      + destruct (IH n O1 LL) as (pre & s' & v' & post & -> & R). exists (o :: pre), s', v', post. split; [reflexivity|exact R].
      + destruct n as [|n].
        * cbn [nth_error] in O1. injection O1 as ->. exists [], s, v, prog. split; [reflexivity|]. split; [exact Sx|].
          rewrite instructions_strip. cbn [length] in LL. injection LL as ->. reflexivity.
        * cbn [nth_error length] in O1, LL. injection LL as LL.
          destruct (IH n O1 LL) as (pre & s' & v' & post & -> & R). exists (o :: pre), s', v', post. split; [reflexivity|exact R].
    - intros (pre & s & v & post & -> & S & P).
      assert (X : strip (pre ++ Return s v :: post) = strip pre ++ [Return s v]).
      { unfold strip. rewrite filter_app. cbn [filter is_label negb]. f_equal. f_equal.
        fold (strip post). rewrite instructions_strip in P. destruct (strip post); [reflexivity|discriminate P]. }
      rewrite X in H.
      destruct (mapM_nth_err _ _ _ _ _ _ _ (length (strip pre)) (Return s v) H) as (f & F1 & F2).
      { rewrite nth_error_app2, Nat.sub_diag by lia. reflexivity. }
      cbn [fst snd] in F2. apply nth_error_split in F1. destruct F1 as (l1 & l2 & E & E').
      exists l1, f. split.
      + apply mapM_length in H. rewrite enumerate_length, E, !app_length in H. cbn [length] in H.
        destruct l2; [exact E|cbn [length] in H; lia].
      + apply (writes_return _ _ _ _ _ F2). exists s, v. split; [reflexivity|exact S]. }
  rewrite A. clear A.
  split.
  - intros (S & R & I & _). split; [exact S|]. split; [exact R|]. split.
    + intros op O. destruct (is_label op) eqn:Lo; [destruct op; try discriminate; exact Logic.I|].
      destruct (In_nth_error (strip prog) op) as [i Hi]; [apply SI; auto|].
      destruct (mapM_nth_err _ _ _ _ _ _ _ i op H Hi) as (f & F1 & F2). cbn [fst snd] in F2.
      apply (proj1 (c118_operations _ _ _ _ _ _ _ F2) (I i f F1)).
    + intros i f F. destruct (mapM_nth _ _ _ _ _ _ _ i f H F) as (op & O1 & O2). cbn [fst snd] in O2.
      apply (proj1 (c118_operations _ _ _ _ _ _ _ O2) (I i f F)).
  - intros (S & R & I & J). split; [exact S|]. split; [exact R|]. split.
    + intros i f F. destruct (mapM_nth _ _ _ _ _ _ _ i f H F) as (op & O1 & O2). cbn [fst snd] in O2.
      apply (proj2 (c118_operations _ _ _ _ _ _ _ O2)). split; [|exact (J i f F)].
      apply I. apply nth_error_In in O1. apply SI in O1. apply O1.
    + intros before i f _ F K. destruct (mapM_nth _ _ _ _ _ _ _ i f H F) as (op & O1 & O2). cbn [fst snd] in O2.
      apply (writes_load _ _ _ _ _ O2) in K. destruct K as [v K]. apply nth_error_In in O1. apply SI in O1.
      destruct O1 as [O1 _]. destruct (NM v) as [N1 N2]. destruct K as [-> | ->]; contradiction.
Qed.
