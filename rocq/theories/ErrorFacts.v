(** Error messages: C84. *)
From Coq Require Import NArith Arith String Ascii List Bool Lia DecimalString DecimalN.
From Verif Require Import Bpf Promises Filters Errors TextSpec.
Import ListNotations.
Local Open Scope string_scope.

(** * Strings *)

Lemma append_inv_head : forall a s t : string, a ++ s = a ++ t -> s = t.
Proof.
  induction a as [|c a IH]; intros s t H; [exact H|].
  cbn [append] in H. injection H as H. auto.
Qed.
Lemma append_length : forall s t, String.length (s ++ t) = (String.length s + String.length t)%nat.
Proof. induction s as [|c s IH]; intros t; [reflexivity|]. cbn [append String.length]. rewrite IH. reflexivity. Qed.
Lemma append_inv_tail : forall s t a : string, s ++ a = t ++ a -> s = t.
Proof.
  induction s as [|c s IH]; intros [|d t] a H; [reflexivity| | |].
  - apply (f_equal String.length) in H. rewrite !append_length in H. cbn [String.length] in H. lia.
  - apply (f_equal String.length) in H. rewrite !append_length in H. cbn [String.length] in H. lia.
  - cbn [append] in H. injection H as -> H. f_equal. eapply IH. exact H.
Qed.
Lemma append_assoc : forall a b c : string, (a ++ b) ++ c = a ++ b ++ c.
Proof. induction a as [|x a IH]; intros b c; [reflexivity|]. cbn [append]. rewrite IH. reflexivity. Qed.

Fixpoint last_char (d : ascii) (s : string) : ascii :=
  match s with "" => d | String c s' => last_char c s' end.
Lemma last_append : forall s d c, last_char d (s ++ String c "") = c.
Proof. induction s as [|x s IH]; intros d c; [reflexivity|]. cbn [append last_char]. apply IH. Qed.

(** * Numbers *)

Lemma value_acc : forall d p, fold_digits (N.pos p) (NilEmpty.string_of_uint d) =
  N.pos (Pos.of_uint_acc d p).
Proof.
  induction d; intros p; cbn [NilEmpty.string_of_uint fold_digits Pos.of_uint_acc]; [reflexivity|..];
    rewrite <- IHd; f_equal; reflexivity || (cbn [digit nat_of_ascii]; vm_compute digit; lia).
Qed.
Lemma value_uint : forall d, fold_digits 0 (NilEmpty.string_of_uint d) = N.of_uint d.
Proof.
  unfold N.of_uint.
  induction d; cbn [NilEmpty.string_of_uint fold_digits Pos.of_uint]; [reflexivity|exact IHd|..];
    rewrite <- value_acc; f_equal.
Qed.

Lemma to_uint_not_nil : forall n, N.to_uint n <> Decimal.Nil.
Proof.
  intros n H. pose proof (Unsigned.to_of (N.to_uint n)) as E. rewrite Unsigned.of_to, H in E. discriminate.
Qed.
Lemma show_number_empty : forall n, show_number n = NilEmpty.string_of_uint (N.to_uint n).
Proof.
  intros n. unfold show_number, NilZero.string_of_uint. pose proof (to_uint_not_nil n).
  destruct (N.to_uint n); congruence.
Qed.
Lemma show_number_value : forall n, fold_digits 0 (show_number n) = n.
Proof. intros n. rewrite show_number_empty, value_uint, Unsigned.of_to. reflexivity. Qed.
Lemma show_number_inj : forall n m, show_number n = show_number m -> n = m.
Proof. intros n m H. pose proof (show_number_value n) as E. rewrite H, show_number_value in E. auto. Qed.

Lemma unorm_canonical : forall d, no_leading_zero (NilEmpty.string_of_uint (Decimal.unorm d)).
Proof.
  unfold Decimal.unorm. induction d; cbn [Decimal.nzhead NilEmpty.string_of_uint no_leading_zero];
    try exact IHd; intros H; try discriminate H; reflexivity.
Qed.
Lemma show_number_canonical : forall n, no_leading_zero (show_number n).
Proof.
  intros n. rewrite show_number_empty, <- (Unsigned.of_to n), Unsigned.to_of. apply unorm_canonical.
Qed.

Lemma show_number_digits : forall n, all_digits (show_number n).
Proof.
  intros n. rewrite show_number_empty. induction (N.to_uint n); cbn [NilEmpty.string_of_uint all_digits]; auto;
    split; auto; vm_compute; lia.
Qed.

(** * Labels *)

(** Reads one escaped character back. *)
Definition unhex (c : ascii) : nat :=
  let n := nat_of_ascii c in if Nat.ltb n 58 then n - 48 else n - 87.
Definition unescape_char (s : string) : option (ascii * string) :=
  match s with
  | String "\" (String "0" r) => Some (ascii_of_nat 0, r)
  | String "\" (String "t" r) => Some (ascii_of_nat 9, r)
  | String "\" (String "n" r) => Some (ascii_of_nat 10, r)
  | String "\" (String "r" r) => Some (ascii_of_nat 13, r)
  | String "\" (String "u" (String _ (String a (String "}" r)))) => Some (ascii_of_nat (unhex a), r)
  | String "\" (String "u" (String _ (String a (String b (String _ r))))) =>
      Some (ascii_of_nat (16 * unhex a + unhex b), r)
  | String "\" (String c r) => Some (c, r)
  | String c r => Some (c, r)
  | "" => None
  end.
Lemma unescape_escape : forall c s, unescape_char (escape_char c ++ s) = Some (c, s).
Proof. intros [[] [] [] [] [] [] [] []] s; vm_compute; reflexivity. Qed.

Lemma escape_inj : forall s t, escape s = escape t -> s = t.
Proof.
  induction s as [|c s IH]; intros [|d t] H; cbn [escape] in H.
  - reflexivity.
  - pose proof (unescape_escape d (escape t)) as E. rewrite <- H in E. discriminate.
  - pose proof (unescape_escape c (escape s)) as E. rewrite H in E. discriminate.
  - pose proof (unescape_escape c (escape s)) as E. rewrite H, unescape_escape in E.
    injection E as -> E. f_equal. apply IH. auto.
Qed.
Lemma escape_plain : forall s, printable s -> escape s = s.
Proof.
  induction s as [|c s IH]; intros H; [reflexivity|]. destruct H as [H Hs].
  cbn [escape]. rewrite (IH Hs).
  assert (E : escape_char c = String c ""); [|rewrite E; reflexivity].
  revert H. destruct c as [[] [] [] [] [] [] [] []]; vm_compute; intros H; try reflexivity; exfalso;
    repeat match goal with X : _ /\ _ |- _ => destruct X end; try lia; congruence.
Qed.

(** * C84 *)

Lemma c84_bpf : forall e1 e2, bpf_message e1 = bpf_message e2 -> e1 = e2.
Proof.
  intros e1 e2 H. destruct e1, e2; cbn [bpf_message append] in H; try discriminate H; try reflexivity;
    repeat (injection H as H; try discriminate H); apply append_inv_tail in H;
    f_equal;
    solve [apply show_number_inj; exact H | apply escape_inj; apply append_inv_tail in H; exact H].
Qed.

Lemma bpf_message_end : forall e d, last_char d (bpf_message e) = "."%char.
Proof.
  intros [n|n|n|n| |n|l] d; try reflexivity; unfold bpf_message; rewrite <- append_assoc; apply last_append.
Qed.
Lemma show_promise_inj : forall p q, show_promise p = show_promise q -> p = q.
Proof. intros [] [] H; try reflexivity; discriminate H. Qed.

(** Two texts of the same length of digits after the same mark. *)
Lemma digits_no_space : forall s a b t, all_digits s -> s = a ++ String " " (b ++ t) -> False.
Proof.
  induction s as [|c s IH]; intros a b t D E.
  - destruct a; discriminate.
  - destruct D as [D Ds]. destruct a as [|x a]; cbn [append] in E.
    + injection E as -> E. vm_compute in D. lia.
    + injection E as _ E. eapply IH; eauto.
Qed.
Lemma split_mark : forall x y a b m, all_digits a -> all_digits b ->
  x ++ String " " (m ++ String " " a) = y ++ String " " (m ++ String " " b) -> a = b.
Proof.
  assert (K : forall x y a b, all_digits a -> all_digits b ->
    x ++ String " " a = y ++ String " " b -> a = b).
  { induction x as [|c x IH]; intros [|d y] a b A B H; cbn [append] in H.
    - injection H as H. exact H.
    - injection H as _ H. exfalso. eapply (digits_no_space a y "" b A). exact H.
    - injection H as _ H. exfalso. eapply (digits_no_space b x "" a B). symmetry. exact H.
    - injection H as _ H. eapply IH; eauto. }
  intros x y a b m A B H. apply (K (x ++ String " " m) (y ++ String " " m) a b A B).
  rewrite !append_assoc. cbn [append]. exact H.
Qed.

Lemma c84_pledge : forall os e1 e2, pledge_message os e1 = pledge_message os e2 -> e1 = e2.
Proof.
  assert (End : forall os n d, last_char d (pledge_message os (SysErr n)) = ")"%char).
  { intros os n d. cbn [pledge_message]. rewrite <- !append_assoc. apply last_append. }
  assert (EndP : forall os p d, last_char d (pledge_message os (UndefinedPromise p)) = "."%char)
    by (intros os [] d; reflexivity).
  intros os e1 e2 H.
  pose proof (f_equal (last_char " "%char) H) as L.
  destruct e1 as [p|n|e1], e2 as [q|m|e2]; rewrite ?End, ?EndP in L;
    try (cbn [pledge_message] in L; rewrite ?bpf_message_end in L); try discriminate L.
  - f_equal. apply show_promise_inj. cbn [pledge_message] in H. apply append_inv_head in H.
    apply append_inv_tail in H. exact H.
  - exfalso. destruct e2; discriminate H.
  - f_equal. apply show_number_inj. cbn [pledge_message] in H.
    rewrite <- !append_assoc in H. apply append_inv_tail in H. rewrite !append_assoc in H.
    apply (split_mark (os n) (os m) _ _ "(os error"); auto using show_number_digits.
  - exfalso. destruct e1; discriminate H.
  - f_equal. apply c84_bpf. exact H.
Qed.

Lemma c84_number : forall n, decimal (show_number n) n.
Proof.
  intros n. split; [|split].
  - apply show_number_digits.
  - apply show_number_canonical.
  - apply show_number_value.
Qed.

Lemma c84_texts : forall n, exists s, decimal s n /\
  bpf_message (ProgramTooLong n) = ("Program len is bigger than limit (u16::MAX); " ++ s ++ ".")%string /\
  bpf_message (InvalidInstructionCode n) = ("Unsupported BPF instruction code (with flags): " ++ s ++ ".")%string /\
  bpf_message (UnsupportedInstruction n) = ("Unsupported BPF Instruction; " ++ s ++ ".")%string /\
  bpf_message (UnsupportedReturn n) = ("Unsupported Return value; " ++ s ++ ".")%string /\
  bpf_message (UnknownInstruction n) = ("Unknown BPF Instruction; " ++ s ++ ".")%string /\
  forall os, pledge_message os (SysErr n) = (os n ++ " (os error " ++ s ++ ")")%string.
Proof. intros n. exists (show_number n). split; [apply c84_number|]. repeat split. Qed.

Lemma c84_label : forall l, printable l ->
  bpf_message (UnknownLabelReference l) = ("Unknown label reference; """ ++ l ++ """.")%string.
Proof.
  intros l H. cbn [bpf_message]. unfold show_string. rewrite (escape_plain l H), !append_assoc. reflexivity.
Qed.

(** All labels. *)
Lemma quoted_char : forall c l t, quoted_text l t -> quoted_text (String c l) (escape_char c ++ t).
Proof.
  intros c l t H. unfold escape_char. set (n := nat_of_ascii c).
  destruct (Nat.eqb_spec n 0) as [E|E0]; [apply QLetter; [left; split; [exact E|reflexivity]|exact H]|].
  destruct (Nat.eqb_spec n 9) as [E|E1]; [apply QLetter; [right; left; split; [exact E|reflexivity]|exact H]|].
  destruct (Nat.eqb_spec n 10) as [E|E2];
    [apply QLetter; [right; right; left; split; [exact E|reflexivity]|exact H]|].
  destruct (Nat.eqb_spec n 13) as [E|E3];
    [apply QLetter; [right; right; right; split; [exact E|reflexivity]|exact H]|].
  assert (C : forall k, n = k -> c = ascii_of_nat k).
  { intros k <-. symmetry. apply ascii_nat_embedding. }
  destruct (Nat.eqb_spec n 34) as [E|E4]; [apply QMarked; [left; exact (C 34%nat E)|exact H]|].
  destruct (Nat.eqb_spec n 92) as [E|E5].
  { rewrite (C 92%nat E). apply QMarked; [right; reflexivity|exact H]. }
  destruct (Nat.ltb_spec n 32) as [L|L]; cbn [orb].
  - rewrite !append_assoc. apply QCode; [left; exact L|fold n; lia| |exact H].
    fold n. clear - L. exists (n / 16)%nat, (n mod 16)%nat. clearbody n.
    do 32 (destruct n as [|n]; [split; [reflexivity|split; [cbn; lia|split; [cbn; lia|reflexivity]]]|]). lia.
  - destruct (Nat.eqb_spec n 127) as [E|E6]; cbn [orb].
    + rewrite !append_assoc. apply QCode; [right; exact E|fold n; lia| |exact H].
      fold n. rewrite E. exists 7%nat, 15%nat. split; [reflexivity|]. split; [lia|]. split; [lia|reflexivity].
    + apply QSelf; [fold n; lia| | |exact H]; intros ->; [apply E4|apply E5]; reflexivity.
Qed.
Lemma c84_quoted : forall l, exists t, quoted_text l t /\
  bpf_message (UnknownLabelReference l) = ("Unknown label reference; """ ++ t ++ """.")%string.
Proof.
  intros l. exists (escape l). split.
  - induction l as [|c l IH]; [constructor|]. cbn [escape]. apply quoted_char. exact IH.
  - cbn [bpf_message]. unfold show_string. rewrite !append_assoc. reflexivity.
Qed.
