(** Property theorems C84: error messages.
    Generated statements; the proofs are in the files required below. *)
From Coq Require Import NArith ZArith String List Bool Lia.
From Verif Require Import Libc Machine Bpf SeccompRet Asm Vm Promises Filters Kernel World Testkit Spec Errors TextSpec Demo.
From Verif Require ErrorFacts.
Import ListNotations.
Local Open Scope N_scope.

(** C84 *)
Theorem C84_messages_identify_bpf_errors :
  forall e1 e2, bpf_message e1 = bpf_message e2 -> e1 = e2.
Proof. exact ErrorFacts.c84_bpf. Qed.
Print Assumptions C84_messages_identify_bpf_errors.
Example C84_bpf_example :
  bpf_message (UnsupportedInstruction 128) = "Unsupported BPF Instruction; 128."%string /\
  bpf_message (UnknownInstruction 128) = "Unknown BPF Instruction; 128."%string /\
  bpf_message (UnknownLabelReference (String (Ascii.ascii_of_nat 10) "x")) =
    "Unknown label reference; ""\nx""."%string.
Proof. repeat split. Qed.

(** C84 *)
Theorem C84_messages_identify_pledge_errors :
  forall os e1 e2, pledge_message os e1 = pledge_message os e2 -> e1 = e2.
Proof. exact ErrorFacts.c84_pledge. Qed.
Print Assumptions C84_messages_identify_pledge_errors.
Example C84_pledge_example :
  let os n := if N.eqb n 22 then "Invalid argument"%string else "Cannot allocate memory"%string in
  pledge_message os (SysErr 22) = "Invalid argument (os error 22)"%string /\
  pledge_message os (SysErr 12) = "Cannot allocate memory (os error 12)"%string /\
  pledge_message os (UndefinedPromise TmpPath) = "Promise TmpPath is not implemented."%string.
Proof. repeat split. Qed.

(** C84 *)
Theorem C84_numbers_are_decimal :
  forall n, exists s, decimal s n /\
  bpf_message (ProgramTooLong n) = ("Program len is bigger than limit (u16::MAX); " ++ s ++ ".")%string /\
  bpf_message (InvalidInstructionCode n) = ("Unsupported BPF instruction code (with flags): " ++ s ++ ".")%string /\
  bpf_message (UnsupportedInstruction n) = ("Unsupported BPF Instruction; " ++ s ++ ".")%string /\
  bpf_message (UnsupportedReturn n) = ("Unsupported Return value; " ++ s ++ ".")%string /\
  bpf_message (UnknownInstruction n) = ("Unknown BPF Instruction; " ++ s ++ ".")%string /\
  forall os, pledge_message os (SysErr n) = (os n ++ " (os error " ++ s ++ ")")%string.
Proof. exact ErrorFacts.c84_texts. Qed.
Print Assumptions C84_numbers_are_decimal.
Example C84_number_example :
  decimal "65537" 65537 /\ ~ decimal "065537" 65537 /\
  bpf_message (ProgramTooLong 65537) = "Program len is bigger than limit (u16::MAX); 65537."%string.
Proof.
  split; [|split; [|reflexivity]].
  - repeat split; try (vm_compute; reflexivity); try (cbn; lia). cbn. intros H. discriminate H.
  - intros (_ & H & _). specialize (H eq_refl). discriminate H.
Qed.

(** C84 *)
Theorem C84_labels_are_quoted :
  forall l, exists t, quoted_text l t /\
  bpf_message (UnknownLabelReference l) = ("Unknown label reference; """ ++ t ++ """.")%string.
Proof. exact ErrorFacts.c84_quoted. Qed.
Print Assumptions C84_labels_are_quoted.
Example C84_quoted_example :
  let l := String (Ascii.ascii_of_nat 97) (String (Ascii.ascii_of_nat 34) (String (Ascii.ascii_of_nat 92) (String (Ascii.ascii_of_nat 10)
             (String (Ascii.ascii_of_nat 27) "b"%string)))) in
  let t := ("a\""" ++ "\\\n\u{1b}b")%string in
  quoted_text l t /\ bpf_message (UnknownLabelReference l) = ("Unknown label reference; """ ++ t ++ """.")%string.
Proof.
  cbv zeta. split; [|reflexivity]. cbv [Ascii.ascii_of_nat].
  apply QSelf; [cbn; lia|discriminate|discriminate|]. apply QMarked; [left; reflexivity|].
  apply QMarked; [right; reflexivity|]. apply QLetter; [right; right; left; split; reflexivity|].
  apply (QCode _ "1b"%string); [cbn; lia|cbn; lia|exists 1%nat, 11%nat; repeat split; lia|].
  apply QSelf; [cbn; lia|discriminate|discriminate|constructor].
Qed.

(** C84 *)
Theorem C84_labels_appear_verbatim :
  forall l, printable l ->
  bpf_message (UnknownLabelReference l) = ("Unknown label reference; """ ++ l ++ """.")%string.
Proof. exact ErrorFacts.c84_label. Qed.
Print Assumptions C84_labels_appear_verbatim.
Example C84_label_example :
  printable "NEXT_FILTER" /\
  bpf_message (UnknownLabelReference "NEXT_FILTER") = "Unknown label reference; ""NEXT_FILTER""."%string.
Proof. split; [|reflexivity]. cbn. repeat split; try lia; intros H; discriminate H. Qed.
