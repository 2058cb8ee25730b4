(** Property theorems C124: when two programs compile to the same code; C05.
    Generated statements; the proofs are in the files required below. *)
From Coq Require Import NArith ZArith String List Bool Lia.
From Verif Require Import Libc Machine Bpf SeccompRet Asm Vm Promises Filters Kernel World Testkit Spec AsmSpec TokenSpec Demo.
From Verif Require TokenFacts.
Import ListNotations.
Local Open Scope N_scope.

(** C124 *)
Theorem C124_when_two_programs_compile_to_the_same_code :
  forall prof p1 p2 code1 code2,
  compile prof p1 = Ok code1 -> compile prof p2 = Ok code2 ->
  N.of_nat (length p1) < 2 ^ 64 ->
  (code1 = code2 <->
   length (without_labels p1) = length (without_labels p2) /\
   forall i a b, nth_error (without_labels p1) i = Some a -> nth_error (without_labels p2) i = Some b ->
     written_alike prof p1 p2 (N.of_nat i) a b).
Proof. exact TokenFacts.c124. Qed.
Print Assumptions C124_when_two_programs_compile_to_the_same_code.
(** An addition of the accumulator is written like a subtraction, a jump by a number like one to a label;
    a conditional jump is not. *)
Example C124_example :
  let p1 := [Label "a"; Alu ADD Acc 3; Jump JA 1 None None; Load IMM 7; Return Acc 0]%string in
  let p2 := [Alu SUB Const 3; JumpTo "b"; Load IMM 7; Label "b"; Return Acc 0]%string in
  let p3 := [Alu SUB Const 3; Jump JEQ 1 None None; Load IMM 7; Return Acc 0]%string in
  (forall prof, compile prof p1 = compile prof p2) /\
  compile Debug p1 = Ok [SockFilter 0x14 0 0 3; SockFilter 0x05 0 0 1; SockFilter 0x00 0 0 7; SockFilter 0x16 0 0 0] /\
  compile Debug p3 = Ok [SockFilter 0x14 0 0 3; SockFilter 0x15 0 0 1; SockFilter 0x00 0 0 7; SockFilter 0x16 0 0 0] /\
  without_labels p2 = [Alu SUB Const 3; JumpTo "b"; Load IMM 7; Return Acc 0]%string /\
  written_alike Debug p1 p2 0 (Alu ADD Acc 3) (Alu SUB Const 3) /\
  written_alike Debug p1 p2 1 (Jump JA 1 None None) (JumpTo "b"%string) /\
  ~ written_alike Debug p3 p2 1 (Jump JEQ 1 None None) (JumpTo "b"%string) /\
  ~ written_alike Debug p1 p2 0 (Alu ADD Const 3) (Alu SUB Const 3).
Proof.
  cbv zeta. split; [intros []; reflexivity|]. split; [reflexivity|]. split; [reflexivity|]. split; [reflexivity|].
  split; [reflexivity|]. split; [|split; [intros [H _]; discriminate|discriminate]].
  repeat (split; [reflexivity|]). exists 3. split; [reflexivity|]. split; [reflexivity|]. intros _. reflexivity.
Qed.

(** C05 *)
Theorem C05_jumps_keep_their_meaning :
  forall prof prog code pre post vm data,
  compile prof prog = Ok code -> instructions pre < 2 ^ 64 ->
  (forall l, prog = pre ++ JumpTo l :: post ->
     exists f j, nth_error code (N.to_nat (instructions pre)) = Some f /\
       offset_to prof prog (instructions pre) (2 ^ 32) (Some l) j /\
       exec_insn prof f vm data = (Ok None, set_pc vm (vm_pc vm + j))) /\
  (forall o k lt lf, prog = pre ++ Jump o k lt lf :: post -> o <> JA ->
     exists f t e, nth_error code (N.to_nat (instructions pre)) = Some f /\
       offset_to prof prog (instructions pre) (2 ^ 8) lt t /\ offset_to prof prog (instructions pre) (2 ^ 8) lf e /\
       exec_insn prof f vm data = (Ok None, set_pc vm (vm_pc vm + (if cmp_meaning o (vm_acc vm) k then t else e)))).
Proof. exact TokenFacts.c05_jumps. Qed.
Print Assumptions C05_jumps_keep_their_meaning.
(** A comparison that jumps over one instruction if it holds, and over two if not. *)
Example C05_jumps_example :
  let prog := [Load ABS 0; Jump JGT 7 (Some "a") (Some "b"); Load IMM 1; Label "a"; Load IMM 2; Label "b"; Return Acc 0]%string in
  let f := SockFilter 0x25 1 2 7 in
  let vm acc := mkVM 2 acc 0 (repeat 0 16) [] in
  compile Debug prog = Ok [SockFilter 0x20 0 0 0; f; SockFilter 0x00 0 0 1; SockFilter 0x00 0 0 2; SockFilter 0x16 0 0 0] /\
  vm_pc (snd (exec_insn Debug f (vm 8) [])) = 3 /\ vm_pc (snd (exec_insn Debug f (vm 7) [])) = 4.
Proof. cbv zeta. repeat (apply conj); vm_compute; reflexivity. Qed.
