(** Property theorems C01-C05: the assembler.
    Generated statements; the proofs are in the files required below. *)
From Coq Require Import NArith ZArith String List Bool Lia.
From Verif Require Import Libc Machine Bpf SeccompRet Asm Vm Promises Filters Kernel World Testkit Spec Demo.
From Verif Require AsmProofs.
Import ListNotations.
Local Open Scope N_scope.

(** C01 *)
Theorem C01_compile_preserves_meaning :
  forall prof prog, well_formed prog ->
  exists code, compile prof prog = Ok code /\
    forall vm data, vm_prog vm = code ->
      fst (vm_run prof vm data) = Finished (interp prof prog None t_zero data).
Proof. exact AsmProofs.c01. Qed.
Print Assumptions C01_compile_preserves_meaning.
Example C01_example :
  let prog := [Load ABS 0; Jump JEQ 59 (Some "yes") None; JumpTo "no"; Label "yes"; Return Const 0x7fff0000; Label "no"; Return Const 0]%string in
  well_formed prog /\
  compile Debug prog = Ok [SockFilter 0x20 0 0 0; SockFilter 0x15 1 0 59; SockFilter 0x05 0 0 1;
                           SockFilter 0x06 0 0 0x7fff0000; SockFilter 0x06 0 0 0] /\
  interp Debug prog None t_zero [59] = Ok 0x7fff0000 /\
  interp Debug prog None t_zero [60] = Ok 0 /\
  interp Debug prog None t_zero [] = Panic.
Proof. cbv zeta. split; [well_formed|]. repeat split; vm_compute; reflexivity. Qed.

(** C02 *)
Theorem C02_one_instruction_per_token :
  forall prof prog code,
  compile prof prog = Ok code -> N.of_nat (length code) = instructions prog.
Proof. exact AsmProofs.c02_length. Qed.
Print Assumptions C02_one_instruction_per_token.
Example C02_length_example :
  let prog := [Load ABS 0; Jump JEQ 59 (Some "yes") None; JumpTo "no"; Label "yes"; Return Const 0x7fff0000; Label "no"; Return Const 0]%string in
  exists code, compile Release prog = Ok code /\ instructions prog = 5 /\ length prog = 7%nat.
Proof. eexists. repeat split; vm_compute; reflexivity. Qed.

(** C02 *)
Theorem C02_labels_are_only_names :
  forall f prof prog, (forall a b, f a = f b -> a = b) ->
  compile prof (map (rename_op f) prog) = map_err (rename_error f) (compile prof prog).
Proof. exact AsmProofs.c02_rename. Qed.
Print Assumptions C02_labels_are_only_names.
Example C02_rename_example :
  let f := String.append "x" in
  (forall a b, f a = f b -> a = b) /\
  map (rename_op f) [Jump JEQ 1 (Some "a") None; Label "a"]%string
    = [Jump JEQ 1 (Some "xa") None; Label "xa"]%string /\
  compile Debug (map (rename_op f) [JumpTo "a"; Label "b"]%string) = Err (UnknownLabelReference "xa").
Proof. split; [intros a b H; injection H as H; exact H|]. split; reflexivity. Qed.

(** C03 *)
Theorem C03_errors_are_exactly_undefined_labels :
  forall prof prog,
  ((exists code, compile prof prog = Ok code) <-> Forall (passable prof prog) (refs prog)) /\
  (forall e, compile prof prog = Err e <->
     exists before l post after, refs prog = before ++ (l, post) :: after /\
       Forall (passable prof prog) before /\ ~ In (Label l) prog /\ e = UnknownLabelReference l) /\
  (compile prof prog = Panic <->
     prof = Debug /\ exists before l post after, refs prog = before ++ (l, post) :: after /\
       Forall (passable prof prog) before /\ In (Label l) prog /\ ~ In (Label l) post) /\
  (forall d, compile prof prog <> Died d).
Proof. exact AsmProofs.c03. Qed.
Print Assumptions C03_errors_are_exactly_undefined_labels.
Example C03_example :
  let fwd := [JumpTo "a"; Label "a"; Return Const 0]%string in
  let undef := [Load ABS 0; Jump JEQ 1 (Some "b") (Some "c"); Label "c"; Return Const 0]%string in
  let back := [Label "a"; Load ABS 0; JumpTo "a"]%string in
  (exists code, compile Debug fwd = Ok code) /\
  compile Debug undef = Err (UnknownLabelReference "b") /\
  compile Debug back = Panic /\ (exists code, compile Release back = Ok code) /\
  refs undef = [("b", [Label "c"; Return Const 0]); ("c", [Label "c"; Return Const 0])]%string.
Proof. repeat split; try eexists; vm_compute; reflexivity. Qed.

(** C04 *)
Theorem C04_jump_lands_partial :
  forall prof prog code pre post,
  compile prof prog = Ok code ->
  (forall l, prog = pre ++ JumpTo l :: post ->
     exists f, nth_error code (N.to_nat (instructions pre)) = Some f /\ sf_code f = 0x05 /\
     (distance l prog = Some (instructions pre + 1 + sf_k f) <-> reaches post l (2 ^ 32 - 1))) /\
  (forall o k lt lf, prog = pre ++ Jump o k lt lf :: post ->
     exists f, nth_error code (N.to_nat (instructions pre)) = Some f /\ sf_k f = k /\
     (forall l, lt = Some l ->
        (distance l prog = Some (instructions pre + 1 + sf_jt f) <-> reaches post l 255)) /\
     (forall l, lf = Some l ->
        (distance l prog = Some (instructions pre + 1 + sf_jf f) <-> reaches post l 255)) /\
     (lt = None -> sf_jt f = 0) /\ (lf = None -> sf_jf f = 0)).
Proof. exact AsmProofs.c04_partial. Qed.
Print Assumptions C04_jump_lands_partial.
Example C04_partial_example :
  let prog := [Load ABS 0; Jump JEQ 59 (Some "yes") None; JumpTo "no"; Label "yes"; Return Const 0x7fff0000; Label "no"; Return Const 0]%string in
  exists code, compile Debug prog = Ok code /\
    reaches (skipn 2 prog) "yes" 255 /\ reaches (skipn 3 prog) "no" (2 ^ 32 - 1).
Proof.
  eexists. split; [vm_compute; reflexivity|].
  split; eexists; (split; [vm_compute; reflexivity|discriminate]).
Qed.

(** C04 *)
Theorem C04_far_jump_refuted :
  forall prof, exists prog code l f,
  compile prof prog = Ok code /\
  prog = [Load ABS 0] ++ Jump JEQ 59 (Some l) None :: skipn 2 prog /\
  nth_error code 1 = Some f /\ distance l prog = Some 259 /\ sf_jt f = 1.
Proof. exact AsmProofs.c04_refuted_far. Qed.
Print Assumptions C04_far_jump_refuted.

(** C04 *)
Theorem C04_backward_jump_refuted :
  exists prog code l f,
  compile Release prog = Ok code /\
  prog = [Label l; Load ABS 0] ++ Jump JEQ 59 (Some l) None :: [Return Const 0x7fff0000] /\
  nth_error code 1 = Some f /\ distance l prog = Some 0 /\ sf_jt f = 254.
Proof. exact AsmProofs.c04_refuted_back. Qed.
Print Assumptions C04_backward_jump_refuted.

(** C05 *)
Theorem C05_tokens_keep_their_meaning_partial :
  forall prof n op labels f vm data,
  encodable op -> to_sock_filter prof n op labels = Ok f -> length (vm_mem vm) = 16%nat ->
  exec_insn prof f vm data = exec_token prof op f vm data.
Proof. exact AsmProofs.c05_partial. Qed.
Print Assumptions C05_tokens_keep_their_meaning_partial.
Example C05_partial_example :
  exists vm, vm_new [bpf_alu ADD Idx 0] = Ok vm /\ length (vm_mem vm) = 16%nat /\
    encodable (Alu ADD Idx 0) /\
    to_sock_filter Debug 0 (Alu ADD Idx 0) [] = Ok (bpf_alu ADD Idx 0) /\
    exec_token Debug (Alu ADD Idx 0) (bpf_alu ADD Idx 0) (set_idx (set_acc vm 3) 4) []
      = (Ok None, set_idx (set_acc vm 7) 4).
Proof. eexists. repeat split; vm_compute; reflexivity. Qed.

(** C05 *)
Theorem C05_alu_accumulator_refuted :
  forall prof, exists op f vm,
  op = Alu ADD Acc 0 /\ to_sock_filter prof 0 op [] = Ok f /\ length (vm_mem vm) = 16%nat /\
  token_effect prof op (vm_state vm) [] = Ok (mkT 2 0 (repeat 0 16)) /\
  exec_insn prof f vm [] = (Ok None, with_state vm (mkT 1 0 (repeat 0 16))).
Proof. exact AsmProofs.c05_refuted_alu. Qed.
Print Assumptions C05_alu_accumulator_refuted.

(** C05 *)
Theorem C05_unconditional_jump_refuted :
  forall prof, exists op f vm,
  op = Jump JA 7 (Some "l"%string) (Some "l"%string) /\
  to_sock_filter prof 0 op [("l"%string, 3)] = Ok f /\ sf_jt f = 2 /\ sf_jf f = 2 /\
  vm_pc (snd (exec_insn prof f vm [])) = vm_pc vm + 7.
Proof. exact AsmProofs.c05_refuted_ja. Qed.
Print Assumptions C05_unconditional_jump_refuted.
