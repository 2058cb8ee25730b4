(** Property theorems C50-C52: from tokens to the kernel, and concatenation of programs.
    Generated statements; the proofs are in the files required below. *)
From Coq Require Import NArith ZArith String List Bool Lia.
From Verif Require Import Libc Machine Bpf SeccompRet Asm Vm Promises Filters Kernel World Testkit Spec Demo.
From Verif Require LinkProofs.
Import ListNotations.
Local Open Scope N_scope.

(** C50 *)
Theorem C50_tokens_mean_what_the_kernel_does :
  forall prof prog code d beyond mem,
  well_formed prog -> Forall word_token prog ->
  compile prof prog = Ok code -> kernel_accepts code = true ->
  length beyond = 48%nat -> words beyond -> length mem = 16%nat ->
  match interp prof prog None t_zero (any_to_data d beyond) with
  | Ok v => kernel_eval_mem mem code d = v
  | Panic => prof = Debug \/ (kernel_eval_mem mem code d = 0 /\ exists v, In (Alu DIV Idx v) prog)
  | Err _ | Died _ => False
  end.
Proof. exact LinkProofs.c50. Qed.
Print Assumptions C50_tokens_mean_what_the_kernel_does.
Example C50_example :
  let prog := [Load ABS 0; LoadIdx IMM 7; Alu DIV Idx 0; Return Acc 0] in
  let zero := [Load ABS 0; LoadIdx IMM 0; Alu DIV Idx 0; Return Acc 0] in
  well_formed prog /\ Forall word_token prog /\ well_formed zero /\ Forall word_token zero /\
  exists code code', compile Debug prog = Ok code /\ kernel_accepts code = true /\
    kernel_eval code (call 59 0 0 0 0 0) = 8 /\
    compile Debug zero = Ok code' /\ kernel_accepts code' = true /\
    interp Release zero None t_zero (any_to_data (call 59 0 0 0 0 0) (repeat 0 48)) = Panic /\
    kernel_eval code' (call 59 0 0 0 0 0) = 0.
Proof.
  cbv zeta. split; [well_formed|]. split; [repeat constructor|].
  split; [well_formed|]. split; [repeat constructor|].
  eexists. eexists. repeat split; vm_compute; reflexivity.
Qed.

(** C50 *)
Theorem C50_equal_without_division :
  forall prof prog code d beyond mem,
  well_formed prog -> Forall word_token prog -> (forall v, ~ In (Alu DIV Idx v) prog) ->
  compile prof prog = Ok code -> kernel_accepts code = true ->
  length beyond = 48%nat -> words beyond -> length mem = 16%nat ->
  interp Release prog None t_zero (any_to_data d beyond) = Ok (kernel_eval_mem mem code d).
Proof. exact LinkProofs.c50_exact. Qed.
Print Assumptions C50_equal_without_division.
Example C50_exact_example :
  let prog := [Load ABS 0; Jump JEQ 59 (Some "yes") None; JumpTo "no"; Label "yes"; Return Const 0x7fff0000; Label "no"; Return Const 0]%string in
  well_formed prog /\ Forall word_token prog /\ (forall v, ~ In (Alu DIV Idx v) prog) /\
  exists code, compile Debug prog = Ok code /\ kernel_accepts code = true /\
    kernel_eval code (call 59 0 0 0 0 0) = 0x7fff0000 /\ kernel_eval code (call 60 0 0 0 0 0) = 0.
Proof.
  cbv zeta. split; [well_formed|]. split; [repeat constructor|].
  split; [intros v H; repeat (destruct H as [H|H]; [discriminate H|]); destruct H|].
  eexists. repeat split; vm_compute; reflexivity.
Qed.

(** C51 *)
Theorem C51_compiled_code_fits_the_wire_format :
  forall prof prog code,
  Forall word_token prog -> compile prof prog = Ok code -> Forall wf_insn code.
Proof. exact LinkProofs.c51. Qed.
Print Assumptions C51_compiled_code_fits_the_wire_format.
Example C51_example :
  let prog := [JumpTo "a"; Alu MUL Const 4294967295; Label "a"; Return Acc 0]%string in
  Forall word_token prog /\ exists code, compile Release prog = Ok code /\ length code = 3%nat.
Proof. cbv zeta. split; [repeat constructor|]. eexists. split; vm_compute; reflexivity. Qed.

(** C51 *)
Theorem C51_profiles_agree_unless_debug_panics :
  forall prog,
  compile Debug prog = Panic \/ compile Debug prog = compile Release prog.
Proof. exact LinkProofs.c51_profiles. Qed.
Print Assumptions C51_profiles_agree_unless_debug_panics.
Example C51_profiles_example :
  let back := [Label "a"; Load ABS 0; JumpTo "a"]%string in
  compile Debug back = Panic /\
  compile Debug [JumpTo "x"]%string = Err (UnknownLabelReference "x") /\
  compile Release [JumpTo "x"]%string = Err (UnknownLabelReference "x").
Proof. repeat split; vm_compute; reflexivity. Qed.

(** C52 *)
Theorem C52_concatenation_compiles_piecewise :
  forall prof p q, linkable p q ->
  compile prof (p ++ q) = (a <- compile prof p ;; b <- compile prof q ;; Ok (a ++ b)).
Proof. exact LinkProofs.c52. Qed.
Print Assumptions C52_concatenation_compiles_piecewise.
Example C52_example :
  let p := [Load ABS 0; Jump JEQ 1 (Some "a") None; Return Const 0; Label "a"]%string in
  let q := [Label "b"; JumpTo "c"; Label "c"; Return Const 1]%string in
  linkable p q /\
  compile Debug (p ++ q) = Ok [SockFilter 0x20 0 0 0; SockFilter 0x15 1 0 1; SockFilter 0x06 0 0 0;
                               SockFilter 0x05 0 0 0; SockFilter 0x06 0 0 1].
Proof.
  cbv zeta. split; [|vm_compute; reflexivity].
  split; intros op Hin; cbn [In] in Hin; intuition (subst; cbn in *; intuition (subst; try discriminate)).
Qed.
