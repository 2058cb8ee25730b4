(** Property theorems C79-C83: single VM instructions, stepping, more data, build profiles.
    Generated statements; the proofs are in the files required below. *)
From Coq Require Import NArith ZArith String List Bool Lia.
From Verif Require Import Libc Machine Bpf SeccompRet Asm Vm Promises Filters Kernel World Testkit Spec VmSpec Demo.
From Verif Require VmFacts.
Import ListNotations.
Local Open Scope N_scope.

(** C79 *)
Theorem C79_outcome_of_an_instruction :
  forall prof vm data f, nth_error (vm_prog vm) (N.to_nat (vm_pc vm)) = Some f ->
  let r := fst (execute prof vm data) in
  (r = Panic <-> panics_here prof f vm data) /\
  (forall e, r = Err e <-> insn_error f = Some e /\ ~ panics_here prof f vm data) /\
  (forall v, r = Ok (Some v) <-> insn_returns f (vm_acc vm) (vm_idx vm) = Some v) /\
  (forall d, r <> Died d) /\
  (r <> Ok None -> snd (execute prof vm data) =
     mkVM (vm_pc vm + 1) (vm_acc vm) (vm_idx vm) (vm_mem vm) (vm_prog vm)).
Proof. exact VmFacts.c79. Qed.
Print Assumptions C79_outcome_of_an_instruction.
Example C79_example :
  let half := SockFilter 0x48 0 0 0xffffffff in let div := SockFilter 0x3c 0 0 0 in
  let vm := mkVM 0 7 1 (repeat 0 16) [half; div] in
  (* a half-word load relative to X whose address overflows *)
  nth_error (vm_prog vm) (N.to_nat (vm_pc vm)) = Some half /\
  insn_error half = Some UnsupportedDataOffset /\ panics_here Debug half vm [] /\
  ~ panics_here Release half vm [] /\
  fst (execute Debug vm []) = Panic /\ fst (execute Release vm []) = Err UnsupportedDataOffset /\
  (* a division by X *)
  insn_error div = None /\ panics_here Debug div (mkVM 1 7 0 [] []) [] /\
  ~ panics_here Debug div (mkVM 1 7 3 [] []) [].
Proof.
  cbv zeta. repeat split; try (vm_compute; reflexivity).
  - left. split; [reflexivity|]. vm_compute. discriminate.
  - intros [[H _]|[H _]]; discriminate H.
  - intros H. discriminate H.
Qed.

(** C79 *)
Theorem C79_no_instruction_panics :
  forall prof vm data, N.of_nat (length (vm_prog vm)) <= vm_pc vm ->
  execute prof vm data = (Panic, vm).
Proof. exact VmFacts.c79_past. Qed.
Print Assumptions C79_no_instruction_panics.
Example C79_past_example :
  let vm := mkVM 2 7 0 (repeat 0 16) [SockFilter 6 0 0 0] in
  N.of_nat (length (vm_prog vm)) <= vm_pc vm /\ execute Release vm [] = (Panic, vm).
Proof. split; [discriminate|reflexivity]. Qed.

(** C79 *)
Theorem C79_outcome_of_a_run :
  forall prof vm data,
  (forall e, fst (vm_run prof vm data) = Finished (Err e) <->
    exists n vm1 f, executed n prof (vm_reset vm) data = Some vm1 /\
      nth_error (vm_prog vm) (N.to_nat (vm_pc vm1)) = Some f /\
      insn_error f = Some e /\ ~ panics_here prof f vm1 data) /\
  (fst (vm_run prof vm data) = Finished Panic <->
    exists n vm1 f, executed n prof (vm_reset vm) data = Some vm1 /\
      nth_error (vm_prog vm) (N.to_nat (vm_pc vm1)) = Some f /\ panics_here prof f vm1 data).
Proof. exact VmFacts.c79_run. Qed.
Print Assumptions C79_outcome_of_a_run.
Example C79_run_example :
  let prog := [SockFilter 0x00 0 0 5; SockFilter 0x05 0 0 1; SockFilter 0x07 0 0 0; SockFilter 0x84 0 0 0] in
  let vm := mkVM 9 9 9 [] prog in
  exists vm1, executed 2 Debug (vm_reset vm) [] = Some vm1 /\ vm_pc vm1 = 3 /\
    insn_error (SockFilter 0x84 0 0 0) = Some (UnsupportedInstruction 0x80) /\
    fst (vm_run Debug vm []) = Finished (Err (UnsupportedInstruction 0x80)).
Proof. eexists. repeat split; vm_compute; reflexivity. Qed.

(** C79 *)
Theorem C79_errors_are_in_the_program :
  forall prof vm data e,
  fst (vm_run prof vm data) = Finished (Err e) ->
  exists f, In f (vm_prog vm) /\ insn_error f = Some e.
Proof. exact VmFacts.c79_static. Qed.
Print Assumptions C79_errors_are_in_the_program.
Example C79_static_example :
  let vm := mkVM 0 0 0 [] [SockFilter 0x1e 0 0 0] in
  fst (vm_run Release vm []) = Finished (Err (InvalidInstructionCode 0x1e)) /\
  insn_error (SockFilter 0x1e 0 0 0) = Some (InvalidInstructionCode 0x1e) /\
  insn_error (SockFilter 0x16 0 0 0) = None.
Proof. repeat split. Qed.

(** C80 *)
Theorem C80_run_is_repeated_execute :
  forall prof vm data r vm2,
  vm_run prof vm data = (Finished r, vm2) <->
  exists n vm1, executed n prof (vm_reset vm) data = Some vm1 /\
    ((N.of_nat (length (vm_prog vm)) <= vm_pc vm1 /\ r = Ok 0 /\ vm2 = vm1) \/
     (vm_pc vm1 < N.of_nat (length (vm_prog vm)) /\
      ((exists v, r = Ok v /\ execute prof vm1 data = (Ok (Some v), vm2)) \/
       (exists e, r = Err e /\ execute prof vm1 data = (Err e, vm2)) \/
       (r = Panic /\ execute prof vm1 data = (Panic, vm2))))).
Proof. exact VmFacts.c80. Qed.
Print Assumptions C80_run_is_repeated_execute.
Example C80_example :
  let prog := [SockFilter 0x20 0 0 4; SockFilter 0x15 1 0 9; SockFilter 0x06 0 0 1; SockFilter 0x16 0 0 0] in
  let vm := mkVM 3 3 3 [] prog in
  exists vm1 vm2, executed 2 Debug (vm_reset vm) [8; 9] = Some vm1 /\ vm_pc vm1 = 3 /\
    execute Debug vm1 [8; 9] = (Ok (Some 9), vm2) /\ vm_run Debug vm [8; 9] = (Finished (Ok 9), vm2).
Proof. eexists. eexists. repeat split; vm_compute; reflexivity. Qed.
(** The other end: running off the program. *)
Example C80_example_end :
  let vm := mkVM 3 3 3 [] [SockFilter 0x00 0 0 4] in
  exists vm1, executed 1 Debug (vm_reset vm) [] = Some vm1 /\
    N.of_nat (length (vm_prog vm)) <= vm_pc vm1 /\ vm_run Debug vm [] = (Finished (Ok 0), vm1).
Proof. eexists. repeat split; vm_compute; try reflexivity; discriminate. Qed.

(** C81 *)
Theorem C81_more_data_changes_nothing :
  forall prof vm data extra r vm',
  Forall (fun f => ~ asks_length f) (vm_prog vm) ->
  vm_run prof vm data = (Finished r, vm') -> r <> Panic ->
  vm_run prof vm (data ++ extra) = (Finished r, vm').
Proof. exact VmFacts.c81. Qed.
Print Assumptions C81_more_data_changes_nothing.
Example C81_example :
  let prog := [SockFilter 0x20 0 0 4; SockFilter 0x16 0 0 0] in
  let vm := mkVM 0 0 0 [] prog in
  Forall (fun f => ~ asks_length f) prog /\
  fst (vm_run Debug vm [8; 9]) = Finished (Ok 9) /\ fst (vm_run Debug vm [8; 9; 10]) = Finished (Ok 9) /\
  fst (vm_run Debug vm [8]) = Finished Panic.
Proof.
  cbv zeta. split; [|repeat split; vm_compute; reflexivity].
  repeat constructor; intros [A B]; discriminate.
Qed.
(** The hypothesis is needed. *)
Example C81_example_length :
  let vm := mkVM 0 0 0 [] [SockFilter 0x80 0 0 0; SockFilter 0x16 0 0 0] in
  fst (vm_run Debug vm [8]) = Finished (Ok 1) /\ fst (vm_run Debug vm [8; 9]) = Finished (Ok 2).
Proof. split; vm_compute; reflexivity. Qed.

(** C82 *)
Theorem C82_release_agrees_with_debug :
  forall vm data r vm',
  vm_run Debug vm data = (Finished r, vm') -> r <> Panic ->
  vm_run Release vm data = (Finished r, vm').
Proof. exact VmFacts.c82. Qed.
Print Assumptions C82_release_agrees_with_debug.
Example C82_example :
  let add k := mkVM 0 0 0 [] [SockFilter 0x00 0 0 5; SockFilter 0x04 0 0 k; SockFilter 0x16 0 0 0] in
  fst (vm_run Debug (add 2) []) = Finished (Ok 7) /\ fst (vm_run Release (add 2) []) = Finished (Ok 7) /\
  fst (vm_run Debug (add 0xffffffff) []) = Finished Panic /\
  fst (vm_run Release (add 0xffffffff) []) = Finished (Ok 4).
Proof. repeat split; vm_compute; reflexivity. Qed.

(** C82 *)
Theorem C82_release_follows_debug :
  forall n vm data vm1,
  executed n Debug vm data = Some vm1 -> executed n Release vm data = Some vm1.
Proof. exact VmFacts.c82_prefix. Qed.
Print Assumptions C82_release_follows_debug.
Example C82_prefix_example :
  let vm := mkVM 0 0 0 [] [SockFilter 0x00 0 0 5; SockFilter 0x04 0 0 0xffffffff] in
  exists vm1, executed 1 Debug vm [] = Some vm1 /\ vm_acc vm1 = 5 /\ executed 2 Debug vm [] = None.
Proof. eexists. repeat split; vm_compute; reflexivity. Qed.

(** C83 *)
Theorem C83_effect_of_an_instruction :
  forall prof vm data f vm',
  nth_error (vm_prog vm) (N.to_nat (vm_pc vm)) = Some f ->
  word (vm_acc vm) -> word (vm_idx vm) -> word (sf_k f) ->
  insn_error f = None -> insn_returns f (vm_acc vm) (vm_idx vm) = None ->
  (execute prof vm data = (Ok None, vm') <->
   vm' = insn_effect f vm data /\ ~ panics_here prof f vm data).
Proof. exact VmFacts.c83. Qed.
Print Assumptions C83_effect_of_an_instruction.
Example C83_example :
  let sub := SockFilter 0x1c 0 0 0 in
  let vm := mkVM 0 3 5 [1; 2] [sub] in
  word (vm_acc vm) /\ word (vm_idx vm) /\ word (sf_k sub) /\ insn_error sub = None /\
  insn_returns sub 3 5 = None /\ ~ panics_here Release sub vm [] /\ panics_here Debug sub vm [] /\
  insn_effect sub vm [] = mkVM 1 0xfffffffe 5 [1; 2] [sub] /\
  execute Release vm [] = (Ok None, mkVM 1 0xfffffffe 5 [1; 2] [sub]).
Proof.
  cbv zeta. repeat split; try (vm_compute; reflexivity). intros [H _]. discriminate H.
Qed.
