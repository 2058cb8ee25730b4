(** Property theorems C104-C105: which programs the assembler can produce, and where jumps go.
    Generated statements; the proofs are in the files required below. *)
From Coq Require Import NArith ZArith String List Bool Lia.
From Verif Require Import Libc Machine Bpf SeccompRet Asm Vm Promises Filters Kernel World Testkit Spec AsmSpec Demo.
From Verif Require ShapeFacts.
Import ListNotations.
Local Open Scope N_scope.

(** C104 *)
Theorem C104_exactly_the_programs_compile_can_produce :
  forall code,
  (exists prog, Forall word_token prog /\ compile Debug prog = Ok code) <->
  (forall i f, nth_error code i = Some f -> expressible (length code) i f).
Proof. exact ShapeFacts.c104. Qed.
Print Assumptions C104_exactly_the_programs_compile_can_produce.
Example C104_example :
  let code := [SockFilter 0x20 0 0 0; SockFilter 0x15 1 0 59; SockFilter 0x06 0 0 0; SockFilter 0x06 0 0 1] in
  compile Debug [Load ABS 0; Jump JEQ 59 (Some "y") None; Return Const 0; Label "y"; Return Const 1]%string = Ok code /\
  expressible 4 1 (SockFilter 0x15 1 0 59) /\ expressible 4 1 (SockFilter 0x15 2 0 59) /\
  ~ expressible 4 1 (SockFilter 0x15 3 0 59) /\ ~ expressible 4 1 (SockFilter 0x1d 1 0 59) /\
  ~ expressible 4 1 (SockFilter 0x20 1 0 0) /\ ~ expressible 4 1 (SockFilter 0x28 0 0 0).
Proof.
  cbv zeta. split; [vm_compute; reflexivity|]. unfold expressible. cbn [sf_code sf_jt sf_jf sf_k].
  split; [split; [lia|right; split; [vm_compute; tauto|lia]]|].
  split; [split; [lia|right; split; [vm_compute; tauto|lia]]|].
  split; [intros [_ [[_ [H _]]|(_ & _ & _ & H & _)]]; [discriminate|lia]|].
  split; [intros [_ [[H _]|[H _]]]; vm_compute in H; intuition discriminate|].
  split; [intros [_ [(_ & H & _)|[H _]]]; [discriminate|vm_compute in H; intuition discriminate]|].
  intros [_ [[H _]|[H _]]]; vm_compute in H; intuition discriminate.
Qed.

(** C104 *)
Theorem C104_written_for_both_profiles :
  forall code,
  (forall i f, nth_error code i = Some f -> expressible (length code) i f) ->
  exists prog, Forall word_token prog /\ forall prof, compile prof prog = Ok code.
Proof. exact ShapeFacts.c104_all. Qed.
Print Assumptions C104_written_for_both_profiles.

(** C104 *)
Theorem C104_kernel_filters_compile_can_produce :
  forall code,
  kernel_accepts code = true -> Forall wf_insn code -> Forall unused_zero code ->
  ((exists prog, Forall word_token prog /\ compile Debug prog = Ok code) <->
   Forall (fun f => ~ In (sf_code f) missing_codes) code).
Proof. exact ShapeFacts.c104_kernel. Qed.
Print Assumptions C104_kernel_filters_compile_can_produce.
Example C104_kernel_example :
  let good := [SockFilter 0x20 0 0 0; SockFilter 0x35 1 0 59; SockFilter 0x05 0 0 1; SockFilter 0x06 0 0 0;
               SockFilter 0x16 0 0 0] in
  let bad := [SockFilter 0x20 0 0 0; SockFilter 0x07 0 0 0; SockFilter 0x06 0 0 0] in
  (kernel_accepts good = true /\ Forall wf_insn good /\ Forall unused_zero good /\
   Forall (fun f => ~ In (sf_code f) missing_codes) good) /\
  (kernel_accepts bad = true /\ Forall wf_insn bad /\ Forall unused_zero bad /\
   ~ Forall (fun f => ~ In (sf_code f) missing_codes) bad).
Proof.
  cbv zeta. split; (split; [vm_compute; reflexivity|]; split; [repeat constructor|];
    split; [repeat (constructor; [vm_compute; tauto|]); constructor|]).
  - repeat (constructor; [vm_compute; intuition discriminate|]). constructor.
  - intros H. inversion H as [|? ? _ H']; subst. inversion H' as [|? ? H2 _]; subst. apply H2. vm_compute. tauto.
Qed.

(** C105 *)
Theorem C105_exactly_where_jumps_go :
  forall prof prog code pre post,
  compile prof prog = Ok code -> instructions pre < 2 ^ 64 ->
  (forall l, prog = pre ++ JumpTo l :: post ->
     exists f, nth_error code (N.to_nat (instructions pre)) = Some f /\
       sf_code f = 0x05 /\ sf_jt f = 0 /\ sf_jf f = 0 /\
       offset_to prof prog (instructions pre) (2 ^ 32) (Some l) (sf_k f)) /\
  (forall o k lt lf, prog = pre ++ Jump o k lt lf :: post ->
     exists f, nth_error code (N.to_nat (instructions pre)) = Some f /\
       sf_code f = jump_code o /\ sf_k f = k /\
       offset_to prof prog (instructions pre) (2 ^ 8) lt (sf_jt f) /\
       offset_to prof prog (instructions pre) (2 ^ 8) lf (sf_jf f)).
Proof. exact ShapeFacts.c105. Qed.
Print Assumptions C105_exactly_where_jumps_go.
Example C105_example :
  let far := [Label "top"; Load ABS 0; Jump JEQ 59 (Some "deny") None]%string ++ repeat (Load IMM 0) 256
             ++ [Label "deny"; Return Const 0; JumpTo "top"]%string in
  compile Debug far = Panic /\
  (exists code, compile Release far = Ok code /\
     nth_error code 1 = Some (SockFilter 0x15 0 0 59) /\ nth_error code 259 = Some (SockFilter 0x05 0 0 4294967036)) /\
  offset_to Release far 1 (2 ^ 8) (Some "deny"%string) 0 /\
  offset_to Release far 259 (2 ^ 32) (Some "top"%string) 4294967036.
Proof.
  cbv zeta. split; [vm_compute; reflexivity|]. split.
  - eexists. split; [vm_compute; reflexivity|]. split; reflexivity.
  - split; (eexists; split; [vm_compute; reflexivity|split; [reflexivity|discriminate]]).
Qed.
