(** Property theorems C05, C78, C93-C97: exact conditions.
    Generated statements; the proofs are in the files required below. *)
From Coq Require Import NArith ZArith String List Bool Lia.
From Verif Require Import Libc Machine Bpf SeccompRet Asm Vm Promises Filters Kernel World Testkit Spec DocSpec Demo.
From Verif Require ExactFacts.
Import ListNotations.
Local Open Scope N_scope.

(** C05 *)
Theorem C05_what_accumulator_operands_do :
  forall prof n o k labels f vm data,
  to_sock_filter prof n (Alu o Acc k) labels = Ok f -> length (vm_mem vm) = 16%nat ->
  exec_insn prof f vm data =
  match with_bit4 o with
  | Some o' => exec_token prof (Alu o' Const k) f vm data
  | None => (Err (UnknownInstruction 4), vm)
  end.
Proof. exact ExactFacts.c05_accumulator. Qed.
Print Assumptions C05_what_accumulator_operands_do.
Example C05_accumulator_example :
  let vm := mkVM 0 12 0 (repeat 0 16) [] in
  to_sock_filter Debug 0 (Alu MUL Acc 4) [] = Ok (SockFilter 0x34 0 0 4) /\
  exec_insn Debug (SockFilter 0x34 0 0 4) vm [] = (Ok None, mkVM 0 3 0 (repeat 0 16) []) /\
  to_sock_filter Debug 0 (Alu XOR Acc 4) [] = Ok (SockFilter 0xb4 0 0 4) /\
  exec_insn Debug (SockFilter 0xb4 0 0 4) vm [] = (Err (UnknownInstruction 4), vm).
Proof. cbv zeta. repeat split; vm_compute; reflexivity. Qed.

(** C05 *)
Theorem C05_what_unconditional_jumps_do :
  forall prof n k lt lf labels f vm data,
  to_sock_filter prof n (Jump JA k lt lf) labels = Ok f ->
  exec_insn prof f vm data = (Ok None, set_pc vm (vm_pc vm + k)).
Proof. exact ExactFacts.c05_ja. Qed.
Print Assumptions C05_what_unconditional_jumps_do.
Example C05_ja_example :
  let f := SockFilter 0x05 4 0 9 in
  to_sock_filter Debug 0 (Jump JA 9 (Some "a"%string) None) [("a"%string, 5)] = Ok f /\
  vm_pc (snd (exec_insn Debug f (mkVM 1 0 0 (repeat 0 16) []) [])) = 10.
Proof. cbv zeta. split; vm_compute; reflexivity. Qed.

(** C78 *)
Theorem C78_what_the_other_rules_test :
  forall prof pid tid f v prog d,
  In f [OpenReadonly; OpenWriteonly; OpenCreateonly; FchmodatNobits; SetsockoptRestrict] ->
  rule_filter prof pid tid f v prog -> enforcing v -> native d ->
  (proceeds prog d <-> documented f pid tid (mistaken f d)).
Proof. exact ExactFacts.c78_mistaken. Qed.
Print Assumptions C78_what_the_other_rules_test.
Example C78_mistaken_example :
  (* open(path, O_WRONLY | O_CREAT | O_TRUNC, 0) passes as read-only because its mode is 0 *)
  let d := call SYS_open 0x7000 0x241 0 0 0 in
  exists prog, rule_filter Debug 100 101 OpenReadonly (Errno 1) prog /\ native d /\
    ~ documented OpenReadonly 100 101 d /\ documented OpenReadonly 100 101 (mistaken OpenReadonly d) /\
    proceeds prog d.
Proof.
  cbv zeta. eexists. split; [vm_compute; reflexivity|]. split; [concrete|].
  split; [intros (_ & A & _); discriminate A|].
  split; [split; [reflexivity|split; [reflexivity|repeat constructor]]|vm_compute; reflexivity].
Qed.

(** C93 *)
Theorem C93_exactly_which_opens_are_allowed :
  forall prof pid tid ps v prog d,
  filter_for prof pid tid ps v prog -> enforcing v -> native d ->
  (sd_nr d = SYS_open ->
   (proceeds prog d <->
    In RPath ps /\ bits_off [0; 1; 6; 9; 22] (sd_a2 d) \/
    In WPath ps /\ N.testbit (sd_a2 d) 0 <> N.testbit (sd_a2 d) 1 /\ bits_off [6; 22] (sd_a2 d) \/
    In CPath ps /\ (bits_off [6; 22] (sd_a2 d) \/ bits_off [9; 10; 11] (sd_a3 d)))) /\
  (sd_nr d = SYS_openat ->
   (proceeds prog d <->
    (In RPath ps \/ In Dns ps) /\ bits_off [0; 1; 6; 9; 22] (sd_a2 d) \/
    In WPath ps /\ N.testbit (sd_a2 d) 0 <> N.testbit (sd_a2 d) 1 /\ bits_off [6; 22] (sd_a2 d) \/
    In CPath ps /\ (bits_off [6; 22] (sd_a2 d) \/ bits_off [9; 10; 11] (sd_a3 d)))) /\
  (sd_nr d = SYS_creat -> (proceeds prog d <-> In CPath ps /\ bits_off [9; 10; 11] (sd_a1 d))) /\
  (sd_nr d = SYS_openat2 -> ~ proceeds prog d).
Proof. exact ExactFacts.c93. Qed.
Print Assumptions C93_exactly_which_opens_are_allowed.
Example C93_example :
  filter_for Debug 100 101 [StdIO; RPath] Trap (built [StdIO; RPath] Trap) /\ native (call SYS_openat 0xffffff9c 0x7000 0x80000 0 0) /\
  proceeds (built [StdIO; RPath] Trap) (call SYS_openat 0xffffff9c 0x7000 0x80000 0 0).
Proof. unfold proceeds. concrete. Qed.
Example C93_example_refused :
  filter_for Debug 100 101 [StdIO; RPath] Trap (built [StdIO; RPath] Trap) /\ native (call SYS_openat 0xffffff9c 0x7000 2 0 0) /\
  ~ proceeds (built [StdIO; RPath] Trap) (call SYS_openat 0xffffff9c 0x7000 2 0 0).
Proof. unfold proceeds. concrete. Qed.

(** C93 *)
Theorem C93_open_ignores_its_flags :
  forall prof pid tid ps v prog d d',
  filter_for prof pid tid ps v prog -> enforcing v -> native d -> native d' ->
  sd_nr d = SYS_open -> same_but_arg1 d d' -> (proceeds prog d <-> proceeds prog d').
Proof. exact ExactFacts.c93_open_flags. Qed.
Print Assumptions C93_open_ignores_its_flags.
Example C93_open_flags_example :
  let d := call SYS_open 0x7000 0 0 0 0 in let d' := call SYS_open 0x7000 0x242 0 0 0 in
  filter_for Debug 100 101 [RPath] Trap (built [RPath] Trap) /\ native d /\ native d' /\
  same_but_arg1 d d' /\ proceeds (built [RPath] Trap) d /\ proceeds (built [RPath] Trap) d'.
Proof. cbv zeta. unfold same_but_arg1, proceeds. concrete. Qed.

(** C94 *)
Theorem C94_exactly_which_modes_are_allowed :
  forall prof pid tid ps v prog d,
  filter_for prof pid tid ps v prog -> enforcing v -> native d ->
  (sd_nr d = SYS_chmod \/ sd_nr d = SYS_fchmod \/ sd_nr d = SYS_fchmodat ->
   (proceeds prog d <-> (In WPath ps \/ In FAttr ps) /\ bits_off [9; 10; 11] (sd_a1 d))) /\
  (sd_nr d = SYS_mknod \/ sd_nr d = SYS_mknodat -> (proceeds prog d <-> In DPath ps)) /\
  (sd_nr d = SYS_mkdir \/ sd_nr d = SYS_mkdirat -> (proceeds prog d <-> In CPath ps)).
Proof. exact ExactFacts.c94. Qed.
Print Assumptions C94_exactly_which_modes_are_allowed.
Example C94_example :
  filter_for Debug 100 101 [FAttr] Trap (built [FAttr] Trap) /\ native (call SYS_chmod 0x7000 0x1ff 0 0 0) /\
  proceeds (built [FAttr] Trap) (call SYS_chmod 0x7000 0x1ff 0 0 0).
Proof. unfold proceeds. concrete. Qed.
Example C94_example_refused :
  filter_for Debug 100 101 [FAttr] Trap (built [FAttr] Trap) /\ native (call SYS_chmod 0x7000 0x9ed 0 0 0) /\
  ~ proceeds (built [FAttr] Trap) (call SYS_chmod 0x7000 0x9ed 0 0 0).
Proof. unfold proceeds. concrete. Qed.

(** C94 *)
Theorem C94_fchmodat_ignores_its_mode :
  forall prof pid tid ps v prog d d',
  filter_for prof pid tid ps v prog -> enforcing v -> native d -> native d' ->
  sd_nr d = SYS_fchmodat -> same_but_arg2 d d' -> (proceeds prog d <-> proceeds prog d').
Proof. exact ExactFacts.c94_fchmodat_mode. Qed.
Print Assumptions C94_fchmodat_ignores_its_mode.
Example C94_fchmodat_example :
  let d := call SYS_fchmodat 0xffffff9c 0x7000 0x1ed 0 0 in let d' := call SYS_fchmodat 0xffffff9c 0x7000 0x9ed 0 0 in
  let e := call SYS_fchmodat 0xffffff9c 0x7200 0x1ed 0 0 in
  filter_for Debug 100 101 [FAttr] Trap (built [FAttr] Trap) /\ native d /\ native d' /\
  same_but_arg2 d d' /\ proceeds (built [FAttr] Trap) d /\ proceeds (built [FAttr] Trap) d' /\
  ~ proceeds (built [FAttr] Trap) e.
Proof. cbv zeta. unfold same_but_arg2, proceeds. concrete. Qed.

(** C95 *)
Theorem C95_exactly_which_memory_calls_are_allowed :
  forall prof pid tid ps v prog d,
  filter_for prof pid tid ps v prog -> enforcing v -> native d ->
  (sd_nr d = SYS_mmap ->
   (proceeds prog d <->
    In StdIO ps /\ sd_a2 d mod 2 ^ 32 < 3 /\ bits_off [13; 15; 16; 18] (sd_a3 d) \/
    In ProtExec ps /\ bits_off [13; 16; 18] (sd_a3 d))) /\
  (sd_nr d = SYS_mprotect ->
   (proceeds prog d <-> In StdIO ps /\ sd_a2 d mod 2 ^ 32 < 4 \/ In ProtExec ps)) /\
  (sd_nr d = SYS_munmap \/ sd_nr d = SYS_brk -> (proceeds prog d <-> In StdIO ps)).
Proof. exact ExactFacts.c95. Qed.
Print Assumptions C95_exactly_which_memory_calls_are_allowed.
Example C95_example :
  (* readable and writable memory takes two steps *)
  let f := built [StdIO] Trap in
  filter_for Debug 100 101 [StdIO] Trap f /\
  ~ proceeds f (call SYS_mmap 0 4096 3 0x22 0xffffffff) /\
  proceeds f (call SYS_mmap 0 4096 1 0x22 0xffffffff) /\ proceeds f (call SYS_mprotect 0x7000 4096 3 0 0) /\
  ~ proceeds f (call SYS_mprotect 0x7000 4096 5 0 0).
Proof. cbv zeta. unfold proceeds. concrete. Qed.

(** C96 *)
Theorem C96_exactly_which_signals_are_allowed :
  forall prof pid tid ps v prog d,
  filter_for prof pid tid ps v prog -> enforcing v -> native d ->
  (sd_nr d = SYS_kill -> (proceeds prog d <-> In StdIO ps /\ sd_a0 d mod 2 ^ 32 = pid \/ In Proc ps)) /\
  (sd_nr d = SYS_tkill ->
   (proceeds prog d <-> In StdIO ps /\ sd_a0 d mod 2 ^ 32 = tid mod 2 ^ 32 \/ In Proc ps)) /\
  (sd_nr d = SYS_tgkill -> (proceeds prog d <-> In Proc ps)) /\
  ~ (In (sd_nr d) [SYS_rt_sigqueueinfo; SYS_rt_tgsigqueueinfo; SYS_pidfd_send_signal] /\ proceeds prog d).
Proof. exact ExactFacts.c96. Qed.
Print Assumptions C96_exactly_which_signals_are_allowed.
Example C96_example :
  filter_for Debug 100 101 [StdIO] Trap (built [StdIO] Trap) /\ native (call SYS_kill 100 9 0 0 0) /\
  proceeds (built [StdIO] Trap) (call SYS_kill 100 9 0 0 0).
Proof. unfold proceeds. concrete. Qed.
Example C96_example_refused :
  filter_for Debug 100 101 [StdIO] Trap (built [StdIO] Trap) /\ native (call SYS_kill 1 9 0 0 0) /\
  ~ proceeds (built [StdIO] Trap) (call SYS_kill 1 9 0 0 0).
Proof. unfold proceeds. concrete. Qed.

(** C97 *)
Theorem C97_exactly_what_a_stack_allows :
  forall prof pledges fs d,
  stack_of prof pledges fs -> Forall (fun i => enforcing (i_v i)) pledges -> native d ->
  (syscall_entry fs d = Proceed <->
   Forall (fun i => granted (i_ps i) (i_pid i) (i_tid i) d) pledges).
Proof. exact ExactFacts.c97. Qed.
Print Assumptions C97_exactly_what_a_stack_allows.
Example C97_example :
  let a := built [StdIO; RPath] Trap in let b := built [StdIO; WPath] (Errno 1) in
  stack_of Debug [mkInst 100 101 [StdIO; WPath] (Errno 1); mkInst 100 101 [StdIO; RPath] Trap] [b; a] /\
  enforcing Trap /\ enforcing (Errno 1) /\
  syscall_entry [b; a] (call SYS_stat 0x7000 0x8000 0 0 0) = Proceed /\
  syscall_entry [b; a] (call SYS_chdir 0x7000 0 0 0 0) = Fake (-1) /\
  syscall_entry [b; a] (call SYS_truncate 0x7000 0 0 0 0) = Kill DeathSigsys.
Proof.
  cbv zeta. split; [unfold stack_of; repeat constructor; vm_compute; reflexivity|].
  split; [concrete|]. split; [concrete|]. repeat split; vm_compute; reflexivity.
Qed.

(** C97 *)
Theorem C97_a_stack_need_not_be_any_list :
  forall prof pid tid f f',
  filter_for prof pid tid [RPath] KillProcess f -> filter_for prof pid tid [WPath] KillProcess f' ->
  forall ps v prog, filter_for prof pid tid ps v prog -> enforcing v ->
  exists d, native d /\ ~ (syscall_entry [f'; f] d = Proceed <-> proceeds prog d).
Proof. exact ExactFacts.c97_no_list. Qed.
Print Assumptions C97_a_stack_need_not_be_any_list.
Example C97_no_list_example :
  let f := built [RPath] KillProcess in let f' := built [WPath] KillProcess in
  filter_for Debug 100 101 [RPath] KillProcess f /\ filter_for Debug 100 101 [WPath] KillProcess f' /\
  syscall_entry [f'; f] (call SYS_stat 1 2 0 0 0) = Proceed /\
  syscall_entry [f'; f] (call SYS_chdir 1 0 0 0 0) = Kill DeathProcess /\
  syscall_entry [f'; f] (call SYS_truncate 1 0 0 0 0) = Kill DeathProcess.
Proof. cbv zeta. repeat split; vm_compute; reflexivity. Qed.
