(** Property theorems C118: exactly which filters the kernel accepts.
    Generated statements; the proofs are in the files required below. *)
From Coq Require Import NArith ZArith String List Bool Lia.
From Verif Require Import Libc Machine Bpf SeccompRet Asm Vm Promises Filters Kernel World Testkit Spec AsmSpec Demo.
From Verif Require AcceptFacts.
Import ListNotations.
Local Open Scope N_scope.

(** C118 *)
Theorem C118_exactly_the_filters_the_kernel_accepts :
  forall prog,
  kernel_accepts prog = true <->
  0 < N.of_nat (length prog) <= 4096 /\
  (exists init f, prog = init ++ [f] /\ In (sf_code f) [0x06; 0x16]) /\
  (forall i f, nth_error prog i = Some f -> insn_allowed (N.of_nat i) (N.of_nat (length prog)) f) /\
  (forall before i f, path prog before i -> nth_error prog i = Some f -> In (sf_code f) [0x60; 0x61] ->
     exists j g, In j before /\ nth_error prog j = Some g /\ In (sf_code g) [0x02; 0x03] /\ sf_k g = sf_k f).
Proof. exact AcceptFacts.c118_exact. Qed.
Print Assumptions C118_exactly_the_filters_the_kernel_accepts.
(** Both ways through the first program store to cell 3 before it is loaded; through the second
    only one does; the third stores to it, but behind a return. In the fourth the load cannot be
    reached other than past a return. *)
Example C118_exact_example :
  let load := SockFilter 0x20 0 0 0 in let store k := SockFilter 0x02 0 0 k in
  let get k := SockFilter 0x60 0 0 k in let ret := SockFilter 0x16 0 0 0 in
  kernel_accepts [load; SockFilter 0x15 0 2 59; store 3; SockFilter 0x05 0 0 1; store 3; get 3; ret] = true /\
  kernel_accepts [load; SockFilter 0x15 0 2 59; store 3; SockFilter 0x05 0 0 1; store 2; get 3; ret] = false /\
  kernel_accepts [load; SockFilter 0x15 0 1 59; ret; store 3; get 3; ret] = true /\
  kernel_accepts [load; ret; get 3; ret] = false /\
  kernel_accepts [load; store 15; get 15; ret] = true /\
  kernel_accepts [load; store 16; get 16; ret] = false /\
  kernel_accepts [load; SockFilter 0x15 0 1 59; ret] = false /\
  kernel_accepts (repeat ret 4096) = true /\
  kernel_accepts (repeat ret 4097) = false /\
  kernel_accepts [ret; load] = false.
Proof. repeat split; vm_compute; reflexivity. Qed.

(** C118 *)
Theorem C118_stale_scratch_cells_do_not_matter :
  forall prog d mem mem', kernel_accepts prog = true -> length mem = length mem' ->
  kernel_eval_mem mem prog d = kernel_eval_mem mem' prog d.
Proof. exact AcceptFacts.c118_scratch. Qed.
Print Assumptions C118_stale_scratch_cells_do_not_matter.
(** A load of a cell that was stored, and, refused, one of a cell that was not. *)
Example C118_scratch_example :
  let d := call 59 0 0 0 0 0 in
  let prog k := [SockFilter 0x20 0 0 0; SockFilter 0x02 0 0 3; SockFilter 0x60 0 0 k; SockFilter 0x16 0 0 0] in
  kernel_accepts (prog 3) = true /\
  kernel_eval_mem (repeat 7 16) (prog 3) d = 59 /\ kernel_eval_mem (repeat 0 16) (prog 3) d = 59 /\
  kernel_accepts (prog 4) = false /\
  kernel_eval_mem (repeat 7 16) (prog 4) d = 7 /\ kernel_eval_mem (repeat 0 16) (prog 4) d = 0.
Proof. repeat split; vm_compute; reflexivity. Qed.

(** C118 *)
Theorem C118_accepted_filters_end :
  forall prog d mem, kernel_accepts prog = true ->
  let t := ktrace prog 0 0 0 mem (sd_words d) in
  (length t <= length prog)%nat /\
  exists before f, t = before ++ [f] /\
    (sf_code f = 0x06 /\ kernel_eval_mem mem prog d = sf_k f \/ sf_code f = 0x16 \/
     sf_code f = 0x3c /\ kernel_eval_mem mem prog d = 0).
Proof. exact AcceptFacts.c118_ends. Qed.
Print Assumptions C118_accepted_filters_end.
(** A division by the index register, which is zero. *)
Example C118_ends_example :
  let prog := [SockFilter 0x20 0 0 0; SockFilter 0x3c 0 0 0; SockFilter 0x06 0 0 0x7fff0000] in
  kernel_accepts prog = true /\
  ktrace prog 0 0 0 (repeat 0 16) (sd_words (call 59 0 0 0 0 0)) = [SockFilter 0x20 0 0 0; SockFilter 0x3c 0 0 0] /\
  kernel_eval prog (call 59 0 0 0 0 0) = 0.
Proof. repeat split; vm_compute; reflexivity. Qed.

(** C118 *)
Theorem C118_exactly_the_operations_the_kernel_loads :
  forall prof line op labels f i n,
  to_sock_filter prof line op labels = Ok f ->
  (insn_allowed i n f <->
   loadable_op op /\
   (sf_code f = 0x05 -> i + 1 + sf_k f < n) /\
   (In (sf_code f) branch_codes -> i + 1 + sf_jt f < n /\ i + 1 + sf_jf f < n)).
Proof. exact AcceptFacts.c118_operations. Qed.
Print Assumptions C118_exactly_the_operations_the_kernel_loads.
(** A store with mode MEM, which the virtual machine runs like one with any mode, and with IMM; a
    product with the accumulator, which has the code of a division by a constant. *)
Example C118_operations_example :
  let code op := match to_sock_filter Debug 0 op [] with Ok f => sf_code f | _ => 0 end in
  code (Store MEM 3) = 0x62 /\ ~ loadable_op (Store MEM 3) /\ code (Store IMM 3) = 0x02 /\ loadable_op (Store IMM 3) /\
  code (Alu MUL Acc 0) = 0x34 /\ ~ loadable_op (Alu MUL Acc 0) /\ code (Alu DIV Const 0) = 0x34 /\
  code (Return Idx 0) = 0x0e /\ ~ loadable_op (Return Idx 0).
Proof. cbn -[N.lt]. repeat split; try reflexivity; try (intros []; fail). intros H. exact (H eq_refl). Qed.

(** C118 *)
Theorem C118_exactly_the_programs_the_kernel_loads :
  forall prof prog code,
  compile prof prog = Ok code ->
  (forall v, ~ In (Load MEM v) prog /\ ~ In (LoadIdx MEM v) prog) ->
  (kernel_accepts code = true <->
   0 < instructions prog <= 4096 /\
   (exists pre s v post, prog = pre ++ Return s v :: post /\ s <> Idx /\ instructions post = 0) /\
   (forall op, In op prog -> loadable_op op) /\
   (forall i f, nth_error code i = Some f ->
      (sf_code f = 0x05 -> N.of_nat i + 1 + sf_k f < instructions prog) /\
      (In (sf_code f) branch_codes ->
         N.of_nat i + 1 + sf_jt f < instructions prog /\ N.of_nat i + 1 + sf_jf f < instructions prog))).
Proof. exact AcceptFacts.c118_assembled. Qed.
Print Assumptions C118_exactly_the_programs_the_kernel_loads.
(** A label behind the last return is no instruction: nothing may jump there. *)
Example C118_assembled_example :
  let accepts p := match compile Debug p with Ok c => kernel_accepts c | _ => false end in
  accepts [Load ABS 0; Jump JEQ 59 (Some "yes") None; Return Const 0; Label "yes"; Return Const 0x7fff0000; Label "end"]%string = true /\
  accepts [Load ABS 0; Jump JEQ 59 (Some "end") None; Return Const 0; Label "yes"; Return Const 0x7fff0000; Label "end"]%string = false /\
  accepts [Load ABS 60; Return Acc 0]%string = true /\ accepts [Load ABS 64; Return Acc 0]%string = false /\
  accepts [Load ABS 62; Return Acc 0]%string = false /\ accepts [Load IND 0; Return Acc 0]%string = false.
Proof. repeat split; vm_compute; reflexivity. Qed.
