(** Property theorems C113: exact costs of calls.
    Generated statements; the proofs are in the files required below. *)
From Coq Require Import NArith ZArith String List Bool Lia.
From Verif Require Import Libc Machine Bpf SeccompRet Asm Vm Promises Filters Kernel World Testkit Spec CostSpec Demo.
From Verif Require CostFacts.
Import ListNotations.
Local Open Scope N_scope.

(** C113 *)
Theorem C113_exact_costs :
  forall prof pid tid ps v prog mem d,
  filter_for prof pid tid ps v prog -> wf_data d ->
  (sd_arch d <> X86_64 -> insns_executed prog mem d = 3) /\
  (sd_arch d = X86_64 -> unnamed ps (sd_nr d) ->
     insns_executed prog mem d = 5 + promises_scan ps) /\
  (sd_arch d = X86_64 -> ~ granted ps pid tid d -> 5 + promises_scan ps <= insns_executed prog mem d) /\
  (sd_arch d = X86_64 -> sd_nr d = SYS_exit -> insns_executed prog mem d = 5).
Proof. exact CostFacts.c113. Qed.
Print Assumptions C113_exact_costs.
(** ptrace is in no rule; a refused openat costs more, because its flags are looked at. *)
Example C113_example :
  let p := built [StdIO; RPath] Trap in
  let cost d := insns_executed p (repeat 0 16) d in
  unnamed [StdIO; RPath] SYS_ptrace /\ promises_scan [StdIO; RPath] = 141 /\
  cost (call SYS_ptrace 0 0 0 0 0) = 146 /\ cost (call SYS_exit 9 8 7 6 5) = 5 /\
  cost (call SYS_openat 0 0 1 0 0) = 149 /\ ~ granted [StdIO; RPath] 100 101 (call SYS_openat 0 0 1 0 0) /\
  cost (mkSD 3 0x40000003 0 0 0 0 0 0 0) = 3.
Proof.
  cbv zeta. split.
  { intros alts r who p H. exfalso. revert H. cbv [policy]. repeat (intros [H|H]; [discriminate H|revert H]); intros []. }
  split; [vm_compute; reflexivity|]. split; [vm_compute; reflexivity|].
  split; [vm_compute; reflexivity|]. split; [vm_compute; reflexivity|]. split; [|vm_compute; reflexivity].
  intros G. PolicyProofs.row SYS_openat R. rewrite R in G by reflexivity.
  unfold PolicyProofs.promised in G. cbn in G. intuition discriminate.
Qed.

(** C113 *)
Theorem C113_later_promises_cost_nothing :
  forall prof prof' pid tid ps qs v v' prog prog' mem d,
  filter_for prof pid tid ps v prog -> filter_for prof' pid tid (ps ++ qs) v' prog' ->
  native d -> granted ps pid tid d ->
  ktrace prog' 0 0 0 mem (sd_words d) = ktrace prog 0 0 0 mem (sd_words d).
Proof. exact CostFacts.c113_early. Qed.
Print Assumptions C113_later_promises_cost_nothing.
Example C113_later_example :
  let cost ps := insns_executed (built ps Trap) (repeat 0 16) (call SYS_read 0 0 0 0 0) in
  cost [StdIO] = cost [StdIO; RPath; WPath; Proc] /\ cost [StdIO] < cost [RPath; StdIO].
Proof. cbv zeta. split; vm_compute; reflexivity. Qed.

(** C113 *)
Theorem C113_costs_add :
  forall prof prof' prof'' pid tid ps qs v v' v'' prog prog' prog'' mem d,
  filter_for prof pid tid ps v prog -> filter_for prof' pid tid qs v' prog' ->
  filter_for prof'' pid tid (ps ++ qs) v'' prog'' -> native d -> ~ granted ps pid tid d ->
  insns_executed prog'' mem d + 5 = insns_executed prog mem d + insns_executed prog' mem d.
Proof. exact CostFacts.c113_add. Qed.
Print Assumptions C113_costs_add.
(** mmap, refused by StdIO and allowed by ProtExec, and refused by Proc too. *)
Example C113_add_example :
  let cost ps d := insns_executed (built ps Trap) (repeat 0 16) d in
  let exec := call SYS_mmap 0 0 7 0 0 in
  cost [StdIO; ProtExec] exec + 5 = cost [StdIO] exec + cost [ProtExec] exec /\
  cost [StdIO] exec = 130 /\ cost [ProtExec] exec = 9 /\
  cost [StdIO; Proc] exec + 5 = cost [StdIO] exec + cost [Proc] exec /\ cost [Proc] exec = 28.
Proof. cbv zeta. repeat (apply conj); vm_compute; reflexivity. Qed.

(** C113 *)
Theorem C113_order_costs_a_refused_call_nothing :
  forall prof prof' pid tid ps qs v v' prog prog' mem d,
  filter_for prof pid tid ps v prog -> filter_for prof' pid tid qs v' prog' -> Permutation.Permutation ps qs ->
  native d -> ~ granted ps pid tid d ->
  insns_executed prog mem d = insns_executed prog' mem d.
Proof. exact CostFacts.c113_order. Qed.
Print Assumptions C113_order_costs_a_refused_call_nothing.
(** An allowed call may cost more in another order. *)
Example C113_order_example :
  let cost ps d := insns_executed (built ps Trap) (repeat 0 16) d in
  cost [StdIO; Proc] (call SYS_kill 5 0 0 0 0) > cost [Proc; StdIO] (call SYS_kill 5 0 0 0 0) /\
  cost [StdIO; Proc] (call SYS_mmap 0 0 7 0 0) = cost [Proc; StdIO] (call SYS_mmap 0 0 7 0 0).
Proof. cbv zeta. repeat (apply conj); vm_compute; reflexivity. Qed.
