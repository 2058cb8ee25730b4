(** Property theorems C102-C103: promises one by one; the error number of a refused call.
    Generated statements; the proofs are in the files required below. *)
From Coq Require Import NArith ZArith String List Bool Lia.
From Verif Require Import Libc Machine Bpf SeccompRet Asm Vm Promises Filters Kernel World Testkit Spec Demo.
From Verif Require SumFacts.
Import ListNotations.
Local Open Scope N_scope.

(** C102 *)
Theorem C102_promises_act_independently :
  forall prof pid tid ps v prog d,
  filter_for prof pid tid ps v prog -> enforcing v -> native d ->
  (proceeds prog d <->
   sd_nr d = SYS_exit \/
   exists p one, In p ps /\ filter_for prof pid tid [p] v one /\ proceeds one d).
Proof. exact SumFacts.c102. Qed.
Print Assumptions C102_promises_act_independently.
Example C102_example :
  let d := call SYS_chdir 0x7000 0 0 0 0 in
  filter_for Debug 100 101 [StdIO; RPath; Inet] Trap (built [StdIO; RPath; Inet] Trap) /\ native d /\
  proceeds (built [StdIO; RPath; Inet] Trap) d /\
  proceeds (built [RPath] Trap) d /\ ~ proceeds (built [StdIO] Trap) d /\ ~ proceeds (built [Inet] Trap) d.
Proof. cbv zeta. unfold proceeds. concrete. Qed.

(** C102 *)
Theorem C102_joined_lists :
  forall prof pid tid ps qs v f g h d,
  filter_for prof pid tid ps v f -> filter_for prof pid tid qs v g -> filter_for prof pid tid (ps ++ qs) v h ->
  enforcing v -> native d ->
  (proceeds h d <-> proceeds f d \/ proceeds g d).
Proof. exact SumFacts.c102_append. Qed.
Print Assumptions C102_joined_lists.
Example C102_joined_example :
  let f := built [StdIO; Proc] Trap in let g := built [RPath] Trap in let h := built ([StdIO; Proc] ++ [RPath]) Trap in
  filter_for Debug 100 101 [StdIO; Proc] Trap f /\ filter_for Debug 100 101 [RPath] Trap g /\
  filter_for Debug 100 101 ([StdIO; Proc] ++ [RPath]) Trap h /\
  (proceeds h (call SYS_fork 0 0 0 0 0) /\ proceeds f (call SYS_fork 0 0 0 0 0)) /\
  (proceeds h (call SYS_chdir 1 0 0 0 0) /\ proceeds g (call SYS_chdir 1 0 0 0 0)) /\
  ~ proceeds h (call SYS_socket 2 1 0 0 0).
Proof. cbv zeta. unfold proceeds. concrete. Qed.

(** C103 *)
Theorem C103_large_error_number_refuted :
  forall prof pid tid ps prog d,
  filter_for prof pid tid ps (Errno 5000) prog -> native d -> ~ granted ps pid tid d ->
  syscall_entry [prog] d = Fake (-4095).
Proof. exact SumFacts.c103_refuted. Qed.
Print Assumptions C103_large_error_number_refuted.
Example C103_refuted_example :
  let f := built [StdIO] (Errno 5000) in let d := call SYS_chdir 0x7000 0 0 0 0 in
  filter_for Debug 100 101 [StdIO] (Errno 5000) f /\ native d /\ syscall_entry [f] d = Fake (-4095).
Proof. cbv zeta. concrete. Qed.

(** C103 *)
Theorem C103_error_number_returned_partial :
  forall prof pid tid ps e prog d,
  filter_for prof pid tid ps (Errno e) prog -> e < 2 ^ 16 -> native d -> ~ granted ps pid tid d ->
  exists z, syscall_entry [prog] d = Fake z /\
    (z = (- Z.of_N e)%Z <-> e <= 4095) /\ ((-4095 <= z <= -1)%Z <-> e <> 0) /\
    (4095 < e -> z = (-4095)%Z).
Proof. exact SumFacts.c103. Qed.
Print Assumptions C103_error_number_returned_partial.
Example C103_example :
  let d := call SYS_chdir 0x7000 0 0 0 0 in native d /\
  syscall_entry [built [StdIO] (Errno 13)] d = Fake (-13) /\
  syscall_entry [built [StdIO] (Errno 4095)] d = Fake (-4095) /\
  syscall_entry [built [StdIO] (Errno 0)] d = Fake 0.
Proof. cbv zeta. concrete. Qed.
