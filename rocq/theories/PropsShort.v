(** Property theorems C128: the shortest list of promises that allows the same calls.
    Generated statements; the proofs are in the files required below. *)
From Coq Require Import NArith ZArith String List Bool Lia.
From Verif Require Import Libc Machine Bpf SeccompRet Asm Vm Promises Filters Kernel World Testkit Spec ShortSpec Demo.
From Verif Require ShortFacts.
Import ListNotations.
Local Open Scope N_scope.

(** C128 *)
Theorem C128_the_short_list_decides_the_same :
  forall prof prof' pid tid ps v prog small,
  filter_for prof pid tid ps v prog -> filter_for prof' pid tid (shortest ps) v small ->
  forall d, wf_data d ->
  (forall mem, kernel_eval_mem mem small d = kernel_eval_mem mem prog d) /\
  forall newer older, syscall_entry (newer ++ small :: older) d = syscall_entry (newer ++ prog :: older) d.
Proof. exact ShortFacts.c128. Qed.
Print Assumptions C128_the_short_list_decides_the_same.
(** Of eleven promises five are left. *)
Example C128_example :
  let ps := [Default; StdIO; VmInfo; Dns; Inet; RPath; SendFd; RecvFd; TmpPath; CPath; RPath] in
  shortest ps = [StdIO; RPath; CPath; Inet; RecvFd] /\
  filter_for Debug 100 101 ps Trap (built ps Trap) /\
  filter_for Debug 100 101 (shortest ps) Trap (built [StdIO; RPath; CPath; Inet; RecvFd] Trap) /\
  length (built ps Trap) = 591%nat /\ length (built (shortest ps) Trap) = 488%nat /\
  kernel_eval (built (shortest ps) Trap) (call SYS_lstat 0x7000 0x7100 0 0 0) = 0x7fff0000 /\
  kernel_eval (built (shortest ps) Trap) (call SYS_chown 0x7000 0 0 0 0) = 0x30000 /\
  (* without StdIO the others do not stand in for Dns and VmInfo *)
  shortest [VmInfo; Dns; Inet; RPath; SendFd; TmpPath; CPath] = [RPath; CPath; Inet; Dns; RecvFd; VmInfo].
Proof. cbv zeta. concrete. Qed.

(** C128 *)
Theorem C128_no_list_is_shorter :
  forall prof prof' pid tid pid' tid' ps qs v v' prog small other,
  filter_for prof pid tid ps v prog -> filter_for prof pid tid (shortest ps) v small ->
  filter_for prof' pid' tid' qs v' other ->
  enforcing v -> enforcing v' -> pid < 2 ^ 32 -> pid' < 2 ^ 32 ->
  (forall d, native d -> (proceeds other d <-> proceeds prog d)) ->
  (length small <= length other)%nat /\
  (length small = length other <-> Permutation (map recv_for_send qs) (shortest ps)).
Proof. exact ShortFacts.c128_least. Qed.
Print Assumptions C128_no_list_is_shorter.
(** Another list that allows the same: as long, being a rearrangement; and one that is longer. *)
Example C128_example_least :
  let ps := [StdIO; VmInfo; SendFd] in
  let same := [SendFd; StdIO] in let longer := [SendFd; StdIO; Default] in
  shortest ps = [StdIO; RecvFd] /\ Permutation (map recv_for_send same) (shortest ps) /\
  length (built same KillProcess) = length (built (shortest ps) Trap) /\
  (length (built (shortest ps) Trap) < length (built longer Trap))%nat.
Proof.
  cbv zeta. split; [reflexivity|]. split; [apply perm_swap|]. split; [vm_compute; reflexivity|]. vm_compute. repeat constructor.
Qed.

(** C128 *)
Theorem C128_no_list_costs_less :
  forall prof prof' pid tid pid' tid' ps qs v v' prog small other,
  filter_for prof pid tid ps v prog -> filter_for prof pid tid (shortest ps) v small ->
  filter_for prof' pid' tid' qs v' other ->
  enforcing v -> enforcing v' -> small_ids pid tid -> small_ids pid' tid' ->
  (forall d, native d -> (proceeds other d <-> proceeds prog d)) ->
  prog_cost small <= prog_cost other.
Proof. exact ShortFacts.c128_cost. Qed.
Print Assumptions C128_no_list_costs_less.
Example C128_example_cost :
  let ps := [StdIO; VmInfo; SendFd; Default; StdIO] in
  small_ids 100 101 /\ prog_cost (built (shortest ps) Trap) = 433 /\ prog_cost (built [SendFd; StdIO; Default] Trap) = 436 /\
  prog_cost (built ps Trap) = 852.
Proof. cbv zeta. split; [split; reflexivity|]. repeat (apply conj); vm_compute; reflexivity. Qed.

(** C128 *)
Theorem C128_a_first_pledge_of_the_short_list_succeeds :
  forall prof amb t ps v, t_filters t = [] -> amb_oom (amb 1%nat) = false ->
  fst (pledge_override prof amb t (shortest ps) v) = Ok tt.
Proof. exact ShortFacts.c128_fits. Qed.
Print Assumptions C128_a_first_pledge_of_the_short_list_succeeds.
(** Fifteen times StdIO is too much, once is not. *)
Example C128_example_fits :
  let ps := repeat StdIO 15 in
  shortest ps = [StdIO] /\ fst (pledge_override Debug amb0 thread0 ps Trap) = Err (SysErr 22) /\
  fst (pledge_override Debug amb0 thread0 (shortest ps) Trap) = Ok tt.
Proof. cbv zeta. repeat (apply conj); vm_compute; reflexivity. Qed.
