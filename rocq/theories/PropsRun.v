(** Property theorems C47-C49: filters run in the VM, and the record handed to it.
    Generated statements; the proofs are in the files required below. *)
From Coq Require Import NArith ZArith String List Bool Lia.
From Verif Require Import Libc Machine Bpf SeccompRet Asm Vm Promises Filters Kernel World Testkit Spec Demo.
From Verif Require RunProofs.
Import ListNotations.
Local Open Scope N_scope.

(** C47 *)
Theorem C47_vm_check_predicts_policy :
  forall prof prof' pid tid ps v prog d beyond,
  filter_for prof pid tid ps v prog -> small_payload v -> wf_data d ->
  (N.of_nat (length prog) <= 65535 ->
    (sd_arch d = X86_64 -> granted ps pid tid d -> run_seccomp prof' prog d beyond = Ok Allow) /\
    (sd_arch d = X86_64 -> ~ granted ps pid tid d -> run_seccomp prof' prog d beyond = Ok v) /\
    (sd_arch d <> X86_64 -> run_seccomp prof' prog d beyond = Ok KillProcess)) /\
  (65535 < N.of_nat (length prog) ->
    run_seccomp prof' prog d beyond = Err (ProgramTooLong (N.of_nat (length prog)))).
Proof. exact RunProofs.c47. Qed.
Print Assumptions C47_vm_check_predicts_policy.
Example C47_example :
  filter_for Debug 100 101 [RPath] (Errno 13) (built [RPath] (Errno 13)) /\
  N.of_nat (length (built [RPath] (Errno 13))) <= 65535 /\ small_payload (Errno 13) /\
  run_seccomp Debug (built [RPath] (Errno 13)) (call SYS_stat 1 2 3 4 5) [] = Ok Allow /\
  run_seccomp Release (built [RPath] (Errno 13)) (call SYS_read 1 2 3 4 5) (repeat 7 48) = Ok (Errno 13) /\
  run_seccomp Debug (built [RPath] (Errno 13)) (mkSD SYS_stat 0x40000003 0 0 0 0 0 0 0) [] = Ok KillProcess.
Proof. repeat split; vm_compute; try reflexivity; discriminate. Qed.

(** C47 *)
Theorem C47_vm_check_predicts_kernel :
  forall prof prof' pid tid ps v prog d beyond a,
  filter_for prof pid tid ps v prog -> small_payload v -> wf_data d ->
  run_seccomp prof' prog d beyond = Ok a -> syscall_entry [prog] d = fate a.
Proof. exact RunProofs.c47_fate. Qed.
Print Assumptions C47_vm_check_predicts_kernel.
Example C47_kernel_example :
  run_seccomp Debug (built [StdIO] Trap) (call SYS_openat 0 0 0 0 0) [] = Ok Trap /\
  syscall_entry [built [StdIO] Trap] (call SYS_openat 0 0 0 0 0) = Kill DeathSigsys.
Proof. split; vm_compute; reflexivity. Qed.

(** C48 *)
Theorem C48_slice_too_long_refuted :
  forall size memory, (2 <= size)%nat ->
  exists memory', (forall i, (4 * i < size)%nat -> memory' i = memory i) /\
    any_slice size memory' <> any_slice size memory.
Proof. exact RunProofs.c48_slice_refuted. Qed.
Print Assumptions C48_slice_too_long_refuted.

(** C48 *)
Theorem C48_load_past_record_refuted :
  forall prof d w rest vm,
  vm_new outside_prog = Ok vm ->
  fst (vm_run prof vm (any_to_data d (w :: rest))) = Finished (Ok w).
Proof. exact RunProofs.c48_refuted. Qed.
Print Assumptions C48_load_past_record_refuted.

(** C48 *)
Theorem C48_accepted_filters_stay_inside_partial :
  forall prog vm d beyond beyond',
  kernel_accepts prog = true -> Forall wf_insn prog -> Forall vm_subset prog ->
  ~ Exists divides_by_index prog -> vm_prog vm = prog ->
  length beyond = 48%nat -> words beyond -> length beyond' = 48%nat -> words beyond' ->
  fst (vm_run Release vm (any_to_data d beyond)) = fst (vm_run Release vm (any_to_data d beyond')).
Proof. exact RunProofs.c48_partial. Qed.
Print Assumptions C48_accepted_filters_stay_inside_partial.
Example C48_partial_example :
  let prog := [bpf_ld ABS 16; bpf_ret Acc 0] in
  kernel_accepts prog = true /\ Forall wf_insn prog /\ Forall vm_subset prog /\
  ~ Exists divides_by_index prog /\
  exists vm, vm_new prog = Ok vm /\
    fst (vm_run Release vm (any_to_data (call 1 77 3 4 5 6) (repeat 0 48))) = Finished (Ok 77) /\
    fst (vm_run Release vm (any_to_data (call 1 77 3 4 5 6) (repeat 9 48))) = Finished (Ok 77).
Proof.
  cbv zeta. split; [vm_compute; reflexivity|].
  split; [repeat constructor; vm_compute; reflexivity|].
  split; [repeat constructor; vm_compute; intuition discriminate|].
  split; [intros X; repeat (apply Exists_cons in X; destruct X as [X|X]; [vm_compute in X; intuition discriminate|]);
          inversion X|].
  eexists. repeat split; vm_compute; reflexivity.
Qed.

(** C48 *)
Theorem C48_generated_filters_stay_inside :
  forall prof prof' pid tid ps v prog vm d beyond beyond',
  filter_for prof pid tid ps v prog -> vm_prog vm = prog ->
  fst (vm_run prof' vm (any_to_data d beyond)) = fst (vm_run prof' vm (any_to_data d beyond')).
Proof. exact RunProofs.c48_generated. Qed.
Print Assumptions C48_generated_filters_stay_inside.
Example C48_generated_example :
  exists vm, vm_new (built [StdIO] Trap) = Ok vm /\
    fst (vm_run Debug vm (any_to_data (call SYS_openat 0 0 0 0 0) (repeat 9 48))) = Finished (Ok 0x30000).
Proof. eexists. split; [vm_compute; reflexivity|]. vm_compute. reflexivity. Qed.

(** C49 *)
Theorem C49_offset_arithmetic :
  forall f, match f with ArgLower i | ArgUpper i => word i | _ => True end ->
  (offset f < 2 ^ 32 -> forall prof, offset_u32 (E := bpf_error) prof f = Ok (offset f)) /\
  (2 ^ 32 <= offset f -> offset_u32 (E := bpf_error) Debug f = Panic /\
                         offset_u32 (E := bpf_error) Release f = Ok (offset f mod 2 ^ 32)).
Proof. exact RunProofs.c49. Qed.
Print Assumptions C49_offset_arithmetic.
Example C49_example :
  offset_u32 (E := bpf_error) Debug (ArgUpper 5) = Ok 60 /\
  offset_u32 (E := bpf_error) Debug (ArgLower (2 ^ 29)) = Panic /\
  offset_u32 (E := bpf_error) Release (ArgLower (2 ^ 29)) = Ok 16.
Proof. repeat split; vm_compute; reflexivity. Qed.

(** C49 *)
Theorem C49_distinct_fields_refuted :
  exists f g, ~ exists_field f /\ exists_field g /\
  offset_u32 (E := bpf_error) Release f = offset_u32 (E := bpf_error) Release g.
Proof. exact RunProofs.c49_refuted. Qed.
Print Assumptions C49_distinct_fields_refuted.
