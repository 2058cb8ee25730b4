(** Model of the test helper [run_seccomp] (src/seccomp.rs:1027-1030): checking a filter in the
    VM instead of the kernel.  This is also the use bpfvm/README.md describes. *)
From Coq Require Import NArith List Bool.
From Verif Require Import Libc Machine Bpf SeccompRet Vm.
Import ListNotations.
Local Open Scope N_scope.

(** [BpfVM::run] as a result; [OutOfFuel] does not occur (Theorem C06). *)
Definition vm_result (r : loop_result * BpfVM) : res bpf_error N :=
  match fst r with Finished r => r | OutOfFuel => Panic end.

(** [run_seccomp], src/seccomp.rs:1027-1030; [beyond] is the memory after the record, see
    [any_to_data]. *)
Definition run_seccomp (prof : profile) (prog : list sock_filter) (syscall : seccomp_data)
  (beyond : list N) : res bpf_error SeccompReturn :=
  vm <- vm_new prog ;;
  code <- vm_result (vm_run prof vm (any_to_data syscall beyond)) ;;
  ret_try_from code.
