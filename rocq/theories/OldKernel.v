(** ASSUMED ENVIRONMENT of C112: what Linux before 4.14 does with the result of filters
    (kernel/seccomp.c of Linux 4.13, [seccomp_run_filters] and [__seccomp_filter]).  The action is
    taken without the topmost bit and compared unsigned; KILL_PROCESS and LOG do not exist.  No tracer
    is attached and SIGSYS is at its default disposition. *)
From Coq Require Import NArith ZArith List.
From Verif Require Import Libc Machine Bpf Vm Kernel.
Import ListNotations.
Local Open Scope N_scope.

(** ret & SECCOMP_RET_ACTION *)
Definition old_action (ret : N) : N := N.land ret 0x7fff0000.
Fixpoint old_run_from (ret : N) (filters : list (list sock_filter)) (d : seccomp_data) : N :=
  match filters with
  | [] => ret
  | f :: fs =>
      let cur := kernel_eval f d in
      old_run_from (if old_action cur <? old_action ret then cur else ret) fs d
  end.
Definition old_entry_of (ret : N) : entry :=
  match old_action ret with
  | 0x7fff0000 => Proceed                                                (* ALLOW *)
  | 0x00050000 => Fake (- Z.of_N (N.min (N.land ret 0xffff) MAX_ERRNO))  (* ERRNO *)
  | 0x7ff00000 => Fake (- Z.of_N ENOSYS)                                 (* TRACE *)
  | 0x00030000 => Kill DeathSigsys                                       (* TRAP *)
  | _ => Kill DeathThread                                                (* KILL and unknown *)
  end.
Definition old_syscall_entry (filters : list (list sock_filter)) (d : seccomp_data) : entry :=
  match filters with
  | [] => Proceed
  | _ => old_entry_of (old_run_from 0x7fff0000 filters d)
  end.
