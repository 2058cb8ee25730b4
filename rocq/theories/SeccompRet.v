(** Model of bpfvm/src/seccomp.rs. *)
From Coq Require Import NArith List.
From Verif Require Import Libc Machine Bpf.
Import ListNotations.
Local Open Scope N_scope.

(** bpfvm/src/seccomp.rs:23-29 *)
Definition AUDIT_ARCH_64BIT : N := 0x80000000.
Definition AUDIT_ARCH_LE : N := 0x40000000.
Definition EM_X86_64 : N := 62.
Definition EM_AARCH64 : N := 183.
Definition AUDIT_ARCH_X86_64 : N := N.lor (N.lor EM_X86_64 AUDIT_ARCH_64BIT) AUDIT_ARCH_LE.
Definition AUDIT_ARCH_AARCH64 : N := N.lor (N.lor EM_AARCH64 AUDIT_ARCH_64BIT) AUDIT_ARCH_LE.

(** bpfvm/src/seccomp.rs:33-46 *)
Definition SECCOMP_RET_KILL_PROCESS : N := 0x80000000.
Definition SECCOMP_RET_KILL_THREAD : N := 0x00000000.
Definition SECCOMP_RET_KILL : N := SECCOMP_RET_KILL_THREAD.
Definition SECCOMP_RET_TRAP : N := 0x00030000.
Definition SECCOMP_RET_ERRNO : N := 0x00050000.
Definition SECCOMP_RET_USER_NOTIF : N := 0x7fc00000.
Definition SECCOMP_RET_TRACE : N := 0x7ff00000.
Definition SECCOMP_RET_LOG : N := 0x7ffc0000.
Definition SECCOMP_RET_ALLOW : N := 0x7fff0000.
Definition SECCOMP_RET_ACTION_FULL : N := 0xffff0000.
Definition SECCOMP_RET_ACTION : N := 0x7fff0000.
Definition SECCOMP_RET_DATA : N := 0x0000ffff.

(** [SeccompReturn], bpfvm/src/seccomp.rs:50-66 (payloads are u32). *)
Inductive SeccompReturn :=
| KillProcess | KillThread | Trap | Errno (e : N) | Trace (t : N) | Log | Allow.

(** [impl From<SeccompReturn> for u32], bpfvm/src/seccomp.rs:68-81 *)
Definition ret_into (r : SeccompReturn) : N :=
  match r with
  | KillProcess => SECCOMP_RET_KILL_PROCESS
  | KillThread => SECCOMP_RET_KILL_THREAD
  | Trap => SECCOMP_RET_TRAP
  | Errno e => N.lor SECCOMP_RET_ERRNO e
  | Trace t => N.lor SECCOMP_RET_TRACE t
  | Log => SECCOMP_RET_LOG
  | Allow => SECCOMP_RET_ALLOW
  end.

(** [impl TryFrom<u32> for SeccompReturn], bpfvm/src/seccomp.rs:83-102 *)
Definition ret_try_from (ret : N) : res bpf_error SeccompReturn :=
  let action := N.land ret SECCOMP_RET_ACTION_FULL in
  let val := N.land ret SECCOMP_RET_DATA in
  if action =? SECCOMP_RET_KILL_PROCESS then Ok KillProcess
  else if action =? SECCOMP_RET_KILL_THREAD then Ok KillThread
  else if action =? SECCOMP_RET_TRAP then Ok Trap
  else if action =? SECCOMP_RET_ERRNO then Ok (Errno val)
  else if action =? SECCOMP_RET_TRACE then Ok (Trace val)
  else if action =? SECCOMP_RET_LOG then Ok Log
  else if action =? SECCOMP_RET_ALLOW then Ok Allow
  else Err (UnsupportedReturn ret).

(** [FieldOffset], bpfvm/src/seccomp.rs:104-111 *)
Inductive FieldOffset :=
| Syscall | Arch | InstrPointerLower | InstrPointerUpper
| ArgLower (arg : N) | ArgUpper (arg : N).

(** [FieldOffset::offset], bpfvm/src/seccomp.rs:113-125, with its u32 arithmetic. *)
Definition offset_u32 {E} (prof : profile) (f : FieldOffset) : res E N :=
  match f with
  | Syscall => Ok 0
  | Arch => Ok 4
  | InstrPointerLower => Ok 8
  | InstrPointerUpper => Ok 12
  | ArgLower arg => m <- mul_u32 prof arg 8 ;; add_u32 prof (4 + 4 + 8) m
  | ArgUpper arg => m <- mul_u32 prof arg 8 ;; s <- add_u32 prof (4 + 4 + 8) m ;; add_u32 prof s 4
  end.

(** The same for the argument numbers that exist, where nothing overflows; this is what the
    fragments of Filters.v use (all their argument numbers are literals 0..4), and
    [offset_exact] (RunProofs.v) proves that it is [offset_u32] there. *)
Definition offset (f : FieldOffset) : N :=
  match f with
  | Syscall => 0
  | Arch => 4
  | InstrPointerLower => 8
  | InstrPointerUpper => 12
  | ArgLower arg => (4 + 4 + 8) + (arg * 8)
  | ArgUpper arg => (4 + 4 + 8) + (arg * 8) + 4
  end.
