(** SPECIFICATION for C111: the words of a call record a filter looks at. *)
From Coq Require Import NArith List.
From Verif Require Import Libc Machine Bpf SeccompRet Asm Vm Promises Filters Kernel World Spec.
Import ListNotations.
Local Open Scope N_scope.

(** The records differ in the [i]-th of their sixteen words and nowhere else: 0 is the number, 1 the
    architecture, 2 and 3 the instruction pointer, 4 + 2 * n and 5 + 2 * n the lower and upper half of
    the argument n. *)
Definition differ_only_at (i : nat) (d d' : seccomp_data) : Prop :=
  forall j, j <> i -> nth j (sd_words d) 0 = nth j (sd_words d') 0.

(** Some call with number [nr] proceeds and would not with another value of the word [i]. *)
Definition matters (prog : list sock_filter) (nr : N) (i : nat) : Prop :=
  exists d d', native d /\ native d' /\ sd_nr d = nr /\ differ_only_at i d d' /\
    proceeds prog d /\ ~ proceeds prog d'.

(** (number, word, needs, unless): the word of such calls matters if one of [needs] is promised and none of
    [unless].  mmap 8 is the lower half of the protection, sendto 12 and 13 the address. *)
Definition inspected_words : list (N * nat * list Promise * list Promise) :=
  [ (SYS_open, 8%nat, [RPath; WPath; CPath], []);
    (SYS_open, 10%nat, [CPath], []);
    (SYS_openat, 8%nat, [RPath; Dns; WPath; CPath], []);
    (SYS_openat, 10%nat, [CPath], []);
    (SYS_creat, 6%nat, [CPath], []);
    (SYS_chmod, 6%nat, [WPath; FAttr], []);
    (SYS_fchmod, 6%nat, [WPath; FAttr], []);
    (SYS_fchmodat, 6%nat, [WPath; FAttr], []);
    (SYS_mmap, 8%nat, [StdIO], [ProtExec]);
    (SYS_mmap, 10%nat, [StdIO; ProtExec], []);
    (SYS_mprotect, 8%nat, [StdIO], [ProtExec]);
    (SYS_kill, 4%nat, [StdIO], [Proc]);
    (SYS_tkill, 4%nat, [StdIO], [Proc]);
    (SYS_fcntl, 6%nat, [StdIO; FLock], []);
    (SYS_ioctl, 6%nat, [StdIO; Inet; Tty], []);
    (SYS_prctl, 4%nat, [StdIO], []);
    (SYS_clone, 4%nat, [StdIO; Proc], []);
    (SYS_prlimit64, 8%nat, [StdIO], [Proc; Id]);
    (SYS_sendto, 12%nat, [StdIO], [Inet; Unix; Dns]);
    (SYS_sendto, 13%nat, [StdIO], [Inet; Unix; Dns]);
    (SYS_socket, 4%nat, [Inet; Dns; Unix], []);
    (SYS_socket, 6%nat, [Inet; Dns; Unix], []);
    (SYS_socket, 8%nat, [Inet; Dns; Unix], []);
    (SYS_getsockopt, 6%nat, [Inet; Unix], []);
    (SYS_getsockopt, 8%nat, [Inet; Unix], []) ].
