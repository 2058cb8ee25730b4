(** SPECIFICATION for C113: how many instructions a pledge executes for one call. *)
From Coq Require Import NArith List.
From Verif Require Import Libc Machine Bpf SeccompRet Asm Vm Promises Filters Kernel World Spec.
Import ListNotations.
Local Open Scope N_scope.

(** Instructions executed for a call by the filter [prog]. *)
Definition insns_executed (prog : list sock_filter) (mem : list N) (d : seccomp_data) : N :=
  N.of_nat (length (ktrace prog 0 0 0 mem (sd_words d))).

(** Instructions a promise costs a call that none of its rules names: one for each rule without and two for
    each rule with a check of the arguments. *)
Definition promise_scan (p : Promise) : N :=
  match p with
  | Default => 1 | StdIO => 123 | RPath => 18 | WPath => 20 | CPath => 18 | DPath => 2
  | FLock => 3 | FAttr => 10 | Inet => 16 | Unix => 14 | Dns => 11 | Tty => 2
  | RecvFd => 2 | SendFd => 2 | Proc => 23 | Id => 13 | Chown => 4 | SetTime => 2
  | ProtExec => 3 | Exec => 2 | VmInfo => 1 | TmpPath => 3 | Unveil => 3
  end.
Fixpoint promises_scan (ps : list Promise) : N :=
  match ps with [] => 0 | p :: ps' => promise_scan p + promises_scan ps' end.

(** No rule of these promises, and none of those in force without any, names the call. *)
Definition unnamed (ps : list Promise) (nr : N) : Prop :=
  forall alts r who p, In (nr, alts) policy -> In (r, who) alts -> In p who ->
    p <> Default /\ ~ In p ps.
