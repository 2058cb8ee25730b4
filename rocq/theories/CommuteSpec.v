(** SPECIFICATION for C122: steps that leave other threads alone. *)
From Coq Require Import NArith List.
From Verif Require Import Libc Machine Bpf SeccompRet Asm Vm Promises Filters Kernel World Spec.
Import ListNotations.
Local Open Scope N_scope.

(** seccomp(2) with SECCOMP_FILTER_FLAG_TSYNC, which looks at other threads even if it leaves them as they are. *)
Definition syncs (o : op) : bool :=
  match o with OSys _ d _ => andb (sd_nr d =? SYS_seccomp) (N.testbit (sd_a1 d) 0) | _ => false end.

(** A step changes, ends and creates no thread but the one whose turn it is. *)
Definition keeps_to_itself (prof : profile) (w : world) (o : op) : Prop :=
  forall t, t_uid t <> whose o -> (In t (w_threads (fst (wstep prof w o))) <-> In t (w_threads w)).
