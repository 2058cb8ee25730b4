(** SPECIFICATION for C120: the same up to the names of threads. *)
From Coq Require Import NArith List.
From Verif Require Import Libc Machine Bpf SeccompRet Asm Vm Promises Filters Kernel World Spec.
Import ListNotations.
Local Open Scope N_scope.

(** Threads, steps and events with the name of the thread (the model's, not the kernel's id) replaced. *)
Definition named (f : nat -> nat) (t : thread) : thread :=
  mkThread (f (t_uid t)) (t_pid t) (t_tid t) (t_nnp t) (t_cap t) (t_filters t) (t_call t).
Definition named_op (f : nat -> nat) (o : op) : op :=
  match o with
  | OPledge u ps v => OPledge (f u) ps v | OStep u a => OStep (f u) a | OSys u d c => OSys (f u) d c
  | OCap u b => OCap (f u) b | ODie u => ODie (f u)
  end.
Definition named_event (f : nat -> nat) (ev : event) : event :=
  match ev with
  | EvCall u d e => EvCall (f u) d e | EvSpawn u c => EvSpawn (f u) (f c)
  | EvInstalled u p t ps v => EvInstalled (f u) p t ps v | EvReturned u ps v r => EvReturned (f u) ps v r
  end.
