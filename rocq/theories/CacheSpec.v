(** SPECIFICATION (C125): calls that a pledge decides by their number. *)
From Coq Require Import NArith List.
From Verif Require Import Libc Machine Bpf SeccompRet Asm Vm Promises Filters Kernel World Spec.
Import ListNotations.
Local Open Scope N_scope.

(** The promise grants calls of this number with any arguments / with some. *)
Definition plain_rule (p : Promise) (nr : N) : Prop :=
  exists alts who, In (nr, alts) policy /\ In (AnyArgs, who) alts /\ In p who.
Definition checked_rule (p : Promise) (nr : N) : Prop :=
  exists alts r who, In (nr, alts) policy /\ In (r, who) alts /\ In p who /\ r <> AnyArgs.

(** In the order in which they are given, the first of the promises that says anything about the number
    grants it with any arguments. *)
Definition number_decides (ps : list Promise) (nr : N) : Prop :=
  exists before p after, ps = before ++ p :: after /\ plain_rule p nr /\
    forall q, In q before -> ~ checked_rule q nr.
