(** SPECIFICATION (C124): tokens that the assembler writes alike.
    Nothing here is code of /repo. *)
From Coq Require Import NArith ZArith String List.
From Verif Require Import Libc Machine Bpf Asm Spec AsmSpec.
Import ListNotations.
Local Open Scope N_scope.

(** The token written instead of an ALU token with the accumulator as source, and any other token. *)
Definition taken_for (op : Operation) : Operation :=
  match op with
  | Alu o Acc v => match with_bit4 o with Some o' => Alu o' Const v | None => op end
  | _ => op
  end.

(** Two labels, each in its program, are equally far from instruction [here]. *)
Definition equally_far (prof : profile) (p1 p2 : list Operation) (here : N) (m : Z) (l1 l2 : option string) : Prop :=
  exists v, offset_to prof p1 here m l1 v /\ offset_to prof p2 here m l2 v.

(** Tokens [a] of [p1] and [b] of [p2], both of them instruction [here]. *)
Definition written_alike (prof : profile) (p1 p2 : list Operation) (here : N) (a b : Operation) : Prop :=
  match a, b with
  | Jump o k lt lf, Jump o' k' lt' lf' =>
      o = o' /\ k = k' /\ equally_far prof p1 p2 here (2 ^ 8) lt lt' /\ equally_far prof p1 p2 here (2 ^ 8) lf lf'
  | JumpTo l, JumpTo l' => equally_far prof p1 p2 here (2 ^ 32) (Some l) (Some l')
  | Jump o k lt lf, JumpTo l =>
      o = JA /\ offset_to prof p1 here (2 ^ 8) lt 0 /\ offset_to prof p1 here (2 ^ 8) lf 0 /\
      offset_to prof p2 here (2 ^ 32) (Some l) k
  | JumpTo l, Jump o k lt lf =>
      o = JA /\ offset_to prof p2 here (2 ^ 8) lt 0 /\ offset_to prof p2 here (2 ^ 8) lf 0 /\
      offset_to prof p1 here (2 ^ 32) (Some l) k
  | _, _ => taken_for a = taken_for b
  end.

(** The tokens that are instructions. *)
Definition without_labels (prog : list Operation) : list Operation :=
  filter (fun op => match op with Label _ => false | _ => true end) prog.
