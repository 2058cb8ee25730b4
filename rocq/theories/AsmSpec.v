(** SPECIFICATION (C104, C105): which instruction sequences can be written with assembler tokens,
    and where jumps go.
    Nothing here is code of /repo; the numbers are those of <linux/bpf_common.h>. *)
From Coq Require Import NArith ZArith String List.
From Verif Require Import Libc Machine Bpf Asm Spec.
Import ListNotations.
Local Open Scope N_scope.

(** ja, jeq, jgt, jge, jset, each comparing with the constant. *)
Definition jump_codes : list N := [0x05; 0x15; 0x25; 0x35; 0x45].

(** ld, ldx, st, stx with the modes imm, abs, ind, mem, len; the ten operations with a constant and
    with the index register; 0xb4, which is no instruction; ret with constant, index, accumulator. *)
Definition statement_codes : list N :=
  [0x00; 0x20; 0x40; 0x60; 0x80;  0x01; 0x21; 0x41; 0x61; 0x81;
   0x02; 0x22; 0x42; 0x62; 0x82;  0x03; 0x23; 0x43; 0x63; 0x83;
   0x04; 0x14; 0x24; 0x34; 0x44; 0x54; 0x64; 0x74; 0x94; 0xa4;
   0x0c; 0x1c; 0x2c; 0x3c; 0x4c; 0x5c; 0x6c; 0x7c; 0x9c; 0xac;
   0xb4;  0x06; 0x0e; 0x16].

(** The instruction at position [i] of a program of [len] instructions. *)
Definition expressible (len i : nat) (f : sock_filter) : Prop :=
  sf_k f < 2 ^ 32 /\
  ((In (sf_code f) statement_codes /\ sf_jt f = 0 /\ sf_jf f = 0) \/
   (In (sf_code f) jump_codes /\ sf_jt f < 2 ^ 8 /\ sf_jf f < 2 ^ 8 /\
    N.of_nat i + 1 + sf_jt f <= N.of_nat len /\ N.of_nat i + 1 + sf_jf f <= N.of_nat len)).

(** neg, tax, txa and the comparisons with the index register. *)
Definition missing_codes : list N := [0x84; 0x07; 0x87; 0x1d; 0x2d; 0x3d; 0x4d].
(** Jump fields are zero where they mean nothing. *)
Definition unused_zero (f : sock_filter) : Prop :=
  In (sf_code f) [0x15; 0x25; 0x35; 0x45; 0x1d; 0x2d; 0x3d; 0x4d] \/ (sf_jt f = 0 /\ sf_jf f = 0).

Definition jump_code (o : JmpOp) : N :=
  match o with JA => 0x05 | JEQ => 0x15 | JGT => 0x25 | JGE => 0x35 | JSET => 0x45 end.
(** The offset written for a jump to a label, by the instruction number [here], into a field that
    holds numbers below [m]. *)
Definition offset_to (prof : profile) (prog : list Operation) (here : N) (m : Z) (label : option string)
  (v : N) : Prop :=
  match label with
  | None => v = 0
  | Some l => exists there, distance l prog = Some there /\
      Z.of_N v = ((Z.of_N there - Z.of_N here - 1) mod m)%Z /\
      (prof = Debug -> here < there)
  end.
