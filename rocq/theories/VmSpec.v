(** SPECIFICATION of what one VM instruction can come to (C79-C82), from the layout of BPF
    instruction codes (the BPF_* constants of libc, see Libc.v and bpfvm/src/bpf.rs) written as
    arithmetic. *)
From Coq Require Import NArith List.
From Verif Require Import Machine Bpf Vm.
Import ListNotations.
Local Open Scope N_scope.

(** Class: 0 ld, 1 ldx, 2 st, 3 stx, 4 alu, 5 jmp, 6 ret, 7 misc. *)
Definition i_class (c : N) : N := c mod 8.
(** Size of a load: 0 word, 1 half word, 2 byte; source of a return: 0 constant, 1 X, 2 A. *)
Definition i_size (c : N) : N := c / 8 mod 4.
(** Source of an operand: 0 constant, 1 X. *)
Definition i_src (c : N) : N := c / 8 mod 2.
(** Mode of a load: 0 constant, 1 absolute, 2 relative to X, 3 scratch cell, 4 length. *)
Definition i_mode (c : N) : N := c / 32 mod 8.
(** Operation: 0 add/ja, 1 sub/jeq, 2 mul/jgt, 3 div/jge, 4 or/jset, 5 and, 6 lsh, 7 rsh, 8 neg,
    9 mod, 10 xor. *)
Definition i_op (c : N) : N := c / 16 mod 16.

(** The error an instruction is reported with, whatever the state. *)
Definition insn_error (f : sock_filter) : option bpf_error :=
  let c := sf_code f in
  match i_class c with
  | 0 => match i_mode c with
         | 0 | 3 | 4 => None
         | 1 | 2 => match i_size c with
                    | 0 => None
                    | 1 | 2 => Some UnsupportedDataOffset
                    | _ => Some (InvalidInstructionCode 0x18)
                    end
         | _ => Some (InvalidInstructionCode c)
         end
  | 1 => match i_mode c with 0 | 3 | 4 => None | _ => Some (InvalidInstructionCode c) end
  | 4 => match i_op c with
         | 0 | 1 | 2 | 3 | 4 | 5 | 6 | 7 | 9 | 10 => None
         | 8 => Some (UnsupportedInstruction 0x80)
         | _ => Some (UnknownInstruction 4)
         end
  | 5 => match i_op c with 0 | 1 | 2 | 3 | 4 => None | _ => Some (UnknownInstruction 5) end
  | 6 => match i_size c with 3 => Some (InvalidInstructionCode c) | _ => None end
  | 7 => Some (UnsupportedInstruction 7)
  | _ => None
  end.

(** The value an instruction ends the program with. *)
Definition insn_returns (f : sock_filter) (acc idx : N) : option N :=
  match i_class (sf_code f), i_size (sf_code f) with
  | 6, 0 => Some (sf_k f)
  | 6, 1 => Some idx
  | 6, 2 => Some acc
  | _, _ => None
  end.

(** When an instruction panics: reading outside the data, a scratch cell that does not exist,
    a zero divisor; with overflow checks also 32-bit overflow and oversized shifts. *)
Definition insn_panics (prof : profile) (f : sock_filter) (acc idx : N) (cells words : N) : Prop :=
  let c := sf_code f in
  let k := sf_k f in
  let operand := if i_src c =? 0 then k else idx in
  match i_class c with
  | 0 => match i_mode c with
         | 1 => i_size c = 0 /\ words <= k / 4
         | 2 => prof = Debug /\ 2 ^ 32 <= idx + k \/
                i_size c = 0 /\ words <= (idx + k) mod 2 ^ 32 / 4
         | 3 => cells <= k
         | _ => False
         end
  | 1 => i_mode c = 3 /\ cells <= k
  | 2 | 3 => cells <= k
  | 4 => match i_op c with
         | 0 => prof = Debug /\ 2 ^ 32 <= acc + operand
         | 1 => prof = Debug /\ acc < operand
         | 2 => prof = Debug /\ 2 ^ 32 <= acc * operand
         | 3 | 9 => operand = 0
         | 6 | 7 => prof = Debug /\ 32 <= operand
         | _ => False
         end
  | _ => False
  end.

(** The number of data words and of scratch cells of a VM. *)
Definition panics_here (prof : profile) (f : sock_filter) (vm : BpfVM) (data : list N) : Prop :=
  insn_panics prof f (vm_acc vm) (vm_idx vm) (N.of_nat (length (vm_mem vm)))
    (N.of_nat (length data)).

(** [f] asks for the length of the data. *)
Definition asks_length (f : sock_filter) : Prop :=
  i_class (sf_code f) < 2 /\ i_mode (sf_code f) = 4.

(** What an instruction that neither fails, panics nor returns does to the state. *)
Definition loaded (f : sock_filter) (idx : N) (cells data : list N) : N :=
  match i_mode (sf_code f) with
  | 0 => sf_k f
  | 1 => nth (N.to_nat (sf_k f / 4)) data 0
  | 2 => nth (N.to_nat ((idx + sf_k f) mod 2 ^ 32 / 4)) data 0
  | 3 => nth (N.to_nat (sf_k f)) cells 0
  | _ => N.of_nat (length data) mod 2 ^ 32
  end.
Definition computed (f : sock_filter) (acc idx : N) : N :=
  let o := if i_src (sf_code f) =? 0 then sf_k f else idx in
  match i_op (sf_code f) with
  | 0 => (acc + o) mod 2 ^ 32
  | 1 => (acc + 2 ^ 32 - o) mod 2 ^ 32
  | 2 => acc * o mod 2 ^ 32
  | 3 => acc / o
  | 4 => N.lor acc o
  | 5 => N.land acc o
  | 6 => acc * 2 ^ (o mod 32) mod 2 ^ 32
  | 7 => acc / 2 ^ (o mod 32)
  | 9 => acc mod o
  | _ => N.lxor acc o
  end.
Definition jumped (f : sock_filter) (acc : N) : N :=
  let k := sf_k f in
  let pick (b : bool) := if b then sf_jt f else sf_jf f in
  match i_op (sf_code f) with
  | 0 => k
  | 1 => pick (acc =? k)
  | 2 => pick (k <? acc)
  | 3 => pick (k <=? acc)
  | _ => pick (negb (N.land acc k =? 0))
  end.
Definition replaced (l : list N) (i v : N) : list N :=
  firstn (N.to_nat i) l ++ v :: skipn (S (N.to_nat i)) l.
Definition insn_effect (f : sock_filter) (vm : BpfVM) (data : list N) : BpfVM :=
  let (pc, acc, idx, cells, prog) := vm in
  let k := sf_k f in
  match i_class (sf_code f) with
  | 0 => mkVM (pc + 1) (loaded f idx cells data) idx cells prog
  | 1 => mkVM (pc + 1) acc (loaded f idx cells data) cells prog
  | 2 => mkVM (pc + 1) acc idx (replaced cells k acc) prog
  | 3 => mkVM (pc + 1) acc idx (replaced cells k idx) prog
  | 4 => mkVM (pc + 1) (computed f acc idx) idx cells prog
  | 5 => mkVM (pc + 1 + jumped f acc) acc idx cells prog
  | _ => vm
  end.
