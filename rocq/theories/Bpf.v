(** Model of bpfvm/src/bpf.rs and bpfvm/src/errors.rs. *)
From Coq Require Import NArith String List.
From Verif Require Import Libc Machine.
Import ListNotations.
Local Open Scope N_scope.

(** [bpfvm::Error], bpfvm/src/errors.rs:21-39.  [DataConversionError] (line 38) is never
    produced by any code in the crate and is left out. *)
Inductive bpf_error :=
| ProgramTooLong (len : N)
| InvalidInstructionCode (code : N)
| UnsupportedInstruction (code : N)
| UnsupportedReturn (code : N)
| UnsupportedDataOffset
| UnknownInstruction (code : N)
| UnknownLabelReference (l : string).

(** [libc::sock_filter]: code u16, jt u8, jf u8, k u32 (used at bpfvm/src/bpf.rs:90-97). *)
Record sock_filter := SockFilter { sf_code : N; sf_jt : N; sf_jf : N; sf_k : N }.

(** bpfvm/src/bpf.rs:20 *)
Definition BPF_A : N := 0x10.

(** [WordSize::U32 as u32], bpfvm/src/bpf.rs:23-29. Only U32 is ever used. *)
Definition WordSize_U32 : N := BPF_W.

(** [Src], bpfvm/src/bpf.rs:31-40 *)
Inductive Src := Const | Idx | Acc.
Definition src_code (s : Src) : N :=
  match s with Const => BPF_K | Idx => BPF_X | Acc => BPF_A end.

(** [Mode], bpfvm/src/bpf.rs:42-50 *)
Inductive Mode := IMM | ABS | IND | MEM | LEN.
Definition mode_code (m : Mode) : N :=
  match m with
  | IMM => BPF_IMM | ABS => BPF_ABS | IND => BPF_IND | MEM => BPF_MEM | LEN => BPF_LEN
  end.

(** [AluOp], bpfvm/src/bpf.rs:52-65 *)
Inductive AluOp := ADD | SUB | MUL | DIV | OR | AND | LSH | RSH | MOD | XOR.
Definition aluop_code (o : AluOp) : N :=
  match o with
  | ADD => BPF_ADD | SUB => BPF_SUB | MUL => BPF_MUL | DIV => BPF_DIV | OR => BPF_OR
  | AND => BPF_AND | LSH => BPF_LSH | RSH => BPF_RSH | MOD => BPF_MOD | XOR => BPF_XOR
  end.

(** [JmpOp], bpfvm/src/bpf.rs:67-75 *)
Inductive JmpOp := JA | JEQ | JGT | JGE | JSET.
Definition jmpop_code (o : JmpOp) : N :=
  match o with
  | JA => BPF_JA | JEQ => BPF_JEQ | JGT => BPF_JGT | JGE => BPF_JGE | JSET => BPF_JSET
  end.

(** [bpf_stmt], bpfvm/src/bpf.rs:90-97 *)
Definition bpf_stmt (code val : N) : sock_filter :=
  {| sf_code := as_u16 code; sf_jt := 0; sf_jf := 0; sf_k := val |}.

(** [bpf_stmt_w], bpfvm/src/bpf.rs:99-101 *)
Definition bpf_stmt_w (code val : N) : sock_filter :=
  bpf_stmt (N.lor code WordSize_U32) val.

(** [bpf_ld], bpfvm/src/bpf.rs:103-105 *)
Definition bpf_ld (mode : Mode) (val : N) : sock_filter :=
  bpf_stmt_w (N.lor BPF_LD (mode_code mode)) val.

(** [bpf_ldx], bpfvm/src/bpf.rs:107-109 *)
Definition bpf_ldx (mode : Mode) (val : N) : sock_filter :=
  bpf_stmt_w (N.lor BPF_LDX (mode_code mode)) val.

(** [bpf_st], bpfvm/src/bpf.rs:111-113 *)
Definition bpf_st (mode : Mode) (val : N) : sock_filter :=
  bpf_stmt_w (N.lor BPF_ST (mode_code mode)) val.

(** [bpf_stx], bpfvm/src/bpf.rs:115-117 *)
Definition bpf_stx (mode : Mode) (val : N) : sock_filter :=
  bpf_stmt_w (N.lor BPF_STX (mode_code mode)) val.

(** [bpf_alu], bpfvm/src/bpf.rs:119-121 *)
Definition bpf_alu (op : AluOp) (src : Src) (val : N) : sock_filter :=
  bpf_stmt_w (N.lor (N.lor BPF_ALU (aluop_code op)) (src_code src)) val.

(** [bpf_ret], bpfvm/src/bpf.rs:123-125 *)
Definition bpf_ret (retval : Src) (val : N) : sock_filter :=
  bpf_stmt_w (N.lor BPF_RET (src_code retval)) val.

(** [bpf_jmp], bpfvm/src/bpf.rs:127-135 *)
Definition bpf_jmp (op : JmpOp) (k jt jf : N) : sock_filter :=
  {| sf_code := as_u16 (N.lor BPF_JMP (jmpop_code op)); sf_jt := jt; sf_jf := jf; sf_k := k |}.
