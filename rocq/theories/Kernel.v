(** ENVIRONMENT MODEL (not code of /repo): the part of the Linux kernel that a pledge talks to.

    - validity checks applied to a classic-BPF seccomp filter: [bpf_check_classic] and
      [check_load_and_stores] (net/core/filter.c), [seccomp_check_filter] and
      [seccomp_prepare_filter] / [seccomp_attach_filter] (kernel/seccomp.c);
    - evaluation of an accepted filter, and of a stack of filters ([seccomp_run_filters]);
    - what the resulting action does to the call ([__seccomp_filter]).

    This is the assumed behaviour of the runtime; it is part of the trusted base. *)
From Coq Require Import NArith ZArith List Bool.
From Verif Require Import Libc Machine Bpf Vm.
Import ListNotations.
Local Open Scope N_scope.

(** * Instructions *)

(** Arithmetic operations and comparisons of [seccomp_check_filter] (environment). *)
Inductive kalu := KAdd | KSub | KMul | KDiv | KOr | KAnd | KLsh | KRsh | KXor.
Inductive kcmp := KJeq | KJgt | KJge | KJset.

(** The instructions admitted by [seccomp_check_filter] (all of them are in the table of
    [chk_code_allowed]); the boolean says "operand is the index register X". *)
Inductive kinsn :=
| KLdAbs | KLdLen | KLdxLen | KLdImm | KLdxImm | KLdMem | KLdxMem | KSt | KStx
| KAlu (op : kalu) (x : bool) | KNeg
| KJa | KJcc (c : kcmp) (x : bool)
| KTax | KTxa
| KRetK | KRetA.

(** Exact opcode to instruction; everything else is refused with EINVAL.  (MOD, packet loads,
    byte and half-word loads are valid socket filters but not seccomp filters.) *)
Definition kdecode (code : N) : option kinsn :=
  match code with
  | 0x20 => Some KLdAbs | 0x80 => Some KLdLen | 0x81 => Some KLdxLen
  | 0x00 => Some KLdImm | 0x01 => Some KLdxImm | 0x60 => Some KLdMem | 0x61 => Some KLdxMem
  | 0x02 => Some KSt | 0x03 => Some KStx
  | 0x04 => Some (KAlu KAdd false) | 0x0c => Some (KAlu KAdd true)
  | 0x14 => Some (KAlu KSub false) | 0x1c => Some (KAlu KSub true)
  | 0x24 => Some (KAlu KMul false) | 0x2c => Some (KAlu KMul true)
  | 0x34 => Some (KAlu KDiv false) | 0x3c => Some (KAlu KDiv true)
  | 0x44 => Some (KAlu KOr false) | 0x4c => Some (KAlu KOr true)
  | 0x54 => Some (KAlu KAnd false) | 0x5c => Some (KAlu KAnd true)
  | 0x64 => Some (KAlu KLsh false) | 0x6c => Some (KAlu KLsh true)
  | 0x74 => Some (KAlu KRsh false) | 0x7c => Some (KAlu KRsh true)
  | 0xa4 => Some (KAlu KXor false) | 0xac => Some (KAlu KXor true)
  | 0x84 => Some KNeg
  | 0x05 => Some KJa
  | 0x15 => Some (KJcc KJeq false) | 0x1d => Some (KJcc KJeq true)
  | 0x25 => Some (KJcc KJgt false) | 0x2d => Some (KJcc KJgt true)
  | 0x35 => Some (KJcc KJge false) | 0x3d => Some (KJcc KJge true)
  | 0x45 => Some (KJcc KJset false) | 0x4d => Some (KJcc KJset true)
  | 0x07 => Some KTax | 0x87 => Some KTxa
  | 0x06 => Some KRetK | 0x16 => Some KRetA
  | _ => None
  end.

(** * Validity checks *)

(** sizeof(struct seccomp_data) *)
Definition SECCOMP_DATA_SIZE : N := 64.
Definition BPF_MAXINSNS : N := 4096.

(** Per-instruction checks; [left] is the number of instructions after this one, i.e.
    flen - pc - 1. *)
Definition check_insn (f : sock_filter) (left : N) : bool :=
  match kdecode (sf_code f) with
  | None => false
  | Some KLdAbs => (sf_k f <? SECCOMP_DATA_SIZE) && (sf_k f mod 4 =? 0)
  | Some (KAlu KDiv false) => negb (sf_k f =? 0)
  | Some (KAlu KLsh false) | Some (KAlu KRsh false) => sf_k f <? 32
  | Some KLdMem | Some KLdxMem | Some KSt | Some KStx => sf_k f <? BPF_MEMWORDS
  | Some KJa => sf_k f <? left
  | Some (KJcc _ _) => (sf_jt f <? left) && (sf_jf f <? left)
  | Some _ => true
  end.

(** The loop of [bpf_check_classic] over a filter. *)
Fixpoint check_insns (prog : list sock_filter) : bool :=
  match prog with
  | [] => true
  | f :: rest => check_insn f (N.of_nat (length rest)) && check_insns rest
  end.

(** "Last instruction must be a RET code". *)
Fixpoint ends_in_ret (prog : list sock_filter) : bool :=
  match prog with
  | [] => false
  | [f] => match kdecode (sf_code f) with Some KRetK | Some KRetA => true | _ => false end
  | _ :: rest => ends_in_ret rest
  end.

(** [check_load_and_stores]: no load from a scratch cell that some path has not written.
    [memvalid] is a 16-bit set of cells; [masks] are the sets recorded for the instructions
    from the current one on (missing ones are all-ones). *)
Definition all_valid : N := 0xffff.
Fixpoint mask_at (masks : list N) (i : nat) (v : N) : list N :=
  match i with
  | O => match masks with [] => [v] | m :: ms => N.land m v :: ms end
  | S i' => match masks with
            | [] => all_valid :: mask_at [] i' v
            | m :: ms => m :: mask_at ms i' v
            end
  end.

(** The loop of [check_load_and_stores]. *)
Fixpoint check_mem (prog : list sock_filter) (memvalid : N) (masks : list N) : bool :=
  match prog with
  | [] => true
  | f :: rest =>
      let m := match masks with [] => all_valid | m :: _ => m end in
      let ms := tl masks in
      let mv := N.land memvalid m in
      match kdecode (sf_code f) with
      | Some KSt | Some KStx => check_mem rest (N.lor mv (N.shiftl 1 (sf_k f))) ms
      | Some KLdMem | Some KLdxMem => N.testbit mv (sf_k f) && check_mem rest mv ms
      | Some KJa => check_mem rest all_valid (mask_at ms (N.to_nat (sf_k f)) mv)
      | Some (KJcc _ _) =>
          check_mem rest all_valid
            (mask_at (mask_at ms (N.to_nat (sf_jt f)) mv) (N.to_nat (sf_jf f)) mv)
      | _ => check_mem rest mv ms
      end
  end.

(** Acceptance of a filter by prctl(PR_SET_SECCOMP) (EINVAL otherwise). *)
Definition kernel_accepts (prog : list sock_filter) : bool :=
  (0 <? N.of_nat (length prog)) && (N.of_nat (length prog) <=? BPF_MAXINSNS)
  && check_insns prog && ends_in_ret prog && check_mem prog 0 [].

(** * Evaluation *)

(** 32-bit ALU; [None] is the run-time division by zero, which ends the filter with 0. *)
Definition kalu_eval (op : kalu) (a b : N) : option N :=
  match op with
  | KAdd => Some ((a + b) mod u32_mod)
  | KSub => Some ((a + u32_mod - b) mod u32_mod)
  | KMul => Some ((a * b) mod u32_mod)
  | KDiv => if b =? 0 then None else Some (a / b)
  | KOr => Some (N.lor a b)
  | KAnd => Some (N.land a b)
  | KLsh => Some (N.shiftl a (b mod 32) mod u32_mod)
  | KRsh => Some (N.shiftr a (b mod 32))
  | KXor => Some (N.lxor a b)
  end.

(** The comparisons of [___bpf_prog_run] as classic BPF uses them (unsigned). *)
Definition kcmp_eval (c : kcmp) (a b : N) : bool :=
  match c with
  | KJeq => a =? b
  | KJgt => b <? a
  | KJge => b <=? a
  | KJset => negb (N.land a b =? 0)
  end.

(** Reading a scratch cell. *)
Definition kload (mem : list N) (i : N) : N := nth (N.to_nat i) mem 0.

(** Evaluation of a filter: [skip] instructions are jumped over first (jumps only go forward).
    [words] are the sixteen words of the seccomp_data record, [mem] the scratch memory.
    Running off the end and undecodable instructions cannot happen in an accepted filter; they
    yield 0 (KILL_THREAD). *)
Fixpoint keval (prog : list sock_filter) (skip : N) (a x : N) (mem words : list N) : N :=
  match prog with
  | [] => 0
  | f :: rest =>
      if negb (skip =? 0) then keval rest (skip - 1) a x mem words
      else
        let k := sf_k f in
        match kdecode (sf_code f) with
        | None => 0
        | Some KLdAbs => keval rest 0 (nth (N.to_nat (k / 4)) words 0) x mem words
        | Some KLdLen => keval rest 0 SECCOMP_DATA_SIZE x mem words
        | Some KLdxLen => keval rest 0 a SECCOMP_DATA_SIZE mem words
        | Some KLdImm => keval rest 0 k x mem words
        | Some KLdxImm => keval rest 0 a k mem words
        | Some KLdMem => keval rest 0 (kload mem k) x mem words
        | Some KLdxMem => keval rest 0 a (kload mem k) mem words
        | Some KSt => keval rest 0 a x (list_set mem (N.to_nat k) a) words
        | Some KStx => keval rest 0 a x (list_set mem (N.to_nat k) x) words
        | Some (KAlu op sx) =>
            match kalu_eval op a (if sx then x else k) with
            | Some a' => keval rest 0 a' x mem words
            | None => 0
            end
        | Some KNeg => keval rest 0 ((u32_mod - a) mod u32_mod) x mem words
        | Some KJa => keval rest k a x mem words
        | Some (KJcc c sx) =>
            keval rest (if kcmp_eval c a (if sx then x else k) then sf_jt f else sf_jf f)
                  a x mem words
        | Some KTax => keval rest 0 a a mem words
        | Some KTxa => keval rest 0 x x mem words
        | Some KRetK => k
        | Some KRetA => a
        end
  end.

(** One filter on one record, with the given initial scratch memory. *)
Definition kernel_eval_mem (mem : list N) (prog : list sock_filter) (d : seccomp_data) : N :=
  keval prog 0 0 0 mem (sd_words d).
Definition kernel_eval := kernel_eval_mem (repeat 0 16).

(** * Filter stacks *)

(** ACTION_ONLY(ret): (s32)(ret & SECCOMP_RET_ACTION_FULL). *)
Definition action_bits (ret : N) : N := N.land ret 0xffff0000.
Definition action_rank (ret : N) : Z :=
  let a := Z.of_N (action_bits ret) in
  if (a <? 2 ^ 31)%Z then a else (a - 2 ^ 32)%Z.

(** [seccomp_run_filters]: newest filter first, the smallest action wins, ties keep the
    newest; starts from SECCOMP_RET_ALLOW. *)
Fixpoint run_filters_from (ret : N) (filters : list (list sock_filter)) (d : seccomp_data) : N :=
  match filters with
  | [] => ret
  | f :: fs =>
      let cur := kernel_eval f d in
      run_filters_from (if (action_rank cur <? action_rank ret)%Z then cur else ret) fs d
  end.
Definition run_filters := run_filters_from 0x7fff0000.

(** * What happens to a system call *)

(** The fate of a system call (environment). *)
Inductive entry :=
| Proceed                 (* the call is executed *)
| Fake (ret : Z)          (* the call is skipped and returns this value *)
| Kill (d : death).       (* the caller is killed *)

(** linux/err.h and asm-generic/errno.h *)
Definition MAX_ERRNO : N := 4095.
Definition ENOSYS : N := 38.
Definition EINVAL : N := 22.
Definition EACCES : N := 13.
Definition ENOMEM : N := 12.

(** [__seccomp_filter] with no tracer and no notification listener attached and SIGSYS at its
    default disposition. *)
Definition entry_of (ret : N) : entry :=
  match action_bits ret with
  | 0x7fff0000 => Proceed                                  (* ALLOW *)
  | 0x7ffc0000 => Proceed                                  (* LOG *)
  | 0x00050000 => Fake (- Z.of_N (N.min (N.land ret 0xffff) MAX_ERRNO))  (* ERRNO *)
  | 0x7ff00000 => Fake (- Z.of_N ENOSYS)                   (* TRACE *)
  | 0x7fc00000 => Fake (- Z.of_N ENOSYS)                   (* USER_NOTIF *)
  | 0x00030000 => Kill DeathSigsys                         (* TRAP *)
  | 0x00000000 => Kill DeathThread                         (* KILL_THREAD *)
  | _ => Kill DeathProcess                                 (* KILL_PROCESS and unknown *)
  end.

(** System call entry on a thread with the given filter stack (no filters: no seccomp). *)
Definition syscall_entry (filters : list (list sock_filter)) (d : seccomp_data) : entry :=
  match filters with
  | [] => Proceed
  | _ => entry_of (run_filters filters d)
  end.

(** Who, if anybody, decides about calls that a filter hands over: a tracer (TRACE), a
    notification listener (USER_NOTIF), a SIGSYS handler (TRAP; the call is skipped and the
    handler may put any value in the return register).  A tracer that rewrites the call has it
    filtered again, with TRACE meaning "proceed"; that is a new call with [s_trace = Some Proceed]. *)
Record supervisor := mkSup { s_trace : option entry; s_notif : option entry; s_trap : option Z }.
Definition nobody : supervisor := mkSup None None None.

(** [__seccomp_filter] with such a supervisor attached. *)
Definition entry_under (s : supervisor) (ret : N) : entry :=
  match action_bits ret with
  | 0x7ff00000 => match s_trace s with Some e => e | None => entry_of ret end
  | 0x7fc00000 => match s_notif s with Some e => e | None => entry_of ret end
  | 0x00030000 => match s_trap s with Some r => Fake r | None => entry_of ret end
  | _ => entry_of ret
  end.

(** System call entry with a filter stack and a supervisor. *)
Definition supervised_entry (s : supervisor) (filters : list (list sock_filter))
  (d : seccomp_data) : entry :=
  match filters with
  | [] => Proceed
  | _ => entry_under s (run_filters filters d)
  end.

(** [bpf_convert_filter] (net/core/filter.c): the length of a filter after its translation to the
    kernel's internal instruction set, which is the length [seccomp_attach_filter] adds up.  Three
    instructions of prologue; a constant return becomes two; a division by X gets a zero test; a
    comparison with a constant of 2^31 or more loads it first; a conditional jump with two
    targets other than the next instruction (or a JSET whose true target is the next) becomes
    two.  (bpf_jit_harden, which enlarges filters further, is off.) *)
Definition insn_cost (f : sock_filter) : N :=
  match kdecode (sf_code f) with
  | Some KRetK => 2
  | Some (KAlu KDiv true) => 5
  | Some (KJcc c x) =>
      (if negb x && (2 ^ 31 <=? sf_k f) then 1 else 0) +
      (if sf_jf f =? 0 then 1
       else if (sf_jt f =? 0) && match c with KJset => false | _ => true end then 1
       else 2)
  | _ => 1
  end.
Definition prog_cost (prog : list sock_filter) : N :=
  3 + fold_right (fun f s => insn_cost f + s) 0 prog.

(** [seccomp_attach_filter]: total size along the stack, 4 instructions of overhead per
    filter already there; MAX_INSNS_PER_PATH is 2^18 / sizeof(struct sock_filter) = 32768. *)
Definition MAX_INSNS_PER_PATH : N := 32768.
Definition stack_cost (filters : list (list sock_filter)) : N :=
  fold_right (fun f s => prog_cost f + 4 + s) 0 filters.

(** Installing [prog] on top of [filters]: errno or the new stack.  [priv] is
    "no_new_privs is set or the caller has CAP_SYS_ADMIN"; [oom] is a shortage of memory. *)
Definition attach_filter (oom priv : bool) (filters : list (list sock_filter))
  (prog : list sock_filter) : N + list (list sock_filter) :=
  if (N.of_nat (length prog) =? 0) || (BPF_MAXINSNS <? N.of_nat (length prog)) then inl EINVAL
  else if negb priv then inl EACCES
  else if oom then inl ENOMEM
  else if negb (kernel_accepts prog) then inl EINVAL
  else if MAX_INSNS_PER_PATH <? prog_cost prog + stack_cost filters then inl ENOMEM
  else inr (prog :: filters).

(** Seccomp strict mode as a filter ([__secure_computing_strict] with [mode1_syscalls] and
    [mode1_syscalls_32]): of the 64-bit calls read, write, exit and rt_sigreturn proceed, of the 32-bit
    ones read, write, exit and sigreturn; any other call ends the task. *)
Definition strict_mode : list sock_filter :=
  [ SockFilter 0x20 0 0 4;
    SockFilter 0x15 0 5 0xc000003e;
    SockFilter 0x20 0 0 0;
    SockFilter 0x15 9 0 0; SockFilter 0x15 8 0 1; SockFilter 0x15 7 0 60; SockFilter 0x15 6 7 15;
    SockFilter 0x15 0 6 0x40000003;
    SockFilter 0x20 0 0 0;
    SockFilter 0x15 3 0 3; SockFilter 0x15 2 0 4; SockFilter 0x15 1 0 1; SockFilter 0x15 0 1 119;
    SockFilter 0x06 0 0 0x7fff0000;
    SockFilter 0x06 0 0 0 ].
