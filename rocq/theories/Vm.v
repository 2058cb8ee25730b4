(** Model of bpfvm/src/vm.rs: the BPF virtual machine. Logging calls are omitted. *)
From Coq Require Import NArith List Bool.
From Verif Require Import Libc Machine Bpf.
Import ListNotations.
Local Open Scope N_scope.

(** [BpfVM], bpfvm/src/vm.rs:26-32; [MEMSIZE] is 16 (line 24). *)
Record BpfVM := mkVM {
  vm_pc : N; vm_acc : N; vm_idx : N; vm_mem : list N; vm_prog : list sock_filter }.

(** Assignments to one field, bpfvm/src/vm.rs:110, 120, 131, 139, 142. *)
Definition set_pc (vm : BpfVM) (v : N) : BpfVM :=
  mkVM v (vm_acc vm) (vm_idx vm) (vm_mem vm) (vm_prog vm).
Definition set_acc (vm : BpfVM) (v : N) : BpfVM :=
  mkVM (vm_pc vm) v (vm_idx vm) (vm_mem vm) (vm_prog vm).
Definition set_idx (vm : BpfVM) (v : N) : BpfVM :=
  mkVM (vm_pc vm) (vm_acc vm) v (vm_mem vm) (vm_prog vm).
Definition set_mem (vm : BpfVM) (v : list N) : BpfVM :=
  mkVM (vm_pc vm) (vm_acc vm) (vm_idx vm) v (vm_prog vm).

(** bpfvm/src/vm.rs:24 *)
Definition MEMSIZE : nat := N.to_nat BPF_MEMWORDS.

(** [fetch_u32], bpfvm/src/vm.rs:34-38: byte offset to word index, unchecked alignment. *)
Definition fetch_u32 (data : list N) (off : N) : res bpf_error N := index data (off / 4).

(** [fetch_u16] and [fetch_u8], bpfvm/src/vm.rs:40-48 *)
Definition fetch_u16 (data : list N) (off : N) : res bpf_error N := Err UnsupportedDataOffset.
Definition fetch_u8 (data : list N) (off : N) : res bpf_error N := Err UnsupportedDataOffset.

(** [fetch_data], bpfvm/src/vm.rs:50-57 *)
Definition fetch_data (data : list N) (off size : N) : res bpf_error N :=
  if size =? BPF_W then fetch_u32 data off
  else if size =? BPF_H then fetch_u16 data off
  else if size =? BPF_B then fetch_u8 data off
  else Err (InvalidInstructionCode size).

(** [BpfVM::new], bpfvm/src/vm.rs:66-78 *)
Definition vm_new (prog : list sock_filter) : res bpf_error BpfVM :=
  if 65535 <? N.of_nat (length prog)
  then Err (ProgramTooLong (N.of_nat (length prog)))
  else Ok (mkVM 0 0 0 (repeat 0 MEMSIZE) prog).

(** [BpfVM::reset], bpfvm/src/vm.rs:80-86 *)
Definition vm_reset (vm : BpfVM) : BpfVM := mkVM 0 0 0 (repeat 0 MEMSIZE) (vm_prog vm).

(** [BpfVM::fetch_src], bpfvm/src/vm.rs:88-104 *)
Definition fetch_src (vm : BpfVM) (src : N) (curr : sock_filter) : res bpf_error N :=
  if src =? BPF_K then Ok (sf_k curr)
  else if src =? BPF_X then Ok (vm_idx vm)
  else if src =? BPF_A then Ok (vm_acc vm)
  else Err (InvalidInstructionCode (sf_code curr)).

(** The ALU match of [execute], bpfvm/src/vm.rs:148-194 *)
Definition alu (prof : profile) (inst op acc sval : N) : res bpf_error N :=
  if op =? BPF_ADD then add_u32 prof acc sval
  else if op =? BPF_SUB then sub_u32 prof acc sval
  else if op =? BPF_MUL then mul_u32 prof acc sval
  else if op =? BPF_DIV then div_u32 acc sval
  else if op =? BPF_OR then Ok (N.lor acc sval)
  else if op =? BPF_AND then Ok (N.land acc sval)
  else if op =? BPF_LSH then shl_u32 prof acc sval
  else if op =? BPF_RSH then shr_u32 prof acc sval
  else if op =? BPF_MOD then rem_u32 acc sval
  else if op =? BPF_XOR then Ok (N.lxor acc sval)
  else if op =? BPF_NEG then Err (UnsupportedInstruction BPF_NEG)
  else Err (UnknownInstruction inst).

(** The effect of one fetched instruction [curr]; [vm] already has its pc incremented.
    bpfvm/src/vm.rs:112-260.  The first component is the returned [Result<Option<u32>>], the
    second the state left behind (on [Err]/[Panic] too: the fields are public and the VM can be
    reused).  usize additions to pc cannot overflow: pc is at most 65535 + 2^32. *)
Definition exec_insn (prof : profile) (curr : sock_filter) (vm : BpfVM) (data : list N)
  : res bpf_error (option N) * BpfVM :=
  let code := sf_code curr in
  let k := sf_k curr in
  let inst := N.land code 0x7 in
  let size := N.land code 0x18 in
  let mode := N.land code 0xe0 in
  let op := N.land code 0xf0 in
  let src := N.land code 0x08 in
  (* a computed value, or the early return of [?] / a panic *)
  let store (r : res bpf_error N) (upd : N -> BpfVM) :=
    match r with
    | Ok v => (Ok None, upd v)
    | Err e => (Err e, vm)
    | Panic => (Panic, vm)
    | Died d => (Died d, vm)
    end in
  let store_mem (r : res bpf_error (list N)) :=
    match r with
    | Ok m => (Ok None, set_mem vm m)
    | Err e => (Err e, vm)
    | Panic => (Panic, vm)
    | Died d => (Died d, vm)
    end in
  let branch (b : bool) :=
    (Ok None, set_pc vm (vm_pc vm + (if b then sf_jt curr else sf_jf curr))) in
  if inst =? BPF_LD then
    store (if mode =? BPF_IMM then Ok k
           else if mode =? BPF_ABS then fetch_data data k size
           else if mode =? BPF_IND then (o <- add_u32 prof (vm_idx vm) k ;; fetch_data data o size)
           else if mode =? BPF_MEM then index (vm_mem vm) k
           else if mode =? BPF_LEN then Ok (as_u32 (N.of_nat (length data)))
           else Err (InvalidInstructionCode code)) (set_acc vm)
  else if inst =? BPF_LDX then
    store (if mode =? BPF_IMM then Ok k
           else if mode =? BPF_MEM then index (vm_mem vm) k
           else if mode =? BPF_LEN then Ok (as_u32 (N.of_nat (length data)))
           else Err (InvalidInstructionCode code)) (set_idx vm)
  else if inst =? BPF_ST then store_mem (index_set (vm_mem vm) k (vm_acc vm))
  else if inst =? BPF_STX then store_mem (index_set (vm_mem vm) k (vm_idx vm))
  else if inst =? BPF_ALU then
    store (sval <- fetch_src vm src curr ;; alu prof inst op (vm_acc vm) sval) (set_acc vm)
  else if inst =? BPF_JMP then
    if op =? BPF_JA then (Ok None, set_pc vm (vm_pc vm + k))
    else if op =? BPF_JEQ then branch (vm_acc vm =? k)
    else if op =? BPF_JGT then branch (k <? vm_acc vm)
    else if op =? BPF_JGE then branch (k <=? vm_acc vm)
    else if op =? BPF_JSET then branch (0 <? N.land (vm_acc vm) k)
    else (Err (UnknownInstruction inst), vm)
  else if inst =? BPF_RET then
    let rsrc := N.land code 0x18 in
    match fetch_src vm rsrc curr with
    | Ok v => (Ok (Some v), vm)
    | Err e => (Err e, vm)
    | Panic => (Panic, vm)
    | Died d => (Died d, vm)
    end
  else if inst =? BPF_MISC then (Err (UnsupportedInstruction inst), vm)
  else (Err (UnknownInstruction inst), vm).

(** [BpfVM::execute], bpfvm/src/vm.rs:106-261: fetching past the end panics before the pc
    is incremented. *)
Definition execute (prof : profile) (vm : BpfVM) (data : list N)
  : res bpf_error (option N) * BpfVM :=
  match index (E := bpf_error) (vm_prog vm) (vm_pc vm) with
  | Ok curr => exec_insn prof curr (set_pc vm (vm_pc vm + 1)) data
  | _ => (Panic, vm)
  end.

(** Result of the loop of [run]; [OutOfFuel] is not a behaviour of the code, it marks that the
    bound given to the model was too small (Theorem C06 shows it never appears). *)
Inductive loop_result :=
| Finished (r : res bpf_error N)
| OutOfFuel.

(** The loop of [BpfVM::run], bpfvm/src/vm.rs:268-275 *)
Fixpoint run_loop (fuel : nat) (prof : profile) (vm : BpfVM) (data : list N)
  : loop_result * BpfVM :=
  if vm_pc vm <? N.of_nat (length (vm_prog vm)) then
    match fuel with
    | O => (OutOfFuel, vm)
    | S fuel' =>
        match execute prof vm data with
        | (Ok (Some r), vm') => (Finished (Ok r), vm')
        | (Ok None, vm') => run_loop fuel' prof vm' data
        | (Err e, vm') => (Finished (Err e), vm')
        | (Panic, vm') => (Finished Panic, vm')
        | (Died d, vm') => (Finished (Died d), vm')
        end
    end
  else (Finished (Ok 0), vm).

(** [BpfVM::run], bpfvm/src/vm.rs:263-276 *)
Definition vm_run (prof : profile) (vm : BpfVM) (data : list N) : loop_result * BpfVM :=
  run_loop (length (vm_prog vm)) prof (vm_reset vm) data.

(** [libc::seccomp_data]: nr i32 (held here as its u32 bit pattern), arch u32,
    instruction_pointer u64, args [u64; 6]. *)
Record seccomp_data := mkSD {
  sd_nr : N; sd_arch : N; sd_ip : N;
  sd_a0 : N; sd_a1 : N; sd_a2 : N; sd_a3 : N; sd_a4 : N; sd_a5 : N }.

(** The two 32-bit halves of a 64-bit field, as the little-endian layout of the record has them
    (bpfvm/src/seccomp.rs:105-125 relies on it). *)
Definition lo32 (n : N) : N := n mod u32_mod.
Definition hi32 (n : N) : N := (n / u32_mod) mod u32_mod.

(** The sixteen little-endian words of the record. *)
Definition sd_words (d : seccomp_data) : list N :=
  [ lo32 (sd_nr d); lo32 (sd_arch d); lo32 (sd_ip d); hi32 (sd_ip d);
    lo32 (sd_a0 d); hi32 (sd_a0 d); lo32 (sd_a1 d); hi32 (sd_a1 d);
    lo32 (sd_a2 d); hi32 (sd_a2 d); lo32 (sd_a3 d); hi32 (sd_a3 d);
    lo32 (sd_a4 d); hi32 (sd_a4 d); lo32 (sd_a5 d); hi32 (sd_a5 d) ].

(** [any_to_data::<T>], bpfvm/src/vm.rs:59-63: a slice of [size_of::<T>()] u32 elements starting
    at the object.  [memory i] is the i-th 4-byte word from the object's address on, so the
    object itself is only the first [size / 4] of them. *)
Definition any_slice (size : nat) (memory : nat -> N) : list N := map memory (seq 0 size).

(** [any_to_data(&seccomp_data)].  The slice is given
    [size_of::<T>()] = 64 elements of 4 bytes although the record has 64 bytes, so the last 48
    words are whatever follows the record in memory: the parameter [beyond] (48 words).
    ([any_to_data_slice] in RunProofs.v relates it to [any_slice].) *)
Definition any_to_data (d : seccomp_data) (beyond : list N) : list N := sd_words d ++ beyond.
