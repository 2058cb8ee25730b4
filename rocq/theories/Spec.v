(** SPECIFICATION.  Nothing here is code of /repo: these are the independent notions in which the
    property theorems are stated. *)
From Coq Require Import NArith ZArith String List Bool.
From Verif Require Import Libc Machine Bpf SeccompRet Asm Vm Promises Filters Kernel World Testkit.
Import ListNotations.
Local Open Scope N_scope.

(** * Meaning of a token program (C01-C05) *)

(** Registers and scratch memory. *)
Record tstate := mkT { t_acc : N; t_idx : N; t_mem : list N }.
Definition t_zero : tstate := mkT 0 0 (repeat 0 16).

(** Number of instructions between the start of [post] and the last definition of [l] in it. *)
Fixpoint distance (l : string) (post : list Operation) : option N :=
  match post with
  | [] => None
  | Label l' :: post' =>
      match distance l post' with
      | Some n => Some n
      | None => if String.eqb l l' then Some 0 else None
      end
  | _ :: post' =>
      match distance l post' with
      | Some n => Some (n + 1)
      | None => None
      end
  end.

(** The word of the input at byte offset [off]. *)
Definition input_word (data : list N) (off : N) : res bpf_error N :=
  match nth_error data (N.to_nat (off / 4)) with
  | Some w => Ok w
  | None => Panic
  end.
(** Scratch memory: reading and writing cell [i]. *)
Definition cell (m : list N) (i : N) : res bpf_error N :=
  if i <? 16 then match nth_error m (N.to_nat i) with Some w => Ok w | None => Panic end
  else Panic.

Definition written (m : list N) (i : N) (v : N) : list N :=
  firstn (N.to_nat i) m ++ v :: skipn (S (N.to_nat i)) m.

(** What a result that does not fit in 32 bits becomes, by build profile. *)
Definition overflowing (prof : profile) (wrapped : N) : res bpf_error N :=
  match prof with Debug => Panic | Release => Ok wrapped end.
Definition alu_meaning (prof : profile) (op : AluOp) (a b : N) : res bpf_error N :=
  match op with
  | ADD => if a + b <? 2 ^ 32 then Ok (a + b) else overflowing prof ((a + b) mod 2 ^ 32)
  | SUB => if b <=? a then Ok (a - b) else overflowing prof ((2 ^ 32 + a - b) mod 2 ^ 32)
  | MUL => if a * b <? 2 ^ 32 then Ok (a * b) else overflowing prof ((a * b) mod 2 ^ 32)
  | DIV => if b =? 0 then Panic else Ok (a / b)
  | OR => Ok (N.lor a b)
  | AND => Ok (N.land a b)
  | LSH => if b <? 32 then Ok ((a * 2 ^ b) mod 2 ^ 32)
           else overflowing prof ((a * 2 ^ (b mod 32)) mod 2 ^ 32)
  | RSH => if b <? 32 then Ok (a / 2 ^ b) else overflowing prof (a / 2 ^ (b mod 32))
  | MOD => if b =? 0 then Panic else Ok (a mod b)
  | XOR => Ok (N.lxor a b)
  end.

Definition src_value (s : Src) (v : N) (st : tstate) : N :=
  match s with Const => v | Idx => t_idx st | Acc => t_acc st end.

Definition cmp_meaning (op : JmpOp) (a k : N) : bool :=
  match op with
  | JA => true
  | JEQ => a =? k
  | JGT => k <? a
  | JGE => k <=? a
  | JSET => negb (N.land a k =? 0)
  end.

(** What a token that is neither a label, a jump nor a return does to the state. *)
Definition token_effect (prof : profile) (op : Operation) (st : tstate) (data : list N)
  : res bpf_error tstate :=
  let acc v := mkT v (t_idx st) (t_mem st) in
  let idx v := mkT (t_acc st) v (t_mem st) in
  let len := N.of_nat (length data) mod 2 ^ 32 in
  match op with
  | Load IMM k => Ok (acc k)
  | Load ABS k => v <- input_word data k ;; Ok (acc v)
  | Load IND k => o <- alu_meaning prof ADD (t_idx st) k ;; v <- input_word data o ;; Ok (acc v)
  | Load MEM k => v <- cell (t_mem st) k ;; Ok (acc v)
  | Load LEN _ => Ok (acc len)
  | LoadIdx IMM k => Ok (idx k)
  | LoadIdx MEM k => v <- cell (t_mem st) k ;; Ok (idx v)
  | LoadIdx LEN _ => Ok (idx len)
  | LoadIdx ABS _ => Err (InvalidInstructionCode 0x21)
  | LoadIdx IND _ => Err (InvalidInstructionCode 0x41)
  | Store _ k =>
      if k <? 16 then Ok (mkT (t_acc st) (t_idx st) (written (t_mem st) k (t_acc st)))
      else Panic
  | StoreIdx _ k =>
      if k <? 16 then Ok (mkT (t_acc st) (t_idx st) (written (t_mem st) k (t_idx st)))
      else Panic
  | Alu op s v => r <- alu_meaning prof op (t_acc st) (src_value s v st) ;; Ok (acc r)
  | _ => Ok st
  end.

(** Interpretation of a token program.  [wait = Some l]: a jump to [l] has been taken; tokens
    are skipped up to the last definition of [l].  Falling off the end yields 0. *)
Fixpoint interp (prof : profile) (prog : list Operation) (wait : option string) (st : tstate)
  (data : list N) : res bpf_error N :=
  match prog with
  | [] => Ok 0
  | op :: rest =>
      match wait with
      | Some l =>
          match op with
          | Label l' =>
              if String.eqb l l' && match distance l rest with None => true | Some _ => false end
              then interp prof rest None st data
              else interp prof rest wait st data
          | _ => interp prof rest wait st data
          end
      | None =>
          match op with
          | Label _ => interp prof rest None st data
          | Return s v => Ok (src_value s v st)
          | JumpTo l => interp prof rest (Some l) st data
          | Jump op k lt lf =>
              interp prof rest (if cmp_meaning op (t_acc st) k then lt else lf) st data
          | _ => st' <- token_effect prof op st data ;; interp prof rest None st' data
          end
      end
  end.

(** Tokens the machine has an encoding for. *)
Definition encodable (op : Operation) : Prop :=
  match op with
  | Alu _ Acc _ => False
  | Jump JA _ _ _ => False
  | _ => True
  end.

(** Every label [op] jumps to is defined in [post] (so its last definition is there), at most
    [255] instructions ahead for a conditional jump and [2^32 - 1] for an absolute one. *)
Definition reaches (post : list Operation) (l : string) (bound : N) : Prop :=
  exists n, distance l post = Some n /\ n <= bound.
Definition jumps_ok (op : Operation) (post : list Operation) : Prop :=
  match op with
  | JumpTo l => reaches post l (2 ^ 32 - 1)
  | Jump _ _ lt lf =>
      (forall l, lt = Some l -> reaches post l 255) /\ (forall l, lf = Some l -> reaches post l 255)
  | _ => True
  end.
Definition well_formed (prog : list Operation) : Prop :=
  forall pre op post, prog = pre ++ op :: post -> encodable op /\ jumps_ok op post.

(** Number of machine instructions a stretch of tokens stands for. *)
Definition instructions (prog : list Operation) : N :=
  N.of_nat (length (filter (fun op => match op with Label _ => false | _ => true end) prog)).

(** Renaming labels (C02). *)
Definition rename_op (f : string -> string) (op : Operation) : Operation :=
  match op with
  | Label l => Label (f l)
  | JumpTo l => JumpTo (f l)
  | Jump o k lt lf => Jump o k (option_map f lt) (option_map f lf)
  | _ => op
  end.
Definition rename_error (f : string -> string) (e : bpf_error) : bpf_error :=
  match e with UnknownLabelReference l => UnknownLabelReference (f l) | _ => e end.

(** Label references in program order, each with the tokens after the referring jump (C03). *)
Definition op_refs (op : Operation) : list string :=
  let opt o := match o with Some l => [l] | None => [] end in
  match op with
  | JumpTo l => [l]
  | Jump _ _ lt lf => opt lt ++ opt lf
  | _ => []
  end.
Fixpoint refs (prog : list Operation) : list (string * list Operation) :=
  match prog with
  | [] => []
  | op :: post => map (fun l => (l, post)) (op_refs op) ++ refs post
  end.
(** A reference compile() gets past: the label is defined after the jump, or anywhere when
    arithmetic wraps. *)
Definition passable (prof : profile) (prog : list Operation) (r : string * list Operation) : Prop :=
  In (Label (fst r)) (snd r) \/ (prof = Release /\ In (Label (fst r)) prog).

(** The state of a VM, as a token program sees it (C05). *)
Definition vm_state (vm : BpfVM) : tstate := mkT (vm_acc vm) (vm_idx vm) (vm_mem vm).
Definition with_state (vm : BpfVM) (st : tstate) : BpfVM :=
  mkVM (vm_pc vm) (t_acc st) (t_idx st) (t_mem st) (vm_prog vm).

(** What executing the instruction [f] emitted for a token should do. *)
Definition exec_token (prof : profile) (op : Operation) (f : sock_filter) (vm : BpfVM) (data : list N)
  : res bpf_error (option N) * BpfVM :=
  match op with
  | Return s v => (Ok (Some (src_value s v (vm_state vm))), vm)
  | JumpTo _ => (Ok None, set_pc vm (vm_pc vm + sf_k f))
  | Jump o k _ _ =>
      (Ok None, set_pc vm (vm_pc vm + (if cmp_meaning o (vm_acc vm) k then sf_jt f else sf_jf f)))
  | _ => match token_effect prof op (vm_state vm) data with
         | Ok st => (Ok None, with_state vm st)
         | Err e => (Err e, vm)
         | Panic => (Panic, vm)
         | Died d => (Died d, vm)
         end
  end.

(** The operation whose number is that of [o] with bit 4 set, if there is one (C05). *)
Definition with_bit4 (o : AluOp) : option AluOp :=
  match o with
  | ADD | SUB => Some SUB
  | MUL | DIV => Some DIV
  | OR | AND => Some AND
  | LSH | RSH => Some RSH
  | MOD => Some MOD
  | XOR => None
  end.

(** * Using the VM (C06-C10) *)

(** [n] successive instructions executed by the loop of run(), none of them ending it. *)
Fixpoint executed (n : nat) (prof : profile) (vm : BpfVM) (data : list N) : option BpfVM :=
  match n with
  | O => Some vm
  | S n' =>
      if vm_pc vm <? N.of_nat (length (vm_prog vm)) then
        match execute prof vm data with
        | (Ok None, vm') => executed n' prof vm' data
        | _ => None
        end
      else None
  end.

(** Operations on a VM. *)
Inductive vm_op := VRun (data : list N) | VReset | VStep (data : list N).
Definition vm_apply (prof : profile) (vm : BpfVM) (o : vm_op) : BpfVM :=
  match o with
  | VRun data => snd (vm_run prof vm data)
  | VReset => vm_reset vm
  | VStep data => snd (execute prof vm data)
  end.

(** Machine words, and instructions as the kernel ABI lays them out. *)
Definition word (n : N) : Prop := n < 2 ^ 32.
Definition words (l : list N) : Prop := Forall word l.
Definition wf_insn (f : sock_filter) : Prop :=
  sf_code f < 2 ^ 16 /\ sf_jt f < 2 ^ 8 /\ sf_jf f < 2 ^ 8 /\ word (sf_k f).
Definition vm_op_data (o : vm_op) : list N :=
  match o with VRun data => data | VReset => [] | VStep data => data end.

(** * System calls and policies (C14-C35) *)

(** A record as the kernel delivers it. *)
Definition wf_data (d : seccomp_data) : Prop :=
  sd_nr d < 2 ^ 32 /\ sd_arch d < 2 ^ 32 /\ sd_ip d < 2 ^ 64 /\
  sd_a0 d < 2 ^ 64 /\ sd_a1 d < 2 ^ 64 /\ sd_a2 d < 2 ^ 64 /\ sd_a3 d < 2 ^ 64 /\
  sd_a4 d < 2 ^ 64 /\ sd_a5 d < 2 ^ 64.
Definition X86_64 : N := 0xc000003e.
Definition native (d : seccomp_data) : Prop := wf_data d /\ sd_arch d = X86_64.

(** None of the bits of [mask] is set in [v]. *)
Definition clear (mask v : N) : Prop := N.land v mask = 0.
(** All of the bits of [mask] are set in [v]. *)
Definition has (mask v : N) : Prop := N.land v mask = mask.

(** Conditions on arguments used by the policy. *)
Inductive argrule :=
| AnyArgs | FcntlBasic | FcntlLocks | MapNoExec | MapAny | ProtNoExec | SendNoAddr
| IoctlFile | IoctlTerm | IoctlSock | SelfPid | SelfTid | PrctlBasic | NewThread | NewTask
| LimitPtrLow | OpenRead | OpenWrite | OpenCreate | ModeArg1 | SockInet | SockUnix
| OptGet | OptSet.

Definition suid_bits : N := 0xe00. (* octal 7000: S_ISUID, S_ISGID, S_ISVTX *)
Definition fcntl_locks : list N := [5; 6; 7].
Definition ioctl_file : list N := [0x541b; 0x5421; 0x5450; 0x5451].
Definition ioctl_term : list N :=
  [0x5401; 0x5402; 0x5403; 0x5404; 0x5413; 0x5410; 0x540f; 0x5414; 0x540b; 0x540a; 0x5409; 0x5427].
Definition ioctl_sock : list N := [0x8905].
Definition prctl_basic : list N := [15; 16; 21; 22; 38; 23; 24].
Definition getsockopt_levels : list N := [SOL_SOCKET; SOL_TCP].
Definition getsockopt_options : list N :=
  [SO_TYPE; SO_ERROR; SO_REUSEPORT; SO_REUSEADDR; SO_KEEPALIVE; SO_RCVTIMEO; SO_SNDTIMEO].
Definition setsockopt_levels : list N := [SOL_IP; SOL_SOCKET; SOL_TCP].
Definition setsockopt_options : list N :=
  [TCP_NODELAY; TCP_CORK; TCP_KEEPIDLE; TCP_KEEPINTVL; SO_TYPE; SO_ERROR; SO_DONTROUTE;
   SO_REUSEPORT; SO_REUSEADDR; SO_KEEPALIVE; SO_RCVTIMEO; SO_SNDTIMEO; IP_RECVTTL; IP_RECVERR;
   TCP_FASTOPEN; TCP_FASTOPEN_CONNECT].

(** socket(2) type argument up to SOCK_NONBLOCK (bit 11) and SOCK_CLOEXEC (bit 19). *)
Definition sock_type (t kind : N) : Prop := N.ldiff (lo32 t) (2 ^ 11 + 2 ^ 19) = kind.

(** [pid] and [tid]: the ids observed when the filter was built. *)
Definition args_ok (r : argrule) (pid tid : N) (d : seccomp_data) : Prop :=
  match r with
  | AnyArgs => True
  | FcntlBasic => lo32 (sd_a1 d) <= 4 \/ lo32 (sd_a1 d) = 1030
  | FcntlLocks => In (lo32 (sd_a1 d)) fcntl_locks
  | MapNoExec =>
      lo32 (sd_a2 d) <= 2 /\
      clear (MAP_LOCKED + MAP_POPULATE + MAP_NONBLOCK + MAP_HUGETLB) (sd_a3 d)
  | MapAny => clear (MAP_LOCKED + MAP_NONBLOCK + MAP_HUGETLB) (sd_a3 d)
  | ProtNoExec => lo32 (sd_a2 d) <= 3
  | SendNoAddr => sd_a4 d = 0
  | IoctlFile => In (lo32 (sd_a1 d)) ioctl_file
  | IoctlTerm => In (lo32 (sd_a1 d)) ioctl_term
  | IoctlSock => In (lo32 (sd_a1 d)) ioctl_sock
  | SelfPid => lo32 (sd_a0 d) = pid
  | SelfTid => lo32 (sd_a0 d) = lo32 tid
  | PrctlBasic => In (lo32 (sd_a0 d)) prctl_basic
  | NewThread =>
      has CLONE_VM (sd_a0 d) /\ has CLONE_FS (sd_a0 d) /\ has CLONE_FILES (sd_a0 d) /\
      has CLONE_THREAD (sd_a0 d) /\ has CLONE_SIGHAND (sd_a0 d) /\
      clear CLONE_NEWNS (sd_a0 d) /\ clear CLONE_PTRACE (sd_a0 d) /\
      clear CLONE_UNTRACED (sd_a0 d)
  | NewTask =>
      clear CLONE_NEWNS (sd_a0 d) /\ clear CLONE_PTRACE (sd_a0 d) /\
      clear CLONE_UNTRACED (sd_a0 d)
  | LimitPtrLow => lo32 (sd_a2 d) = 0
  | OpenRead =>
      clear O_ACCMODE (sd_a2 d) /\ clear O_CREAT (sd_a2 d) /\ clear O_TRUNC (sd_a2 d) /\
      clear (2 ^ 22) (sd_a2 d)
  | OpenWrite =>
      (N.land (sd_a2 d) O_ACCMODE = 1 \/ N.land (sd_a2 d) O_ACCMODE = 2) /\
      clear O_CREAT (sd_a2 d) /\ clear (2 ^ 22) (sd_a2 d)
  | OpenCreate =>
      clear (O_CREAT + 2 ^ 22) (sd_a2 d) \/ clear suid_bits (sd_a3 d)
  | ModeArg1 => clear suid_bits (sd_a1 d)
  | SockInet =>
      (lo32 (sd_a0 d) = AF_INET \/ lo32 (sd_a0 d) = AF_INET6) /\
      (sock_type (sd_a1 d) SOCK_STREAM \/ sock_type (sd_a1 d) SOCK_DGRAM) /\
      In (lo32 (sd_a2 d)) [0; IPPROTO_ICMP; IPPROTO_TCP; IPPROTO_UDP]
  | SockUnix =>
      lo32 (sd_a0 d) = AF_UNIX /\
      (sock_type (sd_a1 d) SOCK_STREAM \/ sock_type (sd_a1 d) SOCK_DGRAM) /\
      lo32 (sd_a2 d) = 0
  | OptGet =>
      In (lo32 (sd_a1 d)) getsockopt_levels /\ In (lo32 (sd_a2 d)) getsockopt_options
  | OptSet =>
      In (lo32 (sd_a1 d)) setsockopt_levels /\ In (lo32 (sd_a2 d)) setsockopt_options
  end.

(** The policy, by system call: under which conditions on the arguments which promises grant it.
    ([Default] is the implicit promise every list contains.) *)
Definition policy : list (N * list (argrule * list Promise)) :=
  [
    (SYS_read, [(AnyArgs, [StdIO; Dns])]);
    (SYS_write, [(AnyArgs, [StdIO])]);
    (SYS_open, [(OpenRead, [RPath]); (OpenWrite, [WPath]); (OpenCreate, [CPath])]);
    (SYS_close, [(AnyArgs, [StdIO; Dns])]);
    (SYS_stat, [(AnyArgs, [RPath; WPath])]);
    (SYS_fstat, [(AnyArgs, [StdIO; RPath; WPath])]);
    (SYS_lstat, [(AnyArgs, [RPath; WPath; TmpPath])]);
    (SYS_poll, [(AnyArgs, [StdIO])]);
    (SYS_lseek, [(AnyArgs, [StdIO])]);
    (SYS_mmap, [(MapNoExec, [StdIO]); (MapAny, [ProtExec])]);
    (SYS_mprotect, [(ProtNoExec, [StdIO]); (AnyArgs, [ProtExec])]);
    (SYS_munmap, [(AnyArgs, [StdIO])]);
    (SYS_brk, [(AnyArgs, [StdIO])]);
    (SYS_rt_sigaction, [(AnyArgs, [StdIO])]);
    (SYS_rt_sigprocmask, [(AnyArgs, [StdIO])]);
    (SYS_rt_sigreturn, [(AnyArgs, [StdIO])]);
    (SYS_ioctl, [(IoctlFile, [StdIO]); (IoctlSock, [Inet]); (IoctlTerm, [Tty])]);
    (SYS_pread64, [(AnyArgs, [StdIO])]);
    (SYS_pwrite64, [(AnyArgs, [StdIO])]);
    (SYS_readv, [(AnyArgs, [StdIO])]);
    (SYS_writev, [(AnyArgs, [StdIO])]);
    (SYS_access, [(AnyArgs, [RPath; WPath])]);
    (SYS_pipe, [(AnyArgs, [StdIO])]);
    (SYS_select, [(AnyArgs, [StdIO])]);
    (SYS_sched_yield, [(AnyArgs, [StdIO; VmInfo])]);
    (SYS_mremap, [(AnyArgs, [StdIO])]);
    (SYS_msync, [(AnyArgs, [StdIO])]);
    (SYS_mincore, [(AnyArgs, [StdIO])]);
    (SYS_madvise, [(AnyArgs, [StdIO])]);
    (SYS_dup, [(AnyArgs, [StdIO])]);
    (SYS_dup2, [(AnyArgs, [StdIO])]);
    (SYS_pause, [(AnyArgs, [StdIO])]);
    (SYS_nanosleep, [(AnyArgs, [StdIO])]);
    (SYS_getitimer, [(AnyArgs, [StdIO])]);
    (SYS_alarm, [(AnyArgs, [StdIO])]);
    (SYS_setitimer, [(AnyArgs, [StdIO])]);
    (SYS_getpid, [(AnyArgs, [StdIO])]);
    (SYS_sendfile, [(AnyArgs, [StdIO])]);
    (SYS_socket, [(SockInet, [Inet; Dns]); (SockUnix, [Unix])]);
    (SYS_connect, [(AnyArgs, [Inet; Unix; Dns])]);
    (SYS_accept, [(AnyArgs, [Inet; Unix])]);
    (SYS_sendto, [(SendNoAddr, [StdIO]); (AnyArgs, [Inet; Unix; Dns])]);
    (SYS_recvfrom, [(AnyArgs, [StdIO; Dns])]);
    (SYS_recvmsg, [(AnyArgs, [RecvFd; SendFd])]);
    (SYS_shutdown, [(AnyArgs, [StdIO])]);
    (SYS_bind, [(AnyArgs, [Inet; Unix; Dns])]);
    (SYS_listen, [(AnyArgs, [Inet; Unix])]);
    (SYS_getsockname, [(AnyArgs, [Inet; Unix])]);
    (SYS_getpeername, [(AnyArgs, [Inet; Unix])]);
    (SYS_socketpair, [(AnyArgs, [StdIO])]);
    (SYS_getsockopt, [(OptGet, [Inet; Unix]); (OptSet, [Inet; Unix])]);
    (SYS_clone, [(NewThread, [StdIO]); (NewTask, [Proc])]);
    (SYS_fork, [(AnyArgs, [Proc])]);
    (SYS_vfork, [(AnyArgs, [Proc])]);
    (SYS_execve, [(AnyArgs, [Exec])]);
    (SYS_exit, [(AnyArgs, [Default])]);
    (SYS_wait4, [(AnyArgs, [StdIO])]);
    (SYS_kill, [(SelfPid, [StdIO]); (AnyArgs, [Proc])]);
    (SYS_uname, [(AnyArgs, [StdIO])]);
    (SYS_fcntl, [(FcntlBasic, [StdIO]); (FcntlLocks, [FLock])]);
    (SYS_flock, [(AnyArgs, [FLock])]);
    (SYS_fsync, [(AnyArgs, [StdIO])]);
    (SYS_fdatasync, [(AnyArgs, [StdIO])]);
    (SYS_truncate, [(AnyArgs, [WPath])]);
    (SYS_ftruncate, [(AnyArgs, [StdIO])]);
    (SYS_getdents, [(AnyArgs, [RPath])]);
    (SYS_getcwd, [(AnyArgs, [RPath; WPath])]);
    (SYS_chdir, [(AnyArgs, [RPath])]);
    (SYS_fchdir, [(AnyArgs, [StdIO])]);
    (SYS_rename, [(AnyArgs, [CPath])]);
    (SYS_mkdir, [(AnyArgs, [CPath])]);
    (SYS_rmdir, [(AnyArgs, [CPath])]);
    (SYS_creat, [(ModeArg1, [CPath])]);
    (SYS_link, [(AnyArgs, [CPath])]);
    (SYS_unlink, [(AnyArgs, [CPath; TmpPath])]);
    (SYS_symlink, [(AnyArgs, [CPath])]);
    (SYS_readlink, [(AnyArgs, [RPath])]);
    (SYS_chmod, [(ModeArg1, [WPath; FAttr])]);
    (SYS_fchmod, [(ModeArg1, [WPath; FAttr])]);
    (SYS_chown, [(AnyArgs, [Chown])]);
    (SYS_fchown, [(AnyArgs, [Chown])]);
    (SYS_lchown, [(AnyArgs, [Chown])]);
    (SYS_umask, [(AnyArgs, [StdIO])]);
    (SYS_gettimeofday, [(AnyArgs, [StdIO])]);
    (SYS_getrlimit, [(AnyArgs, [StdIO])]);
    (SYS_getrusage, [(AnyArgs, [StdIO])]);
    (SYS_sysinfo, [(AnyArgs, [StdIO])]);
    (SYS_times, [(AnyArgs, [StdIO])]);
    (SYS_getuid, [(AnyArgs, [StdIO])]);
    (SYS_getgid, [(AnyArgs, [StdIO])]);
    (SYS_setuid, [(AnyArgs, [Id])]);
    (SYS_setgid, [(AnyArgs, [Id])]);
    (SYS_geteuid, [(AnyArgs, [StdIO])]);
    (SYS_getegid, [(AnyArgs, [StdIO])]);
    (SYS_setpgid, [(AnyArgs, [Proc])]);
    (SYS_getppid, [(AnyArgs, [StdIO])]);
    (SYS_getpgrp, [(AnyArgs, [StdIO])]);
    (SYS_setsid, [(AnyArgs, [Proc])]);
    (SYS_setreuid, [(AnyArgs, [Id])]);
    (SYS_setregid, [(AnyArgs, [Id])]);
    (SYS_getgroups, [(AnyArgs, [StdIO])]);
    (SYS_setgroups, [(AnyArgs, [Id])]);
    (SYS_setresuid, [(AnyArgs, [Id])]);
    (SYS_getresuid, [(AnyArgs, [StdIO])]);
    (SYS_setresgid, [(AnyArgs, [Id])]);
    (SYS_getresgid, [(AnyArgs, [StdIO])]);
    (SYS_getpgid, [(AnyArgs, [StdIO])]);
    (SYS_setfsuid, [(AnyArgs, [Id])]);
    (SYS_setfsgid, [(AnyArgs, [Id])]);
    (SYS_getsid, [(AnyArgs, [StdIO])]);
    (SYS_rt_sigpending, [(AnyArgs, [StdIO])]);
    (SYS_rt_sigsuspend, [(AnyArgs, [StdIO])]);
    (SYS_sigaltstack, [(AnyArgs, [StdIO])]);
    (SYS_utime, [(AnyArgs, [FAttr])]);
    (SYS_mknod, [(AnyArgs, [DPath])]);
    (SYS_statfs, [(AnyArgs, [RPath])]);
    (SYS_fstatfs, [(AnyArgs, [RPath])]);
    (SYS_getpriority, [(AnyArgs, [Proc; Id])]);
    (SYS_setpriority, [(AnyArgs, [Proc; Id])]);
    (SYS_sched_setparam, [(AnyArgs, [Proc])]);
    (SYS_sched_getparam, [(AnyArgs, [Proc])]);
    (SYS_sched_setscheduler, [(AnyArgs, [Proc])]);
    (SYS_sched_getscheduler, [(AnyArgs, [Proc])]);
    (SYS_sched_get_priority_max, [(AnyArgs, [Proc])]);
    (SYS_sched_get_priority_min, [(AnyArgs, [Proc])]);
    (SYS_prctl, [(PrctlBasic, [StdIO])]);
    (SYS_arch_prctl, [(AnyArgs, [StdIO])]);
    (SYS_setrlimit, [(AnyArgs, [Proc; Id])]);
    (SYS_settimeofday, [(AnyArgs, [SetTime])]);
    (SYS_gettid, [(AnyArgs, [StdIO])]);
    (SYS_tkill, [(SelfTid, [StdIO]); (AnyArgs, [Proc])]);
    (SYS_futex, [(AnyArgs, [StdIO])]);
    (SYS_sched_setaffinity, [(AnyArgs, [Proc])]);
    (SYS_sched_getaffinity, [(AnyArgs, [StdIO; Proc])]);
    (SYS_epoll_create, [(AnyArgs, [StdIO])]);
    (SYS_set_tid_address, [(AnyArgs, [StdIO])]);
    (SYS_restart_syscall, [(AnyArgs, [StdIO])]);
    (SYS_fadvise64, [(AnyArgs, [StdIO])]);
    (SYS_clock_gettime, [(AnyArgs, [StdIO])]);
    (SYS_clock_getres, [(AnyArgs, [StdIO])]);
    (SYS_clock_nanosleep, [(AnyArgs, [StdIO])]);
    (SYS_exit_group, [(AnyArgs, [StdIO])]);
    (SYS_epoll_wait, [(AnyArgs, [StdIO])]);
    (SYS_epoll_ctl, [(AnyArgs, [StdIO])]);
    (SYS_tgkill, [(AnyArgs, [Proc])]);
    (SYS_utimes, [(AnyArgs, [FAttr])]);
    (SYS_ioprio_set, [(AnyArgs, [Proc])]);
    (SYS_ioprio_get, [(AnyArgs, [Proc])]);
    (SYS_migrate_pages, [(AnyArgs, [StdIO])]);
    (SYS_openat, [(OpenRead, [RPath; Dns]); (OpenWrite, [WPath]); (OpenCreate, [CPath])]);
    (SYS_mkdirat, [(AnyArgs, [CPath])]);
    (SYS_mknodat, [(AnyArgs, [DPath])]);
    (SYS_fchownat, [(AnyArgs, [Chown])]);
    (SYS_futimesat, [(AnyArgs, [FAttr])]);
    (SYS_newfstatat, [(AnyArgs, [RPath; WPath; Dns])]);
    (SYS_unlinkat, [(AnyArgs, [CPath; TmpPath])]);
    (SYS_renameat, [(AnyArgs, [CPath])]);
    (SYS_linkat, [(AnyArgs, [CPath])]);
    (SYS_symlinkat, [(AnyArgs, [CPath])]);
    (SYS_readlinkat, [(AnyArgs, [RPath; WPath])]);
    (SYS_fchmodat, [(ModeArg1, [WPath; FAttr])]);
    (SYS_faccessat, [(AnyArgs, [RPath; WPath])]);
    (SYS_pselect6, [(AnyArgs, [StdIO])]);
    (SYS_ppoll, [(AnyArgs, [StdIO])]);
    (SYS_set_robust_list, [(AnyArgs, [StdIO])]);
    (SYS_get_robust_list, [(AnyArgs, [StdIO])]);
    (SYS_splice, [(AnyArgs, [StdIO])]);
    (SYS_tee, [(AnyArgs, [StdIO])]);
    (SYS_sync_file_range, [(AnyArgs, [StdIO])]);
    (SYS_vmsplice, [(AnyArgs, [StdIO])]);
    (SYS_utimensat, [(AnyArgs, [FAttr])]);
    (SYS_epoll_pwait, [(AnyArgs, [StdIO])]);
    (SYS_signalfd, [(AnyArgs, [StdIO])]);
    (SYS_timerfd_create, [(AnyArgs, [StdIO])]);
    (SYS_eventfd, [(AnyArgs, [StdIO])]);
    (SYS_timerfd_settime, [(AnyArgs, [StdIO])]);
    (SYS_timerfd_gettime, [(AnyArgs, [StdIO])]);
    (SYS_accept4, [(AnyArgs, [Inet; Unix])]);
    (SYS_signalfd4, [(AnyArgs, [StdIO])]);
    (SYS_eventfd2, [(AnyArgs, [StdIO])]);
    (SYS_epoll_create1, [(AnyArgs, [StdIO])]);
    (SYS_dup3, [(AnyArgs, [StdIO])]);
    (SYS_pipe2, [(AnyArgs, [StdIO])]);
    (SYS_preadv, [(AnyArgs, [StdIO])]);
    (SYS_pwritev, [(AnyArgs, [StdIO])]);
    (SYS_recvmmsg, [(AnyArgs, [RecvFd; SendFd])]);
    (SYS_prlimit64, [(LimitPtrLow, [StdIO]); (AnyArgs, [Proc; Id])]);
    (SYS_clock_adjtime, [(AnyArgs, [SetTime])]);
    (SYS_renameat2, [(AnyArgs, [CPath])]);
    (SYS_getrandom, [(AnyArgs, [StdIO])]);
    (SYS_execveat, [(AnyArgs, [Exec])]);
    (SYS_membarrier, [(AnyArgs, [StdIO])]);
    (SYS_copy_file_range, [(AnyArgs, [StdIO])]);
    (SYS_preadv2, [(AnyArgs, [StdIO])]);
    (SYS_pwritev2, [(AnyArgs, [StdIO])]);
    (SYS_close_range, [(AnyArgs, [StdIO])]);
    (SYS_faccessat2, [(AnyArgs, [RPath; WPath])]);
    (SYS_epoll_pwait2, [(AnyArgs, [StdIO])]);
    (SYS_landlock_create_ruleset, [(AnyArgs, [Unveil])]);
    (SYS_landlock_add_rule, [(AnyArgs, [Unveil])]);
    (SYS_landlock_restrict_self, [(AnyArgs, [Unveil])]) ].

(** Promises [ps] grant the call [d]. *)
Definition granted (ps : list Promise) (pid tid : N) (d : seccomp_data) : Prop :=
  exists alternatives rule who p,
    In (sd_nr d, alternatives) policy /\ In (rule, who) alternatives /\
    In p who /\ (p = Default \/ In p ps) /\ args_ok rule pid tid d.

(** * Filters *)

(** [prog] is the filter built for [ps] and [v] by a thread whose getpid/gettid gave these. *)
Definition filter_for (prof : profile) (pid tid : N) (ps : list Promise) (v : SeccompReturn)
  (prog : list sock_filter) : Prop :=
  promises_to_prog prof (mkEnv (Ok pid) (Ok tid)) ps v = Ok prog.

(** [prog] is a filter built for [ps] and [v] whose rules may have been compiled with different
    answers of getpid and gettid, all of them in [E]. *)
Definition filter_with (prof : profile) (E : sysenv -> Prop) (ps : list Promise)
  (v : SeccompReturn) (prog : list sock_filter) : Prop :=
  exists rules parts, promises_to_filters ps = Ok rules /\
    Forall2 (fun rule part => exists e, E e /\ filter_to_bpf prof e rule = Ok part) rules parts /\
    assemble_parts prof parts v = Ok prog.

(** A thread with exactly this filter executes the call. *)
Definition proceeds (prog : list sock_filter) (d : seccomp_data) : Prop :=
  syscall_entry [prog] d = Proceed.

(** Payloads for which Errno/Trace are usable (16 bits). *)
Definition small_payload (v : SeccompReturn) : Prop :=
  match v with Errno e => e < 2 ^ 16 | Trace t => t < 2 ^ 16 | _ => True end.
(** Violations that refuse. *)
Definition enforcing (v : SeccompReturn) : Prop :=
  small_payload v /\ v <> Allow /\ v <> Log.

(** Violations that refuse whoever supervises the process. *)
Definition hard (v : SeccompReturn) : Prop :=
  match v with
  | KillProcess | KillThread | Trap => True
  | Errno e => e < 2 ^ 16
  | Trace _ | Log | Allow => False
  end.

(** Fate of a call that gets this action when nobody supervises it. *)
Definition fate (v : SeccompReturn) : entry :=
  match v with
  | KillProcess => Kill DeathProcess
  | KillThread => Kill DeathThread
  | Trap => Kill DeathSigsys
  | Errno e => Fake (- Z.of_N (N.min e 4095))
  | Trace _ => Fake (-38)
  | Log | Allow => Proceed
  end.

(** Severity, most severe first. *)
Definition severity (v : SeccompReturn) : nat :=
  match v with
  | KillProcess => 0 | KillThread => 1 | Trap => 2 | Errno _ => 3 | Trace _ => 4 | Log => 5
  | Allow => 6
  end%nat.

(** System calls no promise should ever grant (C22). *)
Definition dangerous : list N :=
  [ SYS_ptrace; SYS_process_vm_readv; SYS_process_vm_writev; SYS_mount; SYS_umount2;
    SYS_pivot_root; SYS_chroot; SYS_init_module; SYS_finit_module; SYS_delete_module;
    SYS_kexec_load; SYS_kexec_file_load; SYS_reboot; SYS_bpf; SYS_perf_event_open;
    SYS_io_uring_setup; SYS_io_uring_enter; SYS_io_uring_register; SYS_seccomp; SYS_unshare;
    SYS_setns; SYS_userfaultfd; SYS_keyctl; SYS_add_key; SYS_request_key; SYS_personality;
    SYS_clone3; SYS_pkey_mprotect; SYS_memfd_create; SYS_shmat; SYS_capset; SYS_swapon;
    SYS_swapoff; SYS_iopl; SYS_ioperm; SYS_open_by_handle_at ].

(** Kinds of namespaces clone(2) can create: CLONE_NEWNS, NEWCGROUP, NEWUTS, NEWIPC, NEWUSER, NEWPID,
    NEWNET (C98). *)
Definition namespace_flags : list N :=
  [0x20000; 0x2000000; 0x4000000; 0x8000000; 0x10000000; 0x20000000; 0x40000000].

(** System calls with an argument that names a process, a thread or a group of processes (C99). *)
Definition target_calls : list N :=
  [ SYS_kill; SYS_tkill; SYS_tgkill; SYS_rt_sigqueueinfo; SYS_rt_tgsigqueueinfo;
    SYS_pidfd_open; SYS_pidfd_send_signal; SYS_pidfd_getfd;
    SYS_ptrace; SYS_process_vm_readv; SYS_process_vm_writev; SYS_process_madvise;
    SYS_process_mrelease; SYS_kcmp; SYS_migrate_pages; SYS_move_pages; SYS_perf_event_open;
    SYS_prlimit64; SYS_get_robust_list; SYS_setpgid; SYS_getpgid; SYS_getsid;
    SYS_getpriority; SYS_setpriority; SYS_ioprio_get; SYS_ioprio_set;
    SYS_sched_setparam; SYS_sched_getparam; SYS_sched_setscheduler; SYS_sched_getscheduler;
    SYS_sched_setaffinity; SYS_sched_getaffinity; SYS_sched_setattr; SYS_sched_getattr;
    SYS_sched_rr_get_interval ].

(** What can take the place of a promise that no call needs (C100). *)
Definition replacements : list (Promise * list Promise) :=
  [ (Default, []); (VmInfo, [StdIO]); (RecvFd, [SendFd]); (SendFd, [RecvFd]); (TmpPath, [RPath; CPath]);
    (Dns, [StdIO; RPath; Inet]) ].

(** The numbers of the system calls some promise grants with some arguments, as intervals (C101). *)
Definition reachable_calls : list (N * N) :=
  [ (0, 28); (32, 45); (47, 53); (55, 63); (72, 100); (102, 102); (104, 124); (127, 127); (130, 133);
    (137, 138); (140, 147); (157, 158); (160, 160); (164, 164); (186, 186); (200, 200); (202, 204);
    (213, 213); (218, 219); (221, 221); (228, 235); (251, 252); (256, 271); (273, 278); (280, 284);
    (286, 293); (295, 296); (299, 299); (302, 302); (305, 305); (316, 316); (318, 318); (322, 322);
    (324, 324); (326, 328); (436, 436); (439, 439); (441, 441); (444, 446) ].

(** Open flags that neither write nor create (C27). *)
Definition read_only (flags : N) : Prop :=
  clear O_ACCMODE flags /\ clear O_CREAT flags /\ clear O_TRUNC flags /\ clear (2 ^ 22) flags.
(** Open flags that create a file: O_CREAT or __O_TMPFILE (C28, C29). *)
Definition creates (flags : N) : Prop := ~ (clear O_CREAT flags /\ clear (2 ^ 22) flags).
(** System calls that change the file tree or truncate by path (C27). *)
Definition tree_changing : list N :=
  [ SYS_creat; SYS_truncate; SYS_rename; SYS_renameat; SYS_renameat2; SYS_link; SYS_linkat;
    SYS_symlink; SYS_symlinkat; SYS_mkdir; SYS_mkdirat; SYS_rmdir ].

(** Kinds of system calls that belong to one promise alone, whatever the arguments (C53). *)
Definition exclusive : list (Promise * list N) :=
  [ (Id, [SYS_setuid; SYS_setgid; SYS_setreuid; SYS_setregid; SYS_setresuid; SYS_setresgid;
          SYS_setfsuid; SYS_setfsgid; SYS_setgroups]);
    (Chown, [SYS_chown; SYS_fchown; SYS_lchown; SYS_fchownat]);
    (FAttr, [SYS_utime; SYS_utimes; SYS_futimesat; SYS_utimensat]);
    (FLock, [SYS_flock]);
    (SetTime, [SYS_settimeofday; SYS_clock_adjtime]);
    (Unveil, [SYS_landlock_create_ruleset; SYS_landlock_add_rule; SYS_landlock_restrict_self]);
    (DPath, [SYS_mknod; SYS_mknodat]);
    (Exec, [SYS_execve; SYS_execveat]);
    (Proc, [SYS_fork; SYS_vfork; SYS_setpgid; SYS_setsid; SYS_tgkill; SYS_sched_setparam;
            SYS_sched_setscheduler; SYS_sched_setaffinity; SYS_ioprio_set]);
    (CPath, [SYS_rename; SYS_renameat; SYS_renameat2; SYS_mkdir; SYS_mkdirat; SYS_rmdir;
             SYS_link; SYS_linkat; SYS_symlink; SYS_symlinkat]);
    (WPath, [SYS_truncate]);
    (RPath, [SYS_chdir; SYS_getdents; SYS_readlink; SYS_statfs; SYS_fstatfs]);
    (StdIO, [SYS_write; SYS_writev; SYS_pwrite64; SYS_sendfile; SYS_ftruncate; SYS_socketpair;
             SYS_pipe; SYS_pipe2; SYS_dup; SYS_dup2; SYS_dup3; SYS_rt_sigaction;
             SYS_rt_sigreturn; SYS_exit_group; SYS_wait4; SYS_getpid; SYS_gettid; SYS_futex]) ].

(** System calls that take a path name (C55). *)
Definition path_calls : list N :=
  [ SYS_open; SYS_openat; SYS_openat2; SYS_creat; SYS_stat; SYS_lstat; SYS_newfstatat; SYS_statx;
    SYS_access; SYS_faccessat; SYS_faccessat2; SYS_truncate; SYS_chdir; SYS_chroot; SYS_rename;
    SYS_renameat; SYS_renameat2; SYS_mkdir; SYS_mkdirat; SYS_rmdir; SYS_link; SYS_linkat;
    SYS_symlink; SYS_symlinkat; SYS_unlink; SYS_unlinkat; SYS_readlink; SYS_readlinkat;
    SYS_chmod; SYS_fchmodat; SYS_chown; SYS_lchown; SYS_fchownat; SYS_utime; SYS_utimes;
    SYS_futimesat; SYS_utimensat; SYS_mknod; SYS_mknodat; SYS_statfs; SYS_execve; SYS_execveat;
    SYS_setxattr; SYS_lsetxattr; SYS_getxattr; SYS_lgetxattr; SYS_listxattr; SYS_llistxattr;
    SYS_removexattr; SYS_lremovexattr; SYS_mount; SYS_umount2; SYS_pivot_root; SYS_swapon;
    SYS_swapoff; SYS_acct; SYS_uselib; SYS_quotactl; SYS_inotify_add_watch; SYS_fanotify_mark;
    SYS_name_to_handle_at; SYS_open_tree; SYS_move_mount; SYS_fspick ].
(** The promises that grant some of them. *)
Definition path_promises : list Promise :=
  [RPath; WPath; CPath; DPath; FAttr; Chown; Exec; TmpPath; Dns].

(** System calls with which a file can be made (C64). *)
Definition file_making : list N :=
  [SYS_open; SYS_openat; SYS_openat2; SYS_creat; SYS_mknod; SYS_mknodat; SYS_mkdir; SYS_mkdirat;
   SYS_memfd_create].

(** System calls that create or name sockets (C56). *)
Definition socket_calls : list N :=
  [SYS_socket; SYS_connect; SYS_bind; SYS_listen; SYS_accept; SYS_accept4; SYS_getsockname;
   SYS_getpeername; SYS_sendmsg; SYS_sendmmsg; SYS_getsockopt; SYS_setsockopt].

(** [p] grants, in every process, at least what [q] does (C54). *)
Definition grants_at_least (p q : Promise) : Prop :=
  forall pid tid d, wf_data d -> granted [q] pid tid d -> granted [p] pid tid d.

(** * VM against kernel (C10, C11) *)

(** No comparison with the index register, no negation, no register transfer. *)
Definition vm_subset (f : sock_filter) : Prop :=
  match kdecode (sf_code f) with
  | Some (KJcc _ true) | Some KNeg | Some KTax | Some KTxa => False
  | _ => True
  end.
(** Division by the index register. *)
Definition divides_by_index (f : sock_filter) : Prop := kdecode (sf_code f) = Some (KAlu KDiv true).

(** Comparison with the index register. *)
Definition compares_index (f : sock_filter) : Prop :=
  exists c, kdecode (sf_code f) = Some (KJcc c true).
(** The same comparison with the constant [k] of the instruction (the source bit, 8, cleared). *)
Definition as_constant (f : sock_filter) : sock_filter :=
  match kdecode (sf_code f) with
  | Some (KJcc _ true) => SockFilter (sf_code f - 8) (sf_jt f) (sf_jf f) (sf_k f)
  | _ => f
  end.
(** Instructions of the kernel for which the VM reports error [e]. *)
Definition vm_lacks (e : bpf_error) (f : sock_filter) : Prop :=
  match kdecode (sf_code f) with
  | Some KNeg => e = UnsupportedInstruction 0x80
  | Some KTax | Some KTxa => e = UnsupportedInstruction 0x07
  | _ => False
  end.

(** A filter comparing the accumulator with the index register (witness for C11). *)
Definition jx_prog : list sock_filter :=
  [SockFilter 0x01 0 0 5; SockFilter 0x00 0 0 5; SockFilter 0x1d 0 1 0;
   SockFilter 0x06 0 0 0x7fff0000; SockFilter 0x06 0 0 0x80000000].

(** Loads the word at byte 64, the first after the record, and returns it (witness for C48). *)
Definition outside_prog : list sock_filter := [SockFilter 0x20 0 0 64; SockFilter 0x16 0 0 0].
(** Constants fit in 32 bits. *)
Definition word_token (op : Operation) : Prop :=
  match op with
  | Load _ v | LoadIdx _ v | Store _ v | StoreIdx _ v | Alu _ _ v | Return _ v | Jump _ v _ _ => word v
  | Label _ | JumpTo _ => True
  end.
(** Two programs whose concatenation gives every label reference the meaning it has in its own
    part (C52): the second part does not redefine labels the first refers to, and does not
    borrow labels of the first. *)
Definition linkable (p q : list Operation) : Prop :=
  (forall op, In op p -> forall l, In l (op_refs op) -> ~ In (Label l) q) /\
  (forall op, In op q -> forall l, In l (op_refs op) -> In (Label l) q \/ ~ In (Label l) p).

(** * Syscall record fields (C12) *)
Definition arg (d : seccomp_data) (i : N) : N :=
  match i with
  | 0 => sd_a0 d | 1 => sd_a1 d | 2 => sd_a2 d | 3 => sd_a3 d | 4 => sd_a4 d | _ => sd_a5 d
  end.
Definition exists_field (f : FieldOffset) : Prop :=
  match f with ArgLower i | ArgUpper i => i <= 5 | _ => True end.
(** The half-words a field name stands for. *)
Definition field (f : FieldOffset) (d : seccomp_data) : N :=
  match f with
  | Syscall => sd_nr d
  | Arch => sd_arch d
  | InstrPointerLower => sd_ip d mod 2 ^ 32
  | InstrPointerUpper => sd_ip d / 2 ^ 32
  | ArgLower i => arg d i mod 2 ^ 32
  | ArgUpper i => arg d i / 2 ^ 32
  end.

(** * Return codes (C13) *)
Definition payload_u32 (r : SeccompReturn) : Prop :=
  match r with Errno e => word e | Trace t => word t | _ => True end.
Definition carries_data (r : SeccompReturn) : Prop :=
  match r with Errno _ | Trace _ => True | _ => False end.
Definition known_actions : list N :=
  [0x80000000; 0x00000000; 0x00030000; 0x00050000; 0x7ff00000; 0x7ffc0000; 0x7fff0000].

(** * Cost of a filter (C46) *)

(** The instructions the kernel executes, in order. *)
Fixpoint ktrace (prog : list sock_filter) (skip a x : N) (mem words : list N) : list sock_filter :=
  match prog with
  | [] => []
  | f :: rest =>
      if negb (skip =? 0) then ktrace rest (skip - 1) a x mem words
      else
        let k := sf_k f in
        f :: match kdecode (sf_code f) with
        | None => []
        | Some KLdAbs => ktrace rest 0 (nth (N.to_nat (k / 4)) words 0) x mem words
        | Some KLdLen => ktrace rest 0 64 x mem words
        | Some KLdxLen => ktrace rest 0 a 64 mem words
        | Some KLdImm => ktrace rest 0 k x mem words
        | Some KLdxImm => ktrace rest 0 a k mem words
        | Some KLdMem => ktrace rest 0 (kload mem k) x mem words
        | Some KLdxMem => ktrace rest 0 a (kload mem k) mem words
        | Some KSt => ktrace rest 0 a x (list_set mem (N.to_nat k) a) words
        | Some KStx => ktrace rest 0 a x (list_set mem (N.to_nat k) x) words
        | Some (KAlu op sx) =>
            match kalu_eval op a (if sx then x else k) with
            | Some a' => ktrace rest 0 a' x mem words
            | None => []
            end
        | Some KNeg => ktrace rest 0 ((2 ^ 32 - a) mod 2 ^ 32) x mem words
        | Some KJa => ktrace rest k a x mem words
        | Some (KJcc c sx) =>
            ktrace rest (if kcmp_eval c a (if sx then x else k) then sf_jt f else sf_jf f)
                   a x mem words
        | Some KTax => ktrace rest 0 a a mem words
        | Some KTxa => ktrace rest 0 x x mem words
        | Some KRetK | Some KRetA => []
        end
  end.
(** Word load, AND with a constant, = and > with a constant, jump, return of a constant. *)
Definition simple_codes : list N := [0x20; 0x54; 0x15; 0x25; 0x05; 0x06].

(** * Pledging (C37-C45) *)

Definition wf_amb (a : ambient) : Prop :=
  amb_ip a < 2 ^ 64 /\ amb_r0 a < 2 ^ 64 /\ amb_r1 a < 2 ^ 64 /\ amb_r2 a < 2 ^ 64 /\
  amb_r3 a < 2 ^ 64 /\ amb_r4 a < 2 ^ 64 /\ amb_r5 a < 2 ^ 64.

(** Nobody supervises the call (no tracer, listener or SIGSYS handler) ... *)
Definition calm (a : ambient) : Prop := wf_amb a /\ amb_sup a = nobody.
(** ... and the kernel has the memory it needs. *)
Definition quiet (a : ambient) : Prop := calm a /\ amb_oom a = false.

(** A history of pledge calls made by one thread. *)
Inductive pledged (prof : profile) : thread -> list (list Promise * SeccompReturn) -> thread -> Prop :=
| pledged_nil : forall t, pledged prof t [] t
| pledged_cons : forall t amb ps v r t1 hist t2,
    (forall n, wf_amb (amb n)) ->
    pledge_override prof amb t ps v = (r, t1) ->
    pledged prof t1 hist t2 ->
    pledged prof t ((ps, v) :: hist) t2.

(** An installed pledge: the ids observed, the promises, the violation. *)
Record installed := mkInst { i_pid : N; i_tid : N; i_ps : list Promise; i_v : SeccompReturn }.
(** A filter stack (newest first) made of these pledges. *)
Definition stack_of (prof : profile) (is_ : list installed) (fs : list (list sock_filter)) : Prop :=
  Forall2 (fun i f => filter_for prof (i_pid i) (i_tid i) (i_ps i) (i_v i) f) is_ fs.
(** A filter stack (newest first) of pledges of these promises and violations, whatever ids getpid
    and gettid gave. *)
Definition stack_with (prof : profile) (l : list (list Promise * SeccompReturn))
  (fs : list (list sock_filter)) : Prop :=
  Forall2 (fun pv f => filter_with prof (fun _ => True) (fst pv) (snd pv) f) l fs.
(** What one pledge alone does with a native call. *)
Definition verdict_of (i : installed) (d : seccomp_data) (a : SeccompReturn) : Prop :=
  (granted (i_ps i) (i_pid i) (i_tid i) d /\ a = Allow) \/
  (~ granted (i_ps i) (i_pid i) (i_tid i) d /\ a = i_v i).

(** Instructions a promise adds to a filter (C70). *)
Definition promise_size (p : Promise) : N :=
  match p with
  | Default => 2 | StdIO => 290 | RPath => 48 | WPath => 63 | CPath => 57 | DPath => 4
  | FLock => 11 | FAttr => 29 | Inet => 82 | Unix => 72 | Dns => 41 | Tty => 18
  | RecvFd => 4 | SendFd => 4 | Proc => 49 | Id => 26 | Chown => 8 | SetTime => 4
  | ProtExec => 9 | Exec => 4 | VmInfo => 2 | TmpPath => 6 | Unveil => 6
  end.
Fixpoint promises_size (ps : list Promise) : N :=
  match ps with [] => 0 | p :: ps' => promise_size p + promises_size ps' end.
(** Size of a promise and of a list in the kernel's internal instruction set (C77). *)
Definition promise_cost (p : Promise) : N :=
  match p with
  | Default => 3 | StdIO => 413 | RPath => 66 | WPath => 83 | CPath => 75 | DPath => 6
  | FLock => 14 | FAttr => 39 | Inet => 98 | Unix => 86 | Dns => 52 | Tty => 20
  | RecvFd => 6 | SendFd => 6 | Proc => 72 | Id => 39 | Chown => 12 | SetTime => 6
  | ProtExec => 12 | Exec => 6 | VmInfo => 3 | TmpPath => 9 | Unveil => 9
  end.
Fixpoint promises_cost (ps : list Promise) : N :=
  match ps with [] => 0 | p :: ps' => promise_cost p + promises_cost ps' end.
(** Room taken by pledges already installed: 14 instructions each besides the promises, and the
    kernel's penalty of 4. *)
Fixpoint pledges_cost (is_ : list installed) : N :=
  match is_ with [] => 0 | i :: is' => 18 + promises_cost (i_ps i) + pledges_cost is' end.
(** Ids as Linux hands them out: far below 2^31. *)
Definition small_ids (pid tid : N) : Prop := pid < 2 ^ 31 /\ tid < 2 ^ 31.

(** Two fates are of the same kind: equal up to the error number. *)
Definition same_kind (a b : entry) : Prop :=
  match a, b with Fake _, Fake _ => True | _, _ => a = b end.

(** Worlds before any pledge call has been started. *)
Definition fresh_world (w : world) : Prop :=
  Forall (fun t => t_call t = None /\ (t_uid t < w_next w)%nat) (w_threads w).

(** [us] and all tasks created, directly or not, by tasks among them during [tr]. *)
Fixpoint descendants (us : list nat) (tr : list event) : list nat :=
  match tr with
  | [] => us
  | EvSpawn p c :: tr' => descendants (if existsb (Nat.eqb p) us then c :: us else us) tr'
  | _ :: tr' => descendants us tr'
  end.

(** No tracer, listener or SIGSYS handler decides about the calls of this scheduler choice. *)
Definition unsupervised (o : op) : Prop :=
  match o with
  | OStep _ amb => amb_sup amb = nobody
  | OSys _ _ o => o_sup o = nobody
  | _ => True
  end.

(** [f] never makes a call appear to have succeeded without running it. *)
Definition frank (f : list sock_filter) : Prop := forall d, entry_of (kernel_eval f d) <> Fake 0.
(** A scheduler choice that nobody supervises and that brings in no filter but such ones. *)
Definition frank_op (o : op) : Prop :=
  unsupervised o /\
  match o with
  | OPledge _ _ v => small_payload v /\ v <> Errno 0
  | OSys _ _ o => frank (o_payload o)
  | _ => True
  end.

(** [x] is the [real] id of task [u], or a made-up answer that a call [nr] of [u] got in [tr]. *)
Definition answered (u : nat) (tr : list event) (nr real x : N) : Prop :=
  x = real \/
  exists d r, In (EvCall u d (Fake r)) tr /\ sd_nr d = nr /\ x = Z.to_N (r mod 2 ^ 32).

(** The task that does what an event records. *)
Definition actor (ev : event) : nat :=
  match ev with
  | EvCall u _ _ | EvSpawn u _ | EvInstalled u _ _ _ _ | EvReturned u _ _ _ => u
  end.

(** Rules of a promise (C86). *)
Definition promise_rules (p : Promise) : nat :=
  (match p with
  | Default => 1 | StdIO => 113 | RPath => 16 | WPath => 15 | CPath => 15 | DPath => 2
  | FLock => 2 | FAttr => 7 | Inet => 12 | Unix => 11 | Dns => 9 | Tty => 1
  | RecvFd => 2 | SendFd => 2 | Proc => 22 | Id => 13 | Chown => 4 | SetTime => 2
  | ProtExec => 2 | Exec => 2 | VmInfo => 1 | TmpPath => 3 | Unveil => 3
  end)%nat.
(** Steps of a pledge: the look-up, one for every rule of the default and of the promises, the
    assembly, and two system calls. *)
Definition steps_needed (ps : list Promise) : nat :=
  4 + promise_rules Default + list_sum (map promise_rules ps).
(** How often task [u] gets to take a step of a pledge. *)
Definition steps_of (u : nat) (ops : list op) : nat :=
  length (filter (fun o => match o with OStep u' _ => Nat.eqb u' u | _ => false end) ops).
(** Number and, for prctl (157), first argument of the calls of [u], in order (C87). *)
Definition calls_by (u : nat) (tr : list event) : list (N * N) :=
  flat_map (fun ev => match ev with
                      | EvCall u' d _ =>
                          if Nat.eqb u' u then [(sd_nr d, if sd_nr d =? 157 then sd_a0 d else 0)] else []
                      | _ => []
                      end) tr.
(** The calls of a pledge: getpid (39) and gettid (186) for every StdIO, then
    prctl(PR_SET_NO_NEW_PRIVS) and prctl(PR_SET_SECCOMP). *)
Definition footprint (ps : list Promise) : list (N * N) :=
  flat_map (fun p => match p with StdIO => [(39, 0); (186, 0)] | _ => [] end) ps ++ [(157, 38); (157, 22)].
(** Circumstances of a call that agree in what is not accidental: who supervises it, whether the
    kernel has memory, and errno (C89). *)
Definition alike (a b : ambient) : Prop :=
  wf_amb a /\ wf_amb b /\ amb_sup a = amb_sup b /\ amb_oom a = amb_oom b /\ amb_errno a = amb_errno b.

(** A scheduler choice by which no program installs a filter on its own (C90): no prctl (157) with
    option 22, no seccomp (317). *)
Definition own_filters_none (o : op) : Prop :=
  match o with
  | OSys _ d _ => (sd_nr d = 157 -> sd_a0 d mod 2 ^ 32 <> 22) /\ sd_nr d <> 317
  | _ => True
  end.
(** What may happen to a call refused with this violation: a SIGSYS handler may resume after a
    trap, a tracer may do what it likes. *)
Definition consequence (v : SeccompReturn) (e : entry) : Prop :=
  match v with
  | Trap => e = Kill DeathSigsys \/ exists z, e = Fake z
  | Trace _ => True
  | _ => e = fate v
  end.

(** The pledges completed by the line of tasks leading to [u], newest first: those of [u] since it
    was created, then those of its creator before that, and so on; read off the events, given
    newest first (C91). *)
Fixpoint line (u : nat) (newest_first : list event) : list installed :=
  match newest_first with
  | [] => []
  | EvInstalled u' pid tid ps v :: tr =>
      if Nat.eqb u' u then mkInst pid tid ps v :: line u tr else line u tr
  | EvSpawn p c :: tr => if Nat.eqb c u then line p tr else line u tr
  | _ :: tr => line u tr
  end.
(** No call of getpid (39) or gettid (186) was answered by anybody but the kernel. *)
Definition honest_ids (tr : list event) : Prop :=
  forall u d r, In (EvCall u d (Fake r)) tr -> sd_nr d <> 39 /\ sd_nr d <> 186.

(** Circumstances in which the steps of a pledge of task [u] happen, in order (C92) ... *)
Definition turns (u : nat) (ops : list op) : list ambient :=
  flat_map (fun o => match o with OStep u' a => if Nat.eqb u' u then [a] else [] | _ => [] end) ops.
(** ... in the way [pledge_override] is given them, which counts the steps left. *)
Definition in_turn (ps : list Promise) (l : list ambient) (n : nat) : ambient :=
  nth (steps_needed ps - n) l (mkAmb 0 0 0 0 0 0 0 nobody false 0).
(** A scheduler choice by which [u] does nothing but continue its pledge and no other task makes a
    call of seccomp (317), which can change the filters of other threads. *)
Definition leaves_alone (u : nat) (o : op) : Prop :=
  match o with
  | OStep _ _ => True
  | OSys u' d _ => u' <> u /\ sd_nr d <> 317
  | OPledge u' _ _ | OCap u' _ | ODie u' => u' <> u
  end.

(** The bits with these numbers are 0 in [x] (C93-C95). *)
Definition bits_off (numbers : list N) (x : N) : Prop :=
  Forall (fun n => N.testbit x n = false) numbers.
(** Two calls that differ at most in the given argument. *)
Definition same_but_arg1 (d d' : seccomp_data) : Prop :=
  sd_nr d = sd_nr d' /\ sd_arch d = sd_arch d' /\ sd_a0 d = sd_a0 d' /\ sd_a2 d = sd_a2 d' /\
  sd_a3 d = sd_a3 d' /\ sd_a4 d = sd_a4 d' /\ sd_a5 d = sd_a5 d'.
Definition same_but_arg2 (d d' : seccomp_data) : Prop :=
  sd_nr d = sd_nr d' /\ sd_arch d = sd_arch d' /\ sd_a0 d = sd_a0 d' /\ sd_a1 d = sd_a1 d' /\
  sd_a3 d = sd_a3 d' /\ sd_a4 d = sd_a4 d' /\ sd_a5 d = sd_a5 d'.

(** Tasks have different identities. *)
Definition distinct (w : world) : Prop := NoDup (map t_uid (w_threads w)).

(** The records of all calls are ones the hardware can produce. *)
Definition real_calls (o : op) : Prop :=
  match o with OStep _ amb => wf_amb amb | OSys _ d _ => wf_data d | _ => True end.

(** Seccomp strict mode (C116).  What it lets through: read, write, exit and rt_sigreturn of x86_64; read,
    write, exit and sigreturn of i386.  How a program asks for it: prctl (157) with option 22 and mode
    1, seccomp (317) with operation, flags and pointer 0. *)
Definition strict_call (d : seccomp_data) : Prop :=
  sd_arch d = X86_64 /\ In (sd_nr d) [0; 1; 60; 15] \/
  sd_arch d = 0x40000003 /\ In (sd_nr d) [3; 4; 1; 119].
Definition asks_for_strict_mode (d : seccomp_data) : Prop :=
  sd_nr d = 157 /\ sd_a0 d mod 2 ^ 32 = 22 /\ sd_a1 d = 1 \/
  sd_nr d = 317 /\ sd_a0 d mod 2 ^ 32 = 0 /\ sd_a1 d mod 2 ^ 32 = 0 /\ sd_a2 d = 0.

(** What a program asks for with prctl and seccomp (C117): a filter, a filter for all threads of the
    process (SECCOMP_FILTER_FLAG_TSYNC), no_new_privs. *)
Definition asks_for_filter (d : seccomp_data) : Prop :=
  sd_nr d = 157 /\ sd_a0 d mod 2 ^ 32 = 22 /\ sd_a1 d = 2 \/
  sd_nr d = 317 /\ sd_a0 d mod 2 ^ 32 = 1.
Definition asks_for_all_threads (d : seccomp_data) : Prop := sd_nr d = 317 /\ N.odd (sd_a1 d) = true.
Definition asks_for_no_new_privs (d : seccomp_data) : Prop :=
  sd_nr d = 157 /\ sd_a0 d mod 2 ^ 32 = 38 /\ sd_a1 d = 1 /\ sd_a2 d = 0 /\ sd_a3 d = 0 /\ sd_a4 d = 0.

(** What the kernel's documentation says of the filters it loads (C118). The codes of the eight
    conditional jumps, and of all instructions of a filter. *)
Definition branch_codes : list N := [0x15; 0x1d; 0x25; 0x2d; 0x35; 0x3d; 0x45; 0x4d].
Definition filter_codes : list N :=
  [0x20; 0x80; 0x81; 0x00; 0x01; 0x60; 0x61; 0x02; 0x03; 0x04; 0x0c; 0x14; 0x1c; 0x24; 0x2c; 0x34; 0x3c; 0x44; 0x4c;
   0x54; 0x5c; 0x64; 0x6c; 0x74; 0x7c; 0xa4; 0xac; 0x84; 0x07; 0x87; 0x06; 0x16; 0x05] ++ branch_codes.
(** Instruction [i] of a filter of [n]: a load of the call's data is of an aligned word within
    it, no division by the constant zero, shifts by less than the width of a word, scratch cells
    below 16, and jumps to an instruction of the filter. *)
Definition insn_allowed (i n : N) (f : sock_filter) : Prop :=
  In (sf_code f) filter_codes /\
  (sf_code f = 0x20 -> sf_k f < 64 /\ sf_k f mod 4 = 0) /\
  (sf_code f = 0x34 -> sf_k f <> 0) /\
  (In (sf_code f) [0x64; 0x74] -> sf_k f < 32) /\
  (In (sf_code f) [0x60; 0x61; 0x02; 0x03] -> sf_k f < 16) /\
  (sf_code f = 0x05 -> i + 1 + sf_k f < n) /\
  (In (sf_code f) branch_codes -> i + 1 + sf_jt f < n /\ i + 1 + sf_jf f < n).
(** Instruction [j] can come after instruction [i], which is [f]. A return counts as going on to
    the instruction behind it: the kernel's check of the scratch cells does not end a path at
    a return. *)
Definition can_follow (f : sock_filter) (i j : nat) : Prop :=
  if sf_code f =? 0x05 then j = (i + 1 + N.to_nat (sf_k f))%nat
  else if in_dec N.eq_dec (sf_code f) branch_codes
  then j = (i + 1 + N.to_nat (sf_jt f))%nat \/ j = (i + 1 + N.to_nat (sf_jf f))%nat
  else j = (i + 1)%nat.
(** The ways through a filter to instruction [i], with the instructions met [before] it. *)
Inductive path (prog : list sock_filter) : list nat -> nat -> Prop :=
| path_start : path prog [] 0
| path_step : forall before i f j, path prog before i -> nth_error prog i = Some f -> can_follow f i j ->
    path prog (i :: before) j.
(** The operations of the assembler that the kernel loads; where jumps go is a question of the
    whole program. Arithmetic with the accumulator as operand has the code of other arithmetic
    with a constant: the bit for the accumulator is one of those of the operation. *)
Definition loadable_op (op : Operation) : Prop :=
  match op with
  | Load ABS v => v < 64 /\ v mod 4 = 0
  | Load MEM v | LoadIdx MEM v => v < 16
  | Load IMM _ | Load LEN _ | LoadIdx IMM _ | LoadIdx LEN _ => True
  | Load IND _ | LoadIdx ABS _ | LoadIdx IND _ => False
  | Store IMM v | StoreIdx IMM v => v < 16
  | Store _ _ | StoreIdx _ _ => False
  | Alu MOD _ _ | Alu XOR Acc _ => False
  | Alu DIV Const v | Alu MUL Acc v | Alu DIV Acc v => v <> 0
  | Alu LSH Const v | Alu RSH Const v | Alu LSH Acc v | Alu RSH Acc v => v < 32
  | Alu _ _ _ => True
  | Return Const _ | Return Acc _ => True
  | Return Idx _ => False
  | Jump _ _ _ _ | JumpTo _ | Label _ => True
  end.

(** What filters do to a history (C119). Two threads, and two worlds, that differ in nothing but
    filters. *)
Definition same_but_filters (t t' : thread) : Prop := set_filters t' (t_filters t) = t.
Definition alike_worlds (w w' : world) : Prop :=
  w_next w = w_next w' /\ Forall2 same_but_filters (w_threads w) (w_threads w').
(** The calls among what is observed, with their fates. *)
Definition calls_among (evs : list event) : list event :=
  filter (fun ev => match ev with EvCall _ _ _ => true | _ => false end) evs.
(** No call that asks for a filter, or for strict mode, is executed. *)
Definition no_filter_asked (evs : list event) : Prop :=
  forall u d, In (EvCall u d Proceed) evs -> ~ asks_for_filter d /\ ~ asks_for_strict_mode d.
(** The second stack is the first with [prog] added in any places. *)
Inductive added (prog : list sock_filter) : list (list sock_filter) -> list (list sock_filter) -> Prop :=
| added_none : added prog [] []
| added_keep : forall f fs fs', added prog fs fs' -> added prog (f :: fs) (f :: fs')
| added_here : forall fs fs', added prog fs fs' -> added prog fs (prog :: fs').
(** The second world is the first with threads of [U] under [prog] as well. *)
Definition also_under (U : nat -> Prop) (prog : list sock_filter) (w w' : world) : Prop :=
  w_next w = w_next w' /\
  Forall2 (fun t t' => same_but_filters t t' /\
     (t_filters t' = t_filters t \/ U (t_uid t) /\ added prog (t_filters t) (t_filters t')))
    (w_threads w) (w_threads w').

(** Processes apart (C120): the threads of a process; whose turn a choice is, and whether that is a
    thread of the process; the choices in a history that are of a process. *)
Definition threads_of (p : N) (w : world) : list thread := filter (fun t => t_pid t =? p) (w_threads w).
Definition whose (o : op) : nat :=
  match o with OPledge u _ _ | OStep u _ | OSys u _ _ | OCap u _ | ODie u => u end.
Definition acts_in (p : N) (w : world) (o : op) : bool :=
  existsb (fun t => Nat.eqb (t_uid t) (whose o)) (threads_of p w).
Fixpoint choices_of (prof : profile) (p : N) (w : world) (ops : list op) : list op :=
  match ops with
  | [] => []
  | o :: os => (if acts_in p w o then [o] else []) ++ choices_of prof p (fst (wstep prof w o)) os
  end.

(** Two threads of one process, and a call no promise grants (witness for C41). *)
Definition two_threads : world :=
  mkWorld [mkThread 0 100 100 false false [] None; mkThread 1 100 101 false false [] None] 2.
Definition ptrace_call : seccomp_data := mkSD SYS_ptrace AUDIT_ARCH_X86_64 0 0 0 0 0 0 0.
