(** SPECIFICATION transcribed from the comments above the rules in src/seccomp.rs, not from their
    code (C78).  Numbers are the ones printed in the comments.  Which argument a parameter is, and
    how wide it is, comes from the prototypes in the manual pages: int, unsigned and mode_t
    parameters are the low 32 bits of the register, pointers all 64. *)
From Coq Require Import NArith List.
From Verif Require Import Libc Machine Bpf Vm Promises Spec.
Import ListNotations.
Local Open Scope N_scope.

(** [v] has none of the listed flags / all of them / no flag that is not listed. *)
Definition has_none (flags : list N) (v : N) : Prop := Forall (fun f => N.land v f = 0) flags.
Definition has_all (flags : list N) (v : N) : Prop := Forall (fun f => N.land v f = f) flags.
Definition only_has (flags : list N) (v : N) : Prop := N.ldiff v (fold_right N.lor 0 flags) = 0.
(** "S_ISVTX (01000 sticky), S_ISGID (02000 setgid), S_ISUID (04000 setuid)" *)
Definition special_bits : list N := [512; 1024; 2048].
(** "O_CREAT (000000100)", "O_TRUNC (000001000)", "__O_TMPFILE (020000000)" *)
Definition creat_flag : N := 64.
Definition trunc_flag : N := 512.
Definition tmpfile_flag : N := 4194304.

(** The system call a rule is about. *)
Definition documented_call (f : Filtered) : N :=
  match f with
  | Whitelist nr => nr
  | FcntlStdio | FcntlLock => SYS_fcntl
  | MmapNoexec | MmapExec => SYS_mmap
  | MprotectNoexec => SYS_mprotect
  | SendtoAddrless => SYS_sendto
  | IoctlRestrict | IoctlInet | IoctlTty => SYS_ioctl
  | KillSelf => SYS_kill
  | TkillSelf => SYS_tkill
  | PrctlStdio => SYS_prctl
  | CloneThread | CloneRestrict => SYS_clone
  | Prlimit64Stdio => SYS_prlimit64
  | OpenReadonly | OpenWriteonly | OpenCreateonly => SYS_open
  | OpenatReadonly | OpenatWriteonly | OpenatCreateonly => SYS_openat
  | ChmodNobits => SYS_chmod
  | FchmodNobits => SYS_fchmod
  | FchmodatNobits => SYS_fchmodat
  | CreatRestrict => SYS_creat
  | SocketInet | SocketUnix => SYS_socket
  | GetsockoptRestrict => SYS_getsockopt
  | SetsockoptRestrict => SYS_setsockopt
  end.

(** "(flags & O_ACCMODE) == O_RDONLY" and the excluded flags, :307-316 and :336-345 *)
Definition doc_readonly (flags : N) : Prop :=
  N.land flags 3 = 0 /\ has_none [creat_flag; trunc_flag; tmpfile_flag] flags.
(** "O_WRONLY", "O_RDWR", :365-374 and :396-405 *)
Definition doc_writeonly (flags : N) : Prop :=
  (N.land flags 3 = 1 \/ N.land flags 3 = 2) /\ has_none [creat_flag; tmpfile_flag] flags.
(** "If the flags parameter has one of .. then the mode parameter must not have", :480-490, :514-524 *)
Definition doc_createonly (flags mode : N) : Prop :=
  ~ has_none [creat_flag; tmpfile_flag] flags -> has_none special_bits mode.
(** "The type parameter of socket() will ignore SOCK_CLOEXEC (0x80000), SOCK_NONBLOCK (0x00800)" *)
Definition doc_sock_type (ty : N) : Prop :=
  N.ldiff ty (0x80000 + 0x00800) = 1 \/ N.ldiff ty (0x80000 + 0x00800) = 2.

(** What the comment demands of the arguments.  Comment lines in src/seccomp.rs: fcntl :84-92,
    mmap :105-117, mprotect :135-140, sendto :155-158, ioctl :173-179, kill :195-198,
    tkill :211-214, prctl :230-239, clone :259-272 and :867-872, prlimit :293-296, chmod :426-431,
    fchmod :444-449, fchmodat :462-467, creat :547-552, fcntl locks :566-571, socket :587-608 and
    :760-778, SIOCATMARK :638-641, getsockopt :656-670, setsockopt :698-722, tty :806-819,
    mmap_exec :887-892. *)
Definition documented_args (f : Filtered) (pid tid : N) (d : seccomp_data) : Prop :=
  let a0 := lo32 (sd_a0 d) in let a1 := lo32 (sd_a1 d) in let a2 := lo32 (sd_a2 d) in
  let a3 := lo32 (sd_a3 d) in
  match f with
  | Whitelist _ => True
  | FcntlStdio => In a1 [0; 1; 2; 3; 4; 1030]
  | MmapNoexec => only_has [0; 1; 2] a2 /\ has_none [0x02000; 0x08000; 0x10000; 0x40000] a3
  | MprotectNoexec => only_has [0; 1; 2] a2
  | SendtoAddrless => sd_a4 d = 0
  | IoctlRestrict => In a1 [0x541b; 0x5421; 0x5451; 0x5450]
  | KillSelf => a0 = pid
  | TkillSelf => a0 = tid
  | PrctlStdio => In a0 [15; 16; 21; 22; 38; 23; 24]
  | CloneThread =>
      has_all [0x00000100; 0x00000200; 0x00000400; 0x00010000; 0x00000800] a0 /\
      has_none [0x00020000; 0x00002000; 0x00800000] a0
  | CloneRestrict => has_none [0x00020000; 0x00002000; 0x00800000] a0
  | Prlimit64Stdio => sd_a2 d = 0
  | OpenReadonly => doc_readonly a1
  | OpenatReadonly => doc_readonly a2
  | OpenWriteonly => doc_writeonly a1
  | OpenatWriteonly => doc_writeonly a2
  | OpenCreateonly => doc_createonly a1 a2
  | OpenatCreateonly => doc_createonly a2 a3
  | ChmodNobits | FchmodNobits | CreatRestrict => has_none special_bits a1
  | FchmodatNobits => has_none special_bits a2
  | FcntlLock => In a1 [5; 6; 7]
  | SocketInet => In a0 [0x02; 0x0a] /\ doc_sock_type a1 /\ In a2 [0; 0x01; 0x06; 0x11]
  | SocketUnix => In a0 [1; 1] /\ doc_sock_type a1 /\ In a2 [0]
  | IoctlInet => In a1 [0x8905]
  | GetsockoptRestrict =>
      In a1 [1; 6] /\ In a2 [0x03; 0x04; 0x0f; 0x02; 0x09; 0x14; 0x15]
  | SetsockoptRestrict =>
      In a1 [0; 1; 6] /\
      In a2 [0x01; 0x03; 0x04; 0x05; 0x03; 0x04; 0x05; 0x0f; 0x02; 0x09; 0x14; 0x15; 0x0c; 0x0b;
             0x17; 0x1e]
  | IoctlTty =>
      In a1 [0x5401; 0x5402; 0x5403; 0x5404; 0x5413; 0x5410; 0x540f; 0x5414; 0x540b; 0x540a; 0x5409;
             0x5427]
  | MmapExec => has_none [0x02000; 0x10000; 0x40000] a3
  end.

Definition documented (f : Filtered) (pid tid : N) (d : seccomp_data) : Prop :=
  sd_nr d = documented_call f /\ documented_args f pid tid d.

(** The rules whose code does something else. *)
Definition deviating : list Filtered :=
  [MmapNoexec; Prlimit64Stdio; OpenReadonly; OpenWriteonly; OpenCreateonly; FchmodatNobits;
   SetsockoptRestrict].

(** [prog] is the filter made of the one rule [f]. *)
Definition rule_filter (prof : profile) (pid tid : N) (f : Filtered) (v : SeccompRet.SeccompReturn)
  (prog : list sock_filter) : Prop :=
  Filters.filters_to_prog prof (Filters.mkEnv (Ok pid) (Ok tid)) [f] v = Ok prog.

(** The call as a deviating rule mistakes it: the argument it tests in place of the documented
    one; for setsockopt_restrict the call number. *)
Definition mistaken (f : Filtered) (d : seccomp_data) : seccomp_data :=
  match f with
  | OpenReadonly | OpenWriteonly | OpenCreateonly =>
      mkSD (sd_nr d) (sd_arch d) (sd_ip d) (sd_a0 d) (sd_a2 d) (sd_a3 d) (sd_a3 d) (sd_a4 d) (sd_a5 d)
  | FchmodatNobits =>
      mkSD (sd_nr d) (sd_arch d) (sd_ip d) (sd_a0 d) (sd_a1 d) (sd_a1 d) (sd_a3 d) (sd_a4 d) (sd_a5 d)
  | SetsockoptRestrict =>
      mkSD (if sd_nr d =? SYS_getsockopt then SYS_setsockopt else SYS_getsockopt)
           (sd_arch d) (sd_ip d) (sd_a0 d) (sd_a1 d) (sd_a2 d) (sd_a3 d) (sd_a4 d) (sd_a5 d)
  | _ => d
  end.
