(** Model of src/seccomp.rs:32-979: filter fragments and program assembly. *)
From Coq Require Import NArith String List Bool.
From Verif Require Import Libc Machine Bpf SeccompRet Asm Promises.
Import ListNotations.
Local Open Scope N_scope.
Local Open Scope string_scope.

(** [libpledge::Error], src/errors.rs:23-31 ([std::io::Error] is held as its errno). *)
Inductive pledge_error :=
| UndefinedPromise (p : Promise)
| SysErr (errno : N)
| BPFErr (e : bpf_error).

(** src/seccomp.rs:32 *)
Definition O_TMPFILE_ : N := 0x400000. (* __O_TMPFILE, 0o20000000 *)

(** [SeccompReturn::Allow.into()] *)
Definition allow_code : N := ret_into Allow.

(** [syscall_check!], first arm, src/seccomp.rs:42-47 *)
Definition syscall_check1 (syscall : N) : list Operation :=
  [ Jump JEQ (as_u32 syscall) None (Some "NEXT_FILTER");
    Return Const allow_code;
    Label "NEXT_FILTER" ].

(** [syscall_check!], second arm, src/seccomp.rs:48-56 *)
Definition syscall_check (syscall : N) (els : list Operation) : list Operation :=
  [ Jump JEQ (as_u32 syscall) None (Some "NEXT_FILTER") ]
  ++ els
  ++ [ Return Const allow_code;
       Label "NEXT_FILTER";
       (* Assume accumulator is trashed. *)
       Load ABS (offset Syscall) ].

(** [Ok(compile(&asm)?)] *)
Definition compiled (prof : profile) (asm : list Operation) : res pledge_error (list sock_filter) :=
  map_err BPFErr (compile prof asm).

(** The two system calls made while building fragments: [process::id()] (getpid,
    src/seccomp.rs:203) and [libc::gettid()] (src/seccomp.rs:218).  Each may be refused by an
    earlier filter, hence an outcome. *)
Record sysenv := mkEnv { env_getpid : res pledge_error N; env_gettid : res pledge_error N }.

(** [bpf_header], src/seccomp.rs:60-71 *)
Definition asm_header : list Operation :=
  [ Load ABS (offset Arch);
    Jump JEQ AUDIT_ARCH_X86_64 (Some "START") None;
    Return Const (ret_into KillProcess);
    Label "START";
    Load ABS (offset Syscall) ].
Definition bpf_header (prof : profile) := compiled prof asm_header.

(** [bpf_footer], src/seccomp.rs:73-77 *)
Definition asm_footer (violation : SeccompReturn) : list Operation :=
  [ Return Const (ret_into violation) ].
Definition bpf_footer (prof : profile) (violation : SeccompReturn) :=
  compiled prof (asm_footer violation).

(** [whitelist_syscall], src/seccomp.rs:79-82 *)
Definition asm_whitelist (syscall : N) : list Operation := syscall_check1 syscall.
Definition whitelist_syscall (prof : profile) (syscall : N) :=
  compiled prof (asm_whitelist syscall).

(** [fcntl_stdio], src/seccomp.rs:93-103 *)
Definition asm_fcntl_stdio : list Operation :=
  syscall_check SYS_fcntl
  [ Load ABS (offset (ArgLower 1));
    Jump JEQ (as_u32 F_DUPFD_CLOEXEC) (Some "Allow") None;
    Jump JGT 4 (Some "NEXT_FILTER") None;
    Label "Allow";
    Return Const allow_code ].
Definition fcntl_stdio (prof : profile) := compiled prof asm_fcntl_stdio.

(** [mmap_noexec], src/seccomp.rs:118-133 *)
Definition asm_mmap_noexec : list Operation :=
  let fmask := N.lor (N.lor (N.lor MAP_LOCKED MAP_POPULATE) MAP_NONBLOCK) MAP_HUGETLB in
  syscall_check SYS_mmap
  [ Load ABS (offset (ArgLower 2));
    Jump JGT 2 (Some "NEXT_FILTER") None;
    Load ABS (offset (ArgLower 3));
    Alu AND Const (as_u32 fmask);
    Jump JEQ 0 None (Some "NEXT_FILTER");
    Return Const allow_code ].
Definition mmap_noexec (prof : profile) := compiled prof asm_mmap_noexec.

(** [mprotect_noexec], src/seccomp.rs:141-153 *)
Definition asm_mprotect_noexec : list Operation :=
  let mask := not_u32 (N.lor (N.lor PROT_READ PROT_WRITE) PROT_NONE) in
  syscall_check SYS_mprotect
  [ Load ABS (offset (ArgLower 2));
    Alu AND Const (as_u32 mask);
    Jump JEQ 0 None (Some "NEXT_FILTER");
    Return Const allow_code ].
Definition mprotect_noexec (prof : profile) := compiled prof asm_mprotect_noexec.

(** [sendto_addrless], src/seccomp.rs:159-171 *)
Definition asm_sendto_addrless : list Operation :=
  syscall_check SYS_sendto
  [ Load ABS (offset (ArgLower 4));
    Jump JEQ 0 None (Some "NEXT_FILTER");
    Load ABS (offset (ArgUpper 4));
    Jump JEQ 0 None (Some "NEXT_FILTER");
    Return Const allow_code ].
Definition sendto_addrless (prof : profile) := compiled prof asm_sendto_addrless.

(** [ioctl_restrict], src/seccomp.rs:180-193 *)
Definition asm_ioctl_restrict : list Operation :=
  syscall_check SYS_ioctl
  [ Load ABS (offset (ArgLower 1));
    Jump JEQ (as_u32 FIONREAD) (Some "Allow") None;
    Jump JEQ (as_u32 FIONBIO) (Some "Allow") None;
    Jump JEQ (as_u32 FIOCLEX) (Some "Allow") None;
    Jump JEQ (as_u32 FIONCLEX) (Some "Allow") None;
    JumpTo "NEXT_FILTER";
    Label "Allow";
    Return Const allow_code ].
Definition ioctl_restrict (prof : profile) := compiled prof asm_ioctl_restrict.

(** [kill_self], src/seccomp.rs:199-209 *)
Definition asm_kill_self (pid : N) : list Operation :=
  syscall_check SYS_kill
  [ Load ABS (offset (ArgLower 0));
    Jump JEQ pid (Some "Allow") None;
    JumpTo "NEXT_FILTER";
    Label "Allow";
    Return Const allow_code ].
Definition kill_self (prof : profile) (env : sysenv) :=
  pid <- env_getpid env ;; compiled prof (asm_kill_self pid).

(** [tkill_self], src/seccomp.rs:215-228 *)
Definition asm_tkill_self (tid : N) : list Operation :=
  syscall_check SYS_tkill
  [ Load ABS (offset (ArgLower 0));
    Jump JEQ tid (Some "Allow") None;
    JumpTo "NEXT_FILTER";
    Label "Allow";
    Return Const allow_code ].
Definition tkill_self (prof : profile) (env : sysenv) :=
  tid <- env_gettid env ;; compiled prof (asm_tkill_self (as_u32 tid)).

(** [prctl_stdio], src/seccomp.rs:240-256 *)
Definition asm_prctl_stdio : list Operation :=
  syscall_check SYS_prctl
  [ Load ABS (offset (ArgLower 0));
    Jump JEQ (as_u32 PR_SET_NAME) (Some "Allow") None;
    Jump JEQ (as_u32 PR_GET_NAME) (Some "Allow") None;
    Jump JEQ (as_u32 PR_GET_SECCOMP) (Some "Allow") None;
    Jump JEQ (as_u32 PR_SET_SECCOMP) (Some "Allow") None;
    Jump JEQ (as_u32 PR_SET_NO_NEW_PRIVS) (Some "Allow") None;
    Jump JEQ (as_u32 PR_CAPBSET_READ) (Some "Allow") None;
    Jump JEQ (as_u32 PR_CAPBSET_DROP) (Some "Allow") None;
    JumpTo "NEXT_FILTER";
    Label "Allow";
    Return Const allow_code ].
Definition prctl_stdio (prof : profile) := compiled prof asm_prctl_stdio.

(** [clone_thread], src/seccomp.rs:273-290 *)
Definition asm_clone_thread : list Operation :=
  let ok_mask := N.lor (N.lor (N.lor (N.lor CLONE_VM CLONE_FS) CLONE_FILES) CLONE_THREAD) CLONE_SIGHAND in
  let no_mask := N.lor (N.lor CLONE_NEWNS CLONE_PTRACE) CLONE_UNTRACED in
  syscall_check SYS_clone
  [ Load ABS (offset (ArgLower 0));
    Alu AND Const (as_u32 ok_mask);
    Jump JEQ (as_u32 ok_mask) None (Some "NEXT_FILTER");
    Load ABS (offset (ArgLower 0));
    Alu AND Const (as_u32 no_mask);
    Jump JEQ 0 None (Some "NEXT_FILTER");
    Label "Allow";
    Return Const allow_code ].
Definition clone_thread (prof : profile) := compiled prof asm_clone_thread.

(** [prlimit64_stdio], src/seccomp.rs:297-305 *)
Definition asm_prlimit64_stdio : list Operation :=
  syscall_check SYS_prlimit64
  [ Load ABS (offset (ArgLower 2));
    Jump JEQ 0 None (Some "NEXT_FILTER");
    Return Const allow_code ].
Definition prlimit64_stdio (prof : profile) := compiled prof asm_prlimit64_stdio.

(** [open_readonly], src/seccomp.rs:317-333 *)
Definition asm_open_readonly : list Operation :=
  let mask := N.lor (N.lor O_CREAT O_TRUNC) O_TMPFILE_ in
  syscall_check SYS_open
  [ Load ABS (offset (ArgLower 2));
    Alu AND Const (as_u32 O_ACCMODE);
    Jump JEQ (as_u32 O_RDONLY) None (Some "NEXT_FILTER");
    Load ABS (offset (ArgLower 2));
    Alu AND Const (as_u32 mask);
    Jump JEQ 0 None (Some "NEXT_FILTER");
    Return Const allow_code ].
Definition open_readonly (prof : profile) := compiled prof asm_open_readonly.

(** [openat_readonly], src/seccomp.rs:346-362 *)
Definition asm_openat_readonly : list Operation :=
  let mask := N.lor (N.lor O_CREAT O_TRUNC) O_TMPFILE_ in
  syscall_check SYS_openat
  [ Load ABS (offset (ArgLower 2));
    Alu AND Const (as_u32 O_ACCMODE);
    Jump JEQ (as_u32 O_RDONLY) None (Some "NEXT_FILTER");
    Load ABS (offset (ArgLower 2));
    Alu AND Const (as_u32 mask);
    Jump JEQ 0 None (Some "NEXT_FILTER");
    Return Const allow_code ].
Definition openat_readonly (prof : profile) := compiled prof asm_openat_readonly.

(** [open_writeonly], src/seccomp.rs:375-393 *)
Definition asm_open_writeonly : list Operation :=
  let mask := N.lor O_CREAT O_TMPFILE_ in
  syscall_check SYS_open
  [ Load ABS (offset (ArgLower 2));
    Alu AND Const (as_u32 O_ACCMODE);
    Jump JEQ (as_u32 O_WRONLY) (Some "FLAG_CHECK") None;
    Jump JEQ (as_u32 O_RDWR) None (Some "NEXT_FILTER");
    Label "FLAG_CHECK";
    Load ABS (offset (ArgLower 2));
    Alu AND Const (as_u32 mask);
    Jump JEQ 0 None (Some "NEXT_FILTER");
    Return Const allow_code ].
Definition open_writeonly (prof : profile) := compiled prof asm_open_writeonly.

(** [openat_writeonly], src/seccomp.rs:406-424 *)
Definition asm_openat_writeonly : list Operation :=
  let mask := N.lor O_CREAT O_TMPFILE_ in
  syscall_check SYS_openat
  [ Load ABS (offset (ArgLower 2));
    Alu AND Const (as_u32 O_ACCMODE);
    Jump JEQ (as_u32 O_WRONLY) (Some "FLAG_CHECK") None;
    Jump JEQ (as_u32 O_RDWR) None (Some "NEXT_FILTER");
    Label "FLAG_CHECK";
    Load ABS (offset (ArgLower 2));
    Alu AND Const (as_u32 mask);
    Jump JEQ 0 None (Some "NEXT_FILTER");
    Return Const allow_code ].
Definition openat_writeonly (prof : profile) := compiled prof asm_openat_writeonly.

(** [chmod_nobits], src/seccomp.rs:432-442 *)
Definition asm_chmod_nobits : list Operation :=
  let mmask := N.lor (N.lor S_ISVTX S_ISGID) S_ISUID in
  syscall_check SYS_chmod
  [ Load ABS (offset (ArgLower 1));
    Alu AND Const (as_u32 mmask);
    Jump JEQ 0 None (Some "NEXT_FILTER");
    Return Const allow_code ].
Definition chmod_nobits (prof : profile) := compiled prof asm_chmod_nobits.

(** [fchmod_nobits], src/seccomp.rs:450-460 *)
Definition asm_fchmod_nobits : list Operation :=
  let mmask := N.lor (N.lor S_ISVTX S_ISGID) S_ISUID in
  syscall_check SYS_fchmod
  [ Load ABS (offset (ArgLower 1));
    Alu AND Const (as_u32 mmask);
    Jump JEQ 0 None (Some "NEXT_FILTER");
    Return Const allow_code ].
Definition fchmod_nobits (prof : profile) := compiled prof asm_fchmod_nobits.

(** [fchmodat_nobits], src/seccomp.rs:468-478 *)
Definition asm_fchmodat_nobits : list Operation :=
  let mmask := N.lor (N.lor S_ISVTX S_ISGID) S_ISUID in
  syscall_check SYS_fchmodat
  [ Load ABS (offset (ArgLower 1));
    Alu AND Const (as_u32 mmask);
    Jump JEQ 0 None (Some "NEXT_FILTER");
    Return Const allow_code ].
Definition fchmodat_nobits (prof : profile) := compiled prof asm_fchmodat_nobits.

(** [open_createonly], src/seccomp.rs:491-511 *)
Definition asm_open_createonly : list Operation :=
  let mmask := N.lor (N.lor S_ISVTX S_ISGID) S_ISUID in
  syscall_check SYS_open
  [ Load ABS (offset (ArgLower 2));
    Alu AND Const (as_u32 O_CREAT);
    Jump JEQ (as_u32 O_CREAT) (Some "FLAG_CHECK") None;
    Load ABS (offset (ArgLower 2));
    Alu AND Const (as_u32 O_TMPFILE_);
    Jump JEQ (as_u32 O_TMPFILE_) (Some "FLAG_CHECK") (Some "ALLOW");
    Label "FLAG_CHECK";
    Load ABS (offset (ArgLower 3));
    Alu AND Const (as_u32 mmask);
    Jump JEQ 0 (Some "ALLOW") (Some "NEXT_FILTER");
    Label "ALLOW";
    Return Const allow_code ].
Definition open_createonly (prof : profile) := compiled prof asm_open_createonly.

(** [openat_createonly], src/seccomp.rs:525-545 *)
Definition asm_openat_createonly : list Operation :=
  let mmask := N.lor (N.lor S_ISVTX S_ISGID) S_ISUID in
  syscall_check SYS_openat
  [ Load ABS (offset (ArgLower 2));
    Alu AND Const (as_u32 O_CREAT);
    Jump JEQ (as_u32 O_CREAT) (Some "FLAG_CHECK") None;
    Load ABS (offset (ArgLower 2));
    Alu AND Const (as_u32 O_TMPFILE_);
    Jump JEQ (as_u32 O_TMPFILE_) (Some "FLAG_CHECK") (Some "ALLOW");
    Label "FLAG_CHECK";
    Load ABS (offset (ArgLower 3));
    Alu AND Const (as_u32 mmask);
    Jump JEQ 0 (Some "ALLOW") (Some "NEXT_FILTER");
    Label "ALLOW";
    Return Const allow_code ].
Definition openat_createonly (prof : profile) := compiled prof asm_openat_createonly.

(** [create_restrict], src/seccomp.rs:553-563 *)
Definition asm_create_restrict : list Operation :=
  let mmask := N.lor (N.lor S_ISVTX S_ISGID) S_ISUID in
  syscall_check SYS_creat
  [ Load ABS (offset (ArgLower 1));
    Alu AND Const (as_u32 mmask);
    Jump JEQ 0 None (Some "NEXT_FILTER");
    Return Const allow_code ].
Definition create_restrict (prof : profile) := compiled prof asm_create_restrict.

(** [fcntl_lock], src/seccomp.rs:572-584 *)
Definition asm_fcntl_lock : list Operation :=
  syscall_check SYS_fcntl
  [ Load ABS (offset (ArgLower 1));
    Jump JEQ (as_u32 F_GETLK) (Some "Allow") None;
    Jump JEQ (as_u32 F_SETLK) (Some "Allow") None;
    Jump JEQ (as_u32 F_SETLKW) (Some "Allow") None;
    JumpTo "NEXT_FILTER";
    Label "Allow";
    Return Const allow_code ].
Definition fcntl_lock (prof : profile) := compiled prof asm_fcntl_lock.

(** [socket_inet], src/seccomp.rs:609-636 *)
Definition asm_socket_inet : list Operation :=
  syscall_check SYS_socket
  [ Load ABS (offset (ArgLower 0));
    Jump JEQ (as_u32 AF_INET) (Some "Type_Check") None;
    Jump JEQ (as_u32 AF_INET6) (Some "Type_Check") (Some "NEXT_FILTER");
    Label "Type_Check";
    Load ABS (offset (ArgLower 1));
    Alu AND Const (not_u32 0x80800);
    Jump JEQ (as_u32 SOCK_STREAM) (Some "Proto_Check") None;
    Jump JEQ (as_u32 SOCK_DGRAM) (Some "Proto_Check") (Some "NEXT_FILTER");
    Label "Proto_Check";
    Load ABS (offset (ArgLower 2));
    Jump JEQ 0 (Some "Allow") None;
    Jump JEQ (as_u32 IPPROTO_ICMP) (Some "Allow") None;
    Jump JEQ (as_u32 IPPROTO_TCP) (Some "Allow") None;
    Jump JEQ (as_u32 IPPROTO_UDP) (Some "Allow") None;
    JumpTo "NEXT_FILTER";
    Label "Allow";
    Return Const allow_code ].
Definition socket_inet (prof : profile) := compiled prof asm_socket_inet.

(** [ioctl_inet], src/seccomp.rs:642-653 *)
Definition asm_ioctl_inet : list Operation :=
  let SIOCATMARK := 0x8905 in
  syscall_check SYS_ioctl
  [ Load ABS (offset (ArgLower 1));
    Jump JEQ SIOCATMARK (Some "Allow") None;
    JumpTo "NEXT_FILTER";
    Label "Allow";
    Return Const allow_code ].
Definition ioctl_inet (prof : profile) := compiled prof asm_ioctl_inet.

(** [getsockopt_restrict], src/seccomp.rs:671-695 *)
Definition asm_getsockopt_restrict : list Operation :=
  syscall_check SYS_getsockopt
  [ Load ABS (offset (ArgLower 1));
    Jump JEQ (as_u32 SOL_SOCKET) (Some "Opt_Check") None;
    Jump JEQ (as_u32 SOL_TCP) (Some "Opt_Check") (Some "NEXT_FILTER");
    Label "Opt_Check";
    Load ABS (offset (ArgLower 2));
    Jump JEQ (as_u32 SO_TYPE) (Some "Allow") None;
    Jump JEQ (as_u32 SO_ERROR) (Some "Allow") None;
    Jump JEQ (as_u32 SO_REUSEPORT) (Some "Allow") None;
    Jump JEQ (as_u32 SO_REUSEADDR) (Some "Allow") None;
    Jump JEQ (as_u32 SO_KEEPALIVE) (Some "Allow") None;
    Jump JEQ (as_u32 SO_RCVTIMEO) (Some "Allow") None;
    Jump JEQ (as_u32 SO_SNDTIMEO) (Some "Allow") None;
    JumpTo "NEXT_FILTER";
    Label "Allow";
    Return Const allow_code ].
Definition getsockopt_restrict (prof : profile) := compiled prof asm_getsockopt_restrict.

(** [setsockopt_restrict], src/seccomp.rs:723-757 *)
Definition asm_setsockopt_restrict : list Operation :=
  syscall_check SYS_getsockopt
  [ Load ABS (offset (ArgLower 1));
    Jump JEQ (as_u32 SOL_IP) (Some "Opt_Check") None;
    Jump JEQ (as_u32 SOL_SOCKET) (Some "Opt_Check") None;
    Jump JEQ (as_u32 SOL_TCP) (Some "Opt_Check") (Some "NEXT_FILTER");
    Label "Opt_Check";
    Load ABS (offset (ArgLower 2));
    Jump JEQ (as_u32 TCP_NODELAY) (Some "Allow") None;
    Jump JEQ (as_u32 TCP_CORK) (Some "Allow") None;
    Jump JEQ (as_u32 TCP_KEEPIDLE) (Some "Allow") None;
    Jump JEQ (as_u32 TCP_KEEPINTVL) (Some "Allow") None;
    Jump JEQ (as_u32 SO_TYPE) (Some "Allow") None;
    Jump JEQ (as_u32 SO_ERROR) (Some "Allow") None;
    Jump JEQ (as_u32 SO_DONTROUTE) (Some "Allow") None;
    Jump JEQ (as_u32 SO_REUSEPORT) (Some "Allow") None;
    Jump JEQ (as_u32 SO_REUSEADDR) (Some "Allow") None;
    Jump JEQ (as_u32 SO_KEEPALIVE) (Some "Allow") None;
    Jump JEQ (as_u32 SO_RCVTIMEO) (Some "Allow") None;
    Jump JEQ (as_u32 SO_SNDTIMEO) (Some "Allow") None;
    Jump JEQ (as_u32 IP_RECVTTL) (Some "Allow") None;
    Jump JEQ (as_u32 IP_RECVERR) (Some "Allow") None;
    Jump JEQ (as_u32 TCP_FASTOPEN) (Some "Allow") None;
    Jump JEQ (as_u32 TCP_FASTOPEN_CONNECT) (Some "Allow") None;
    JumpTo "NEXT_FILTER";
    Label "Allow";
    Return Const allow_code ].
Definition setsockopt_restrict (prof : profile) := compiled prof asm_setsockopt_restrict.

(** [socket_unix], src/seccomp.rs:779-803 *)
Definition asm_socket_unix : list Operation :=
  syscall_check SYS_socket
  [ Load ABS (offset (ArgLower 0));
    Jump JEQ (as_u32 AF_UNIX) (Some "Type_Check") None;
    Jump JEQ (as_u32 AF_LOCAL) (Some "Type_Check") (Some "NEXT_FILTER");
    Label "Type_Check";
    Load ABS (offset (ArgLower 1));
    Alu AND Const (not_u32 0x80800);
    Jump JEQ (as_u32 SOCK_STREAM) (Some "Proto_Check") None;
    Jump JEQ (as_u32 SOCK_DGRAM) (Some "Proto_Check") (Some "NEXT_FILTER");
    Label "Proto_Check";
    Load ABS (offset (ArgLower 2));
    Jump JEQ 0 (Some "Allow") None;
    JumpTo "NEXT_FILTER";
    Label "Allow";
    Return Const allow_code ].
Definition socket_unix (prof : profile) := compiled prof asm_socket_unix.

(** [ioctl_tty], src/seccomp.rs:843-864 *)
Definition asm_ioctl_tty : list Operation :=
  syscall_check SYS_ioctl
  [ Load ABS (offset (ArgLower 1));
    Jump JEQ (as_u32 TCGETS) (Some "Allow") None;
    Jump JEQ (as_u32 TCSETS) (Some "Allow") None;
    Jump JEQ (as_u32 TCSETSW) (Some "Allow") None;
    Jump JEQ (as_u32 TCSETSF) (Some "Allow") None;
    Jump JEQ (as_u32 TIOCGWINSZ) (Some "Allow") None;
    Jump JEQ (as_u32 TIOCSPGRP) (Some "Allow") None;
    Jump JEQ (as_u32 TIOCGPGRP) (Some "Allow") None;
    Jump JEQ (as_u32 TIOCSWINSZ) (Some "Allow") None;
    Jump JEQ (as_u32 TCFLSH) (Some "Allow") None;
    Jump JEQ (as_u32 TCXONC) (Some "Allow") None;
    Jump JEQ (as_u32 TCSBRK) (Some "Allow") None;
    Jump JEQ (as_u32 TIOCSBRK) (Some "Allow") None;
    JumpTo "NEXT_FILTER";
    Label "Allow";
    Return Const allow_code ].
Definition ioctl_tty (prof : profile) := compiled prof asm_ioctl_tty.

(** [clone_restrict], src/seccomp.rs:873-885 *)
Definition asm_clone_restrict : list Operation :=
  let no_mask := N.lor (N.lor CLONE_NEWNS CLONE_PTRACE) CLONE_UNTRACED in
  syscall_check SYS_clone
  [ Load ABS (offset (ArgLower 0));
    Alu AND Const (as_u32 no_mask);
    Jump JEQ 0 None (Some "NEXT_FILTER");
    Label "Allow";
    Return Const allow_code ].
Definition clone_restrict (prof : profile) := compiled prof asm_clone_restrict.

(** [mmap_exec], src/seccomp.rs:893-905 *)
Definition asm_mmap_exec : list Operation :=
  let mask := N.lor (N.lor MAP_LOCKED MAP_NONBLOCK) MAP_HUGETLB in
  syscall_check SYS_mmap
  [ Load ABS (offset (ArgLower 3));
    Alu AND Const (as_u32 mask);
    Jump JEQ 0 None (Some "NEXT_FILTER");
    Return Const allow_code ].
Definition mmap_exec (prof : profile) := compiled prof asm_mmap_exec.

(** [filter_to_bpf], src/seccomp.rs:908-941 *)
Definition filter_to_bpf (prof : profile) (env : sysenv) (filter : Filtered)
  : res pledge_error (list sock_filter) :=
  match filter with
  | Whitelist syscall => whitelist_syscall prof syscall
  | FcntlStdio => fcntl_stdio prof
  | MmapNoexec => mmap_noexec prof
  | MprotectNoexec => mprotect_noexec prof
  | SendtoAddrless => sendto_addrless prof
  | IoctlRestrict => ioctl_restrict prof
  | KillSelf => kill_self prof env
  | TkillSelf => tkill_self prof env
  | PrctlStdio => prctl_stdio prof
  | CloneThread => clone_thread prof
  | Prlimit64Stdio => prlimit64_stdio prof
  | OpenReadonly => open_readonly prof
  | OpenatReadonly => openat_readonly prof
  | OpenWriteonly => open_writeonly prof
  | OpenatWriteonly => openat_writeonly prof
  | ChmodNobits => chmod_nobits prof
  | FchmodNobits => fchmod_nobits prof
  | FchmodatNobits => fchmodat_nobits prof
  | OpenCreateonly => open_createonly prof
  | OpenatCreateonly => openat_createonly prof
  | CreatRestrict => create_restrict prof
  | FcntlLock => fcntl_lock prof
  | SocketInet => socket_inet prof
  | IoctlInet => ioctl_inet prof
  | GetsockoptRestrict => getsockopt_restrict prof
  | SetsockoptRestrict => setsockopt_restrict prof
  | SocketUnix => socket_unix prof
  | IoctlTty => ioctl_tty prof
  | CloneRestrict => clone_restrict prof
  | MmapExec => mmap_exec prof
  end.

(** The second half of [filters_to_prog], src/seccomp.rs:968-978 *)
Definition assemble_parts (prof : profile) (whitelist : list (list sock_filter))
  (violation : SeccompReturn) : res pledge_error (list sock_filter) :=
  header <- bpf_header prof ;;
  footer <- bpf_footer prof violation ;;
  Ok (header ++ List.concat whitelist ++ footer)%list.

(** [filters_to_prog], src/seccomp.rs:961-979 *)
Definition filters_to_prog (prof : profile) (env : sysenv) (filters : list Filtered)
  (violation : SeccompReturn) : res pledge_error (list sock_filter) :=
  whitelist <- mapM (filter_to_bpf prof env) filters ;;
  assemble_parts prof whitelist violation.

(** [PROMISES.get(&p).ok_or(Error::UndefinedPromise(p))], src/seccomp.rs:950 *)
Definition promise_filters (p : Promise) : res pledge_error (list Filtered) :=
  match promises_get p with
  | Some fs => Ok fs
  | None => Err (UndefinedPromise p)
  end.

(** The first half of [promises_to_prog], src/seccomp.rs:946-954 *)
Definition promises_to_filters (promises : list Promise) : res pledge_error (list Filtered) :=
  filterss <- mapM promise_filters (Default :: promises) ;;
  Ok (List.concat filterss).

(** [promises_to_prog], src/seccomp.rs:943-957 *)
Definition promises_to_prog (prof : profile) (env : sysenv) (promises : list Promise)
  (violation : SeccompReturn) : res pledge_error (list sock_filter) :=
  filters <- promises_to_filters promises ;;
  filters_to_prog prof env filters violation.
