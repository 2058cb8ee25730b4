(** Model of src/promises.rs: the promise table. *)
From Coq Require Import NArith List Bool.
From Verif Require Import Libc.
Import ListNotations.
Local Open Scope N_scope.

(** [Promise], src/promises.rs:21-46 *)
Inductive Promise :=
| Default | StdIO | RPath | WPath | CPath | DPath | FLock | FAttr | Inet | Unix | Dns | Tty
| RecvFd | SendFd | Proc | Id | Chown | SetTime | ProtExec | Exec | VmInfo | TmpPath | Unveil.

(** [#[derive(Hash, Eq, PartialEq)]] on Promise, src/promises.rs:21 *)
Definition promise_eq_dec (p q : Promise) : {p = q} + {p <> q}.
Proof. decide equality. Defined.
Definition promise_eqb (p q : Promise) : bool := if promise_eq_dec p q then true else false.

(** [Filtered], src/promises.rs:49-81.  The c_long of [Whitelist] is held as the
    (non-negative) syscall number. *)
Inductive Filtered :=
| Whitelist (nr : N)
| FcntlStdio | MmapNoexec | MprotectNoexec | SendtoAddrless | IoctlRestrict
| KillSelf | TkillSelf | PrctlStdio | CloneThread | Prlimit64Stdio
| OpenReadonly | OpenatReadonly | OpenWriteonly | OpenatWriteonly
| ChmodNobits | FchmodNobits | FchmodatNobits
| OpenCreateonly | OpenatCreateonly | CreatRestrict
| FcntlLock | SocketInet | IoctlInet | GetsockoptRestrict | SetsockoptRestrict
| SocketUnix | IoctlTty | CloneRestrict | MmapExec.

(** src/promises.rs:85-90 *)
Definition filters_Default : list Filtered :=
  [ Whitelist SYS_exit ].

(** src/promises.rs:91-208 *)
Definition filters_StdIO : list Filtered :=
  [ Whitelist SYS_rt_sigreturn;
    Whitelist SYS_restart_syscall;
    Whitelist SYS_exit_group;
    Whitelist SYS_sched_yield;
    Whitelist SYS_sched_getaffinity;
    Whitelist SYS_clock_getres;
    Whitelist SYS_clock_gettime;
    Whitelist SYS_clock_nanosleep;
    Whitelist SYS_close_range;
    Whitelist SYS_close;
    Whitelist SYS_write;
    Whitelist SYS_writev;
    Whitelist SYS_pwrite64;
    Whitelist SYS_pwritev;
    Whitelist SYS_pwritev2;
    Whitelist SYS_read;
    Whitelist SYS_readv;
    Whitelist SYS_pread64;
    Whitelist SYS_preadv;
    Whitelist SYS_preadv2;
    Whitelist SYS_dup;
    Whitelist SYS_dup2;
    Whitelist SYS_dup3;
    Whitelist SYS_fchdir;
    FcntlStdio;
    Whitelist SYS_fstat;
    Whitelist SYS_fsync;
    Whitelist SYS_sysinfo;
    Whitelist SYS_fdatasync;
    Whitelist SYS_ftruncate;
    Whitelist SYS_getrandom;
    Whitelist SYS_getgroups;
    Whitelist SYS_getpgid;
    Whitelist SYS_getpgrp;
    Whitelist SYS_getpid;
    Whitelist SYS_gettid;
    Whitelist SYS_getuid;
    Whitelist SYS_getgid;
    Whitelist SYS_getsid;
    Whitelist SYS_getppid;
    Whitelist SYS_geteuid;
    Whitelist SYS_getegid;
    Whitelist SYS_getrlimit;
    Whitelist SYS_getresgid;
    Whitelist SYS_getresuid;
    Whitelist SYS_getitimer;
    Whitelist SYS_setitimer;
    Whitelist SYS_timerfd_create;
    Whitelist SYS_timerfd_settime;
    Whitelist SYS_timerfd_gettime;
    Whitelist SYS_copy_file_range;
    Whitelist SYS_gettimeofday;
    Whitelist SYS_sendfile;
    Whitelist SYS_vmsplice;
    Whitelist SYS_splice;
    Whitelist SYS_lseek;
    Whitelist SYS_tee;
    Whitelist SYS_brk;
    Whitelist SYS_msync;
    MmapNoexec;
    Whitelist SYS_mremap;
    Whitelist SYS_munmap;
    Whitelist SYS_mincore;
    Whitelist SYS_madvise;
    Whitelist SYS_fadvise64;
    MprotectNoexec;
    Whitelist SYS_arch_prctl;
    Whitelist SYS_migrate_pages;
    Whitelist SYS_sync_file_range;
    Whitelist SYS_set_tid_address;
    Whitelist SYS_membarrier;
    Whitelist SYS_nanosleep;
    Whitelist SYS_pipe;
    Whitelist SYS_pipe2;
    Whitelist SYS_poll;
    Whitelist SYS_ppoll;
    Whitelist SYS_select;
    Whitelist SYS_pselect6;
    Whitelist SYS_epoll_create;
    Whitelist SYS_epoll_create1;
    Whitelist SYS_epoll_ctl;
    Whitelist SYS_epoll_wait;
    Whitelist SYS_epoll_pwait;
    Whitelist SYS_epoll_pwait2;
    Whitelist SYS_recvfrom;
    SendtoAddrless;
    IoctlRestrict;
    Whitelist SYS_alarm;
    Whitelist SYS_pause;
    Whitelist SYS_shutdown;
    Whitelist SYS_eventfd;
    Whitelist SYS_eventfd2;
    Whitelist SYS_signalfd;
    Whitelist SYS_signalfd4;
    Whitelist SYS_rt_sigaction;
    Whitelist SYS_sigaltstack;
    Whitelist SYS_rt_sigprocmask;
    Whitelist SYS_rt_sigsuspend;
    Whitelist SYS_rt_sigpending;
    KillSelf;
    TkillSelf;
    Whitelist SYS_socketpair;
    Whitelist SYS_getrusage;
    Whitelist SYS_times;
    Whitelist SYS_umask;
    Whitelist SYS_wait4;
    Whitelist SYS_uname;
    PrctlStdio;
    CloneThread;
    Whitelist SYS_futex;
    Whitelist SYS_set_robust_list;
    Whitelist SYS_get_robust_list;
    Prlimit64Stdio ].

(** src/promises.rs:209-229 *)
Definition filters_RPath : list Filtered :=
  [ Whitelist SYS_chdir;
    Whitelist SYS_getcwd;
    OpenReadonly;
    OpenatReadonly;
    Whitelist SYS_stat;
    Whitelist SYS_lstat;
    Whitelist SYS_fstat;
    Whitelist SYS_newfstatat;
    Whitelist SYS_access;
    Whitelist SYS_faccessat;
    Whitelist SYS_faccessat2;
    Whitelist SYS_readlink;
    Whitelist SYS_readlinkat;
    Whitelist SYS_statfs;
    Whitelist SYS_fstatfs;
    Whitelist SYS_getdents ].

(** src/promises.rs:230-249 *)
Definition filters_WPath : list Filtered :=
  [ Whitelist SYS_getcwd;
    OpenWriteonly;
    OpenatWriteonly;
    Whitelist SYS_stat;
    Whitelist SYS_fstat;
    Whitelist SYS_lstat;
    Whitelist SYS_newfstatat;
    Whitelist SYS_access;
    Whitelist SYS_truncate;
    Whitelist SYS_faccessat;
    Whitelist SYS_faccessat2;
    Whitelist SYS_readlinkat;
    ChmodNobits;
    FchmodNobits;
    FchmodatNobits ].

(** src/promises.rs:250-269 *)
Definition filters_CPath : list Filtered :=
  [ OpenCreateonly;
    OpenatCreateonly;
    CreatRestrict;
    Whitelist SYS_rename;
    Whitelist SYS_renameat;
    Whitelist SYS_renameat2;
    Whitelist SYS_link;
    Whitelist SYS_linkat;
    Whitelist SYS_symlink;
    Whitelist SYS_symlinkat;
    Whitelist SYS_rmdir;
    Whitelist SYS_unlink;
    Whitelist SYS_unlinkat;
    Whitelist SYS_mkdir;
    Whitelist SYS_mkdirat ].

(** src/promises.rs:270-276 *)
Definition filters_DPath : list Filtered :=
  [ Whitelist SYS_mknod;
    Whitelist SYS_mknodat ].

(** src/promises.rs:277-283 *)
Definition filters_FLock : list Filtered :=
  [ Whitelist SYS_flock;
    FcntlLock ].

(** src/promises.rs:284-295 *)
Definition filters_FAttr : list Filtered :=
  [ ChmodNobits;
    FchmodNobits;
    FchmodatNobits;
    Whitelist SYS_utime;
    Whitelist SYS_utimes;
    Whitelist SYS_futimesat;
    Whitelist SYS_utimensat ].

(** src/promises.rs:296-312 *)
Definition filters_Inet : list Filtered :=
  [ SocketInet;
    Whitelist SYS_listen;
    Whitelist SYS_bind;
    Whitelist SYS_sendto;
    Whitelist SYS_connect;
    Whitelist SYS_accept;
    Whitelist SYS_accept4;
    IoctlInet;
    GetsockoptRestrict;
    SetsockoptRestrict;
    Whitelist SYS_getpeername;
    Whitelist SYS_getsockname ].

(** src/promises.rs:313-328 *)
Definition filters_Unix : list Filtered :=
  [ SocketUnix;
    Whitelist SYS_listen;
    Whitelist SYS_bind;
    Whitelist SYS_connect;
    Whitelist SYS_sendto;
    Whitelist SYS_accept;
    Whitelist SYS_accept4;
    GetsockoptRestrict;
    SetsockoptRestrict;
    Whitelist SYS_getpeername;
    Whitelist SYS_getsockname ].

(** src/promises.rs:329-342 *)
Definition filters_Dns : list Filtered :=
  [ SocketInet;
    Whitelist SYS_bind;
    Whitelist SYS_sendto;
    Whitelist SYS_connect;
    Whitelist SYS_recvfrom;
    Whitelist SYS_newfstatat;
    OpenatReadonly;
    Whitelist SYS_read;
    Whitelist SYS_close ].

(** src/promises.rs:343-348 *)
Definition filters_Tty : list Filtered :=
  [ IoctlTty ].

(** src/promises.rs:349-355 *)
Definition filters_RecvFd : list Filtered :=
  [ Whitelist SYS_recvmsg;
    Whitelist SYS_recvmmsg ].

(** src/promises.rs:356-362 *)
Definition filters_SendFd : list Filtered :=
  [ Whitelist SYS_recvmsg;
    Whitelist SYS_recvmmsg ].

(** src/promises.rs:363-389 *)
Definition filters_Proc : list Filtered :=
  [ Whitelist SYS_fork;
    Whitelist SYS_vfork;
    CloneRestrict;
    Whitelist SYS_kill;
    Whitelist SYS_setsid;
    Whitelist SYS_setpgid;
    Whitelist SYS_prlimit64;
    Whitelist SYS_setrlimit;
    Whitelist SYS_getpriority;
    Whitelist SYS_setpriority;
    Whitelist SYS_ioprio_get;
    Whitelist SYS_ioprio_set;
    Whitelist SYS_sched_getscheduler;
    Whitelist SYS_sched_setscheduler;
    Whitelist SYS_sched_get_priority_min;
    Whitelist SYS_sched_get_priority_max;
    Whitelist SYS_sched_getaffinity;
    Whitelist SYS_sched_setaffinity;
    Whitelist SYS_sched_getparam;
    Whitelist SYS_sched_setparam;
    Whitelist SYS_tkill;
    Whitelist SYS_tgkill ].

(** src/promises.rs:390-407 *)
Definition filters_Id : list Filtered :=
  [ Whitelist SYS_setuid;
    Whitelist SYS_setreuid;
    Whitelist SYS_setresuid;
    Whitelist SYS_setgid;
    Whitelist SYS_setregid;
    Whitelist SYS_setresgid;
    Whitelist SYS_setgroups;
    Whitelist SYS_prlimit64;
    Whitelist SYS_setrlimit;
    Whitelist SYS_getpriority;
    Whitelist SYS_setpriority;
    Whitelist SYS_setfsuid;
    Whitelist SYS_setfsgid ].

(** src/promises.rs:408-416 *)
Definition filters_Chown : list Filtered :=
  [ Whitelist SYS_chown;
    Whitelist SYS_fchown;
    Whitelist SYS_lchown;
    Whitelist SYS_fchownat ].

(** src/promises.rs:417-423 *)
Definition filters_SetTime : list Filtered :=
  [ Whitelist SYS_settimeofday;
    Whitelist SYS_clock_adjtime ].

(** src/promises.rs:424-430 *)
Definition filters_ProtExec : list Filtered :=
  [ MmapExec;
    Whitelist SYS_mprotect ].

(** src/promises.rs:431-437 *)
Definition filters_Exec : list Filtered :=
  [ Whitelist SYS_execve;
    Whitelist SYS_execveat ].

(** src/promises.rs:438-443 *)
Definition filters_VmInfo : list Filtered :=
  [ Whitelist SYS_sched_yield ].

(** src/promises.rs:444-451 *)
Definition filters_TmpPath : list Filtered :=
  [ Whitelist SYS_lstat;
    Whitelist SYS_unlink;
    Whitelist SYS_unlinkat ].

(** src/promises.rs:452-459 *)
Definition filters_Unveil : list Filtered :=
  [ Whitelist SYS_landlock_create_ruleset;
    Whitelist SYS_landlock_add_rule;
    Whitelist SYS_landlock_restrict_self ].

(** [PROMISES], src/promises.rs:84-460: a hash map built from (key, filters) pairs; the keys
    are distinct so [get] is association-list lookup. *)
Definition PROMISES : list (Promise * list Filtered) :=
  [ (Default, filters_Default);
    (StdIO, filters_StdIO);
    (RPath, filters_RPath);
    (WPath, filters_WPath);
    (CPath, filters_CPath);
    (DPath, filters_DPath);
    (FLock, filters_FLock);
    (FAttr, filters_FAttr);
    (Inet, filters_Inet);
    (Unix, filters_Unix);
    (Dns, filters_Dns);
    (Tty, filters_Tty);
    (RecvFd, filters_RecvFd);
    (SendFd, filters_SendFd);
    (Proc, filters_Proc);
    (Id, filters_Id);
    (Chown, filters_Chown);
    (SetTime, filters_SetTime);
    (ProtExec, filters_ProtExec);
    (Exec, filters_Exec);
    (VmInfo, filters_VmInfo);
    (TmpPath, filters_TmpPath);
    (Unveil, filters_Unveil) ].

(** Look-up in the table, a [HashMap] with distinct keys (src/promises.rs:84). *)
Fixpoint promises_lookup (m : list (Promise * list Filtered)) (p : Promise)
  : option (list Filtered) :=
  match m with
  | [] => None
  | (q, fs) :: m' => if promise_eqb p q then Some fs else promises_lookup m' p
  end.

(** [PROMISES.get(&p)], src/seccomp.rs:950 *)
Definition promises_get (p : Promise) : option (list Filtered) := promises_lookup PROMISES p.
