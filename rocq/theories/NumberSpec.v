(** The system calls decided by their number, and who allows them (C129). *)
From Coq Require Import NArith List.
From Verif Require Import Libc Promises.
Import ListNotations.
Local Open Scope N_scope.

(** Calls that any of some promises allows, whatever the arguments.  By hand from src/promises.rs:84-459, grouped by promises. *)
Definition by_number : list (list N * list Promise) :=
  [ ([ SYS_write; SYS_poll; SYS_lseek; SYS_munmap; SYS_brk; SYS_rt_sigaction; SYS_rt_sigprocmask;
        SYS_rt_sigreturn; SYS_pread64; SYS_pwrite64; SYS_readv; SYS_writev; SYS_pipe; SYS_select; SYS_mremap;
        SYS_msync; SYS_mincore; SYS_madvise; SYS_dup; SYS_dup2; SYS_pause; SYS_nanosleep; SYS_getitimer;
        SYS_alarm; SYS_setitimer; SYS_getpid; SYS_sendfile; SYS_shutdown; SYS_socketpair; SYS_wait4; SYS_uname;
        SYS_fsync; SYS_fdatasync; SYS_ftruncate; SYS_fchdir; SYS_umask; SYS_gettimeofday; SYS_getrlimit;
        SYS_getrusage; SYS_sysinfo; SYS_times; SYS_getuid; SYS_getgid; SYS_geteuid; SYS_getegid; SYS_getppid;
        SYS_getpgrp; SYS_getgroups; SYS_getresuid; SYS_getresgid; SYS_getpgid; SYS_getsid; SYS_rt_sigpending;
        SYS_rt_sigsuspend; SYS_sigaltstack; SYS_arch_prctl; SYS_gettid; SYS_futex; SYS_epoll_create;
        SYS_set_tid_address; SYS_restart_syscall; SYS_fadvise64; SYS_clock_gettime; SYS_clock_getres;
        SYS_clock_nanosleep; SYS_exit_group; SYS_epoll_wait; SYS_epoll_ctl; SYS_migrate_pages; SYS_pselect6;
        SYS_ppoll; SYS_set_robust_list; SYS_get_robust_list; SYS_splice; SYS_tee; SYS_sync_file_range;
        SYS_vmsplice; SYS_epoll_pwait; SYS_signalfd; SYS_timerfd_create; SYS_eventfd; SYS_timerfd_settime;
        SYS_timerfd_gettime; SYS_signalfd4; SYS_eventfd2; SYS_epoll_create1; SYS_dup3; SYS_pipe2; SYS_preadv;
        SYS_pwritev; SYS_getrandom; SYS_membarrier; SYS_copy_file_range; SYS_preadv2; SYS_pwritev2;
        SYS_close_range; SYS_epoll_pwait2 ],
      [StdIO]);
    ([ SYS_read; SYS_close; SYS_recvfrom ],
      [StdIO; Dns]);
    ([ SYS_sched_yield ],
      [StdIO; VmInfo]);
    ([ SYS_fstat ],
      [StdIO; RPath; WPath]);
    ([ SYS_sched_getaffinity ],
      [StdIO; Proc]);
    ([ SYS_getdents; SYS_chdir; SYS_readlink; SYS_statfs; SYS_fstatfs ],
      [RPath]);
    ([ SYS_stat; SYS_access; SYS_faccessat; SYS_faccessat2; SYS_getcwd; SYS_readlinkat ],
      [RPath; WPath]);
    ([ SYS_lstat ],
      [RPath; WPath; TmpPath]);
    ([ SYS_newfstatat ],
      [RPath; WPath; Dns]);
    ([ SYS_truncate ],
      [WPath]);
    ([ SYS_rename; SYS_renameat; SYS_renameat2; SYS_mkdir; SYS_mkdirat; SYS_rmdir; SYS_link; SYS_linkat;
        SYS_symlink; SYS_symlinkat ],
      [CPath]);
    ([ SYS_unlink; SYS_unlinkat ],
      [CPath; TmpPath]);
    ([ SYS_mknod; SYS_mknodat ],
      [DPath]);
    ([ SYS_flock ],
      [FLock]);
    ([ SYS_utime; SYS_utimes; SYS_futimesat; SYS_utimensat ],
      [FAttr]);
    ([ SYS_chown; SYS_fchown; SYS_lchown; SYS_fchownat ],
      [Chown]);
    ([ SYS_connect; SYS_bind ],
      [Inet; Unix; Dns]);
    ([ SYS_accept; SYS_accept4; SYS_listen; SYS_getsockname; SYS_getpeername ],
      [Inet; Unix]);
    ([ SYS_recvmsg; SYS_recvmmsg ],
      [RecvFd; SendFd]);
    ([ SYS_fork; SYS_vfork; SYS_setpgid; SYS_setsid; SYS_tgkill; SYS_sched_setparam; SYS_sched_getparam;
        SYS_sched_setscheduler; SYS_sched_getscheduler; SYS_sched_get_priority_max; SYS_sched_get_priority_min;
        SYS_sched_setaffinity; SYS_ioprio_set; SYS_ioprio_get ],
      [Proc]);
    ([ SYS_getpriority; SYS_setpriority; SYS_setrlimit ],
      [Proc; Id]);
    ([ SYS_setuid; SYS_setgid; SYS_setreuid; SYS_setregid; SYS_setgroups; SYS_setresuid; SYS_setresgid;
        SYS_setfsuid; SYS_setfsgid ],
      [Id]);
    ([ SYS_settimeofday; SYS_clock_adjtime ],
      [SetTime]);
    ([ SYS_execve; SYS_execveat ],
      [Exec]);
    ([ SYS_landlock_create_ruleset; SYS_landlock_add_rule; SYS_landlock_restrict_self ],
      [Unveil]) ].

(** Calls for which the arguments count as well: C23, C26, C30 to C32, C35, C93 to C96, C126, C127. *)
Definition by_arguments : list N :=
  [ SYS_open; SYS_openat; SYS_creat; SYS_chmod; SYS_fchmod; SYS_fchmodat; SYS_mmap; SYS_mprotect; SYS_ioctl;
    SYS_fcntl; SYS_prctl; SYS_kill; SYS_tkill; SYS_clone; SYS_prlimit64; SYS_socket; SYS_sendto;
    SYS_getsockopt ].
