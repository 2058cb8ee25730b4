(** Constants of the [libc] crate for x86_64-unknown-linux-gnu that the code uses.

    The crate itself is not in /repo (Cargo.toml:24, bpfvm/Cargo.toml:24 only name it); the
    values below are the kernel ABI values, extracted from this machine's
    <asm/unistd_64.h> and the Linux/glibc headers.  The [Sys*] constants cover the whole
    x86-64 table so that specifications can mention syscalls the code never grants. *)
From Coq Require Import NArith.
Local Open Scope N_scope.

(** * System call numbers (libc::SYS_xxx, used in src/promises.rs:84-460, src/seccomp.rs) *)
Definition SYS_read : N := 0.
Definition SYS_write : N := 1.
Definition SYS_open : N := 2.
Definition SYS_close : N := 3.
Definition SYS_stat : N := 4.
Definition SYS_fstat : N := 5.
Definition SYS_lstat : N := 6.
Definition SYS_poll : N := 7.
Definition SYS_lseek : N := 8.
Definition SYS_mmap : N := 9.
Definition SYS_mprotect : N := 10.
Definition SYS_munmap : N := 11.
Definition SYS_brk : N := 12.
Definition SYS_rt_sigaction : N := 13.
Definition SYS_rt_sigprocmask : N := 14.
Definition SYS_rt_sigreturn : N := 15.
Definition SYS_ioctl : N := 16.
Definition SYS_pread64 : N := 17.
Definition SYS_pwrite64 : N := 18.
Definition SYS_readv : N := 19.
Definition SYS_writev : N := 20.
Definition SYS_access : N := 21.
Definition SYS_pipe : N := 22.
Definition SYS_select : N := 23.
Definition SYS_sched_yield : N := 24.
Definition SYS_mremap : N := 25.
Definition SYS_msync : N := 26.
Definition SYS_mincore : N := 27.
Definition SYS_madvise : N := 28.
Definition SYS_shmget : N := 29.
Definition SYS_shmat : N := 30.
Definition SYS_shmctl : N := 31.
Definition SYS_dup : N := 32.
Definition SYS_dup2 : N := 33.
Definition SYS_pause : N := 34.
Definition SYS_nanosleep : N := 35.
Definition SYS_getitimer : N := 36.
Definition SYS_alarm : N := 37.
Definition SYS_setitimer : N := 38.
Definition SYS_getpid : N := 39.
Definition SYS_sendfile : N := 40.
Definition SYS_socket : N := 41.
Definition SYS_connect : N := 42.
Definition SYS_accept : N := 43.
Definition SYS_sendto : N := 44.
Definition SYS_recvfrom : N := 45.
Definition SYS_sendmsg : N := 46.
Definition SYS_recvmsg : N := 47.
Definition SYS_shutdown : N := 48.
Definition SYS_bind : N := 49.
Definition SYS_listen : N := 50.
Definition SYS_getsockname : N := 51.
Definition SYS_getpeername : N := 52.
Definition SYS_socketpair : N := 53.
Definition SYS_setsockopt : N := 54.
Definition SYS_getsockopt : N := 55.
Definition SYS_clone : N := 56.
Definition SYS_fork : N := 57.
Definition SYS_vfork : N := 58.
Definition SYS_execve : N := 59.
Definition SYS_exit : N := 60.
Definition SYS_wait4 : N := 61.
Definition SYS_kill : N := 62.
Definition SYS_uname : N := 63.
Definition SYS_semget : N := 64.
Definition SYS_semop : N := 65.
Definition SYS_semctl : N := 66.
Definition SYS_shmdt : N := 67.
Definition SYS_msgget : N := 68.
Definition SYS_msgsnd : N := 69.
Definition SYS_msgrcv : N := 70.
Definition SYS_msgctl : N := 71.
Definition SYS_fcntl : N := 72.
Definition SYS_flock : N := 73.
Definition SYS_fsync : N := 74.
Definition SYS_fdatasync : N := 75.
Definition SYS_truncate : N := 76.
Definition SYS_ftruncate : N := 77.
Definition SYS_getdents : N := 78.
Definition SYS_getcwd : N := 79.
Definition SYS_chdir : N := 80.
Definition SYS_fchdir : N := 81.
Definition SYS_rename : N := 82.
Definition SYS_mkdir : N := 83.
Definition SYS_rmdir : N := 84.
Definition SYS_creat : N := 85.
Definition SYS_link : N := 86.
Definition SYS_unlink : N := 87.
Definition SYS_symlink : N := 88.
Definition SYS_readlink : N := 89.
Definition SYS_chmod : N := 90.
Definition SYS_fchmod : N := 91.
Definition SYS_chown : N := 92.
Definition SYS_fchown : N := 93.
Definition SYS_lchown : N := 94.
Definition SYS_umask : N := 95.
Definition SYS_gettimeofday : N := 96.
Definition SYS_getrlimit : N := 97.
Definition SYS_getrusage : N := 98.
Definition SYS_sysinfo : N := 99.
Definition SYS_times : N := 100.
Definition SYS_ptrace : N := 101.
Definition SYS_getuid : N := 102.
Definition SYS_syslog : N := 103.
Definition SYS_getgid : N := 104.
Definition SYS_setuid : N := 105.
Definition SYS_setgid : N := 106.
Definition SYS_geteuid : N := 107.
Definition SYS_getegid : N := 108.
Definition SYS_setpgid : N := 109.
Definition SYS_getppid : N := 110.
Definition SYS_getpgrp : N := 111.
Definition SYS_setsid : N := 112.
Definition SYS_setreuid : N := 113.
Definition SYS_setregid : N := 114.
Definition SYS_getgroups : N := 115.
Definition SYS_setgroups : N := 116.
Definition SYS_setresuid : N := 117.
Definition SYS_getresuid : N := 118.
Definition SYS_setresgid : N := 119.
Definition SYS_getresgid : N := 120.
Definition SYS_getpgid : N := 121.
Definition SYS_setfsuid : N := 122.
Definition SYS_setfsgid : N := 123.
Definition SYS_getsid : N := 124.
Definition SYS_capget : N := 125.
Definition SYS_capset : N := 126.
Definition SYS_rt_sigpending : N := 127.
Definition SYS_rt_sigtimedwait : N := 128.
Definition SYS_rt_sigqueueinfo : N := 129.
Definition SYS_rt_sigsuspend : N := 130.
Definition SYS_sigaltstack : N := 131.
Definition SYS_utime : N := 132.
Definition SYS_mknod : N := 133.
Definition SYS_uselib : N := 134.
Definition SYS_personality : N := 135.
Definition SYS_ustat : N := 136.
Definition SYS_statfs : N := 137.
Definition SYS_fstatfs : N := 138.
Definition SYS_sysfs : N := 139.
Definition SYS_getpriority : N := 140.
Definition SYS_setpriority : N := 141.
Definition SYS_sched_setparam : N := 142.
Definition SYS_sched_getparam : N := 143.
Definition SYS_sched_setscheduler : N := 144.
Definition SYS_sched_getscheduler : N := 145.
Definition SYS_sched_get_priority_max : N := 146.
Definition SYS_sched_get_priority_min : N := 147.
Definition SYS_sched_rr_get_interval : N := 148.
Definition SYS_mlock : N := 149.
Definition SYS_munlock : N := 150.
Definition SYS_mlockall : N := 151.
Definition SYS_munlockall : N := 152.
Definition SYS_vhangup : N := 153.
Definition SYS_modify_ldt : N := 154.
Definition SYS_pivot_root : N := 155.
Definition SYS__sysctl : N := 156.
Definition SYS_prctl : N := 157.
Definition SYS_arch_prctl : N := 158.
Definition SYS_adjtimex : N := 159.
Definition SYS_setrlimit : N := 160.
Definition SYS_chroot : N := 161.
Definition SYS_sync : N := 162.
Definition SYS_acct : N := 163.
Definition SYS_settimeofday : N := 164.
Definition SYS_mount : N := 165.
Definition SYS_umount2 : N := 166.
Definition SYS_swapon : N := 167.
Definition SYS_swapoff : N := 168.
Definition SYS_reboot : N := 169.
Definition SYS_sethostname : N := 170.
Definition SYS_setdomainname : N := 171.
Definition SYS_iopl : N := 172.
Definition SYS_ioperm : N := 173.
Definition SYS_create_module : N := 174.
Definition SYS_init_module : N := 175.
Definition SYS_delete_module : N := 176.
Definition SYS_get_kernel_syms : N := 177.
Definition SYS_query_module : N := 178.
Definition SYS_quotactl : N := 179.
Definition SYS_nfsservctl : N := 180.
Definition SYS_getpmsg : N := 181.
Definition SYS_putpmsg : N := 182.
Definition SYS_afs_syscall : N := 183.
Definition SYS_tuxcall : N := 184.
Definition SYS_security : N := 185.
Definition SYS_gettid : N := 186.
Definition SYS_readahead : N := 187.
Definition SYS_setxattr : N := 188.
Definition SYS_lsetxattr : N := 189.
Definition SYS_fsetxattr : N := 190.
Definition SYS_getxattr : N := 191.
Definition SYS_lgetxattr : N := 192.
Definition SYS_fgetxattr : N := 193.
Definition SYS_listxattr : N := 194.
Definition SYS_llistxattr : N := 195.
Definition SYS_flistxattr : N := 196.
Definition SYS_removexattr : N := 197.
Definition SYS_lremovexattr : N := 198.
Definition SYS_fremovexattr : N := 199.
Definition SYS_tkill : N := 200.
Definition SYS_time : N := 201.
Definition SYS_futex : N := 202.
Definition SYS_sched_setaffinity : N := 203.
Definition SYS_sched_getaffinity : N := 204.
Definition SYS_set_thread_area : N := 205.
Definition SYS_io_setup : N := 206.
Definition SYS_io_destroy : N := 207.
Definition SYS_io_getevents : N := 208.
Definition SYS_io_submit : N := 209.
Definition SYS_io_cancel : N := 210.
Definition SYS_get_thread_area : N := 211.
Definition SYS_lookup_dcookie : N := 212.
Definition SYS_epoll_create : N := 213.
Definition SYS_epoll_ctl_old : N := 214.
Definition SYS_epoll_wait_old : N := 215.
Definition SYS_remap_file_pages : N := 216.
Definition SYS_getdents64 : N := 217.
Definition SYS_set_tid_address : N := 218.
Definition SYS_restart_syscall : N := 219.
Definition SYS_semtimedop : N := 220.
Definition SYS_fadvise64 : N := 221.
Definition SYS_timer_create : N := 222.
Definition SYS_timer_settime : N := 223.
Definition SYS_timer_gettime : N := 224.
Definition SYS_timer_getoverrun : N := 225.
Definition SYS_timer_delete : N := 226.
Definition SYS_clock_settime : N := 227.
Definition SYS_clock_gettime : N := 228.
Definition SYS_clock_getres : N := 229.
Definition SYS_clock_nanosleep : N := 230.
Definition SYS_exit_group : N := 231.
Definition SYS_epoll_wait : N := 232.
Definition SYS_epoll_ctl : N := 233.
Definition SYS_tgkill : N := 234.
Definition SYS_utimes : N := 235.
Definition SYS_vserver : N := 236.
Definition SYS_mbind : N := 237.
Definition SYS_set_mempolicy : N := 238.
Definition SYS_get_mempolicy : N := 239.
Definition SYS_mq_open : N := 240.
Definition SYS_mq_unlink : N := 241.
Definition SYS_mq_timedsend : N := 242.
Definition SYS_mq_timedreceive : N := 243.
Definition SYS_mq_notify : N := 244.
Definition SYS_mq_getsetattr : N := 245.
Definition SYS_kexec_load : N := 246.
Definition SYS_waitid : N := 247.
Definition SYS_add_key : N := 248.
Definition SYS_request_key : N := 249.
Definition SYS_keyctl : N := 250.
Definition SYS_ioprio_set : N := 251.
Definition SYS_ioprio_get : N := 252.
Definition SYS_inotify_init : N := 253.
Definition SYS_inotify_add_watch : N := 254.
Definition SYS_inotify_rm_watch : N := 255.
Definition SYS_migrate_pages : N := 256.
Definition SYS_openat : N := 257.
Definition SYS_mkdirat : N := 258.
Definition SYS_mknodat : N := 259.
Definition SYS_fchownat : N := 260.
Definition SYS_futimesat : N := 261.
Definition SYS_newfstatat : N := 262.
Definition SYS_unlinkat : N := 263.
Definition SYS_renameat : N := 264.
Definition SYS_linkat : N := 265.
Definition SYS_symlinkat : N := 266.
Definition SYS_readlinkat : N := 267.
Definition SYS_fchmodat : N := 268.
Definition SYS_faccessat : N := 269.
Definition SYS_pselect6 : N := 270.
Definition SYS_ppoll : N := 271.
Definition SYS_unshare : N := 272.
Definition SYS_set_robust_list : N := 273.
Definition SYS_get_robust_list : N := 274.
Definition SYS_splice : N := 275.
Definition SYS_tee : N := 276.
Definition SYS_sync_file_range : N := 277.
Definition SYS_vmsplice : N := 278.
Definition SYS_move_pages : N := 279.
Definition SYS_utimensat : N := 280.
Definition SYS_epoll_pwait : N := 281.
Definition SYS_signalfd : N := 282.
Definition SYS_timerfd_create : N := 283.
Definition SYS_eventfd : N := 284.
Definition SYS_fallocate : N := 285.
Definition SYS_timerfd_settime : N := 286.
Definition SYS_timerfd_gettime : N := 287.
Definition SYS_accept4 : N := 288.
Definition SYS_signalfd4 : N := 289.
Definition SYS_eventfd2 : N := 290.
Definition SYS_epoll_create1 : N := 291.
Definition SYS_dup3 : N := 292.
Definition SYS_pipe2 : N := 293.
Definition SYS_inotify_init1 : N := 294.
Definition SYS_preadv : N := 295.
Definition SYS_pwritev : N := 296.
Definition SYS_rt_tgsigqueueinfo : N := 297.
Definition SYS_perf_event_open : N := 298.
Definition SYS_recvmmsg : N := 299.
Definition SYS_fanotify_init : N := 300.
Definition SYS_fanotify_mark : N := 301.
Definition SYS_prlimit64 : N := 302.
Definition SYS_name_to_handle_at : N := 303.
Definition SYS_open_by_handle_at : N := 304.
Definition SYS_clock_adjtime : N := 305.
Definition SYS_syncfs : N := 306.
Definition SYS_sendmmsg : N := 307.
Definition SYS_setns : N := 308.
Definition SYS_getcpu : N := 309.
Definition SYS_process_vm_readv : N := 310.
Definition SYS_process_vm_writev : N := 311.
Definition SYS_kcmp : N := 312.
Definition SYS_finit_module : N := 313.
Definition SYS_sched_setattr : N := 314.
Definition SYS_sched_getattr : N := 315.
Definition SYS_renameat2 : N := 316.
Definition SYS_seccomp : N := 317.
Definition SYS_getrandom : N := 318.
Definition SYS_memfd_create : N := 319.
Definition SYS_kexec_file_load : N := 320.
Definition SYS_bpf : N := 321.
Definition SYS_execveat : N := 322.
Definition SYS_userfaultfd : N := 323.
Definition SYS_membarrier : N := 324.
Definition SYS_mlock2 : N := 325.
Definition SYS_copy_file_range : N := 326.
Definition SYS_preadv2 : N := 327.
Definition SYS_pwritev2 : N := 328.
Definition SYS_pkey_mprotect : N := 329.
Definition SYS_pkey_alloc : N := 330.
Definition SYS_pkey_free : N := 331.
Definition SYS_statx : N := 332.
Definition SYS_io_pgetevents : N := 333.
Definition SYS_rseq : N := 334.
Definition SYS_pidfd_send_signal : N := 424.
Definition SYS_io_uring_setup : N := 425.
Definition SYS_io_uring_enter : N := 426.
Definition SYS_io_uring_register : N := 427.
Definition SYS_open_tree : N := 428.
Definition SYS_move_mount : N := 429.
Definition SYS_fsopen : N := 430.
Definition SYS_fsconfig : N := 431.
Definition SYS_fsmount : N := 432.
Definition SYS_fspick : N := 433.
Definition SYS_pidfd_open : N := 434.
Definition SYS_clone3 : N := 435.
Definition SYS_close_range : N := 436.
Definition SYS_openat2 : N := 437.
Definition SYS_pidfd_getfd : N := 438.
Definition SYS_faccessat2 : N := 439.
Definition SYS_process_madvise : N := 440.
Definition SYS_epoll_pwait2 : N := 441.
Definition SYS_mount_setattr : N := 442.
Definition SYS_quotactl_fd : N := 443.
Definition SYS_landlock_create_ruleset : N := 444.
Definition SYS_landlock_add_rule : N := 445.
Definition SYS_landlock_restrict_self : N := 446.
Definition SYS_memfd_secret : N := 447.
Definition SYS_process_mrelease : N := 448.
Definition SYS_futex_waitv : N := 449.
Definition SYS_set_mempolicy_home_node : N := 450.

(** * Other constants *)
Definition F_DUPFD_CLOEXEC : N := 1030. (* 0x406 *)
Definition MAP_LOCKED : N := 8192. (* 0x2000 *)
Definition MAP_POPULATE : N := 32768. (* 0x8000 *)
Definition MAP_NONBLOCK : N := 65536. (* 0x10000 *)
Definition MAP_HUGETLB : N := 262144. (* 0x40000 *)
Definition PROT_READ : N := 1. (* 0x1 *)
Definition PROT_WRITE : N := 2. (* 0x2 *)
Definition PROT_NONE : N := 0. (* 0x0 *)
Definition PROT_EXEC : N := 4. (* 0x4 *)
Definition FIONREAD : N := 21531. (* 0x541b *)
Definition FIONBIO : N := 21537. (* 0x5421 *)
Definition FIOCLEX : N := 21585. (* 0x5451 *)
Definition FIONCLEX : N := 21584. (* 0x5450 *)
Definition PR_SET_NAME : N := 15. (* 0xf *)
Definition PR_GET_NAME : N := 16. (* 0x10 *)
Definition PR_GET_SECCOMP : N := 21. (* 0x15 *)
Definition PR_SET_SECCOMP : N := 22. (* 0x16 *)
Definition PR_SET_NO_NEW_PRIVS : N := 38. (* 0x26 *)
Definition PR_CAPBSET_READ : N := 23. (* 0x17 *)
Definition PR_CAPBSET_DROP : N := 24. (* 0x18 *)
Definition CLONE_VM : N := 256. (* 0x100 *)
Definition CLONE_FS : N := 512. (* 0x200 *)
Definition CLONE_FILES : N := 1024. (* 0x400 *)
Definition CLONE_THREAD : N := 65536. (* 0x10000 *)
Definition CLONE_SIGHAND : N := 2048. (* 0x800 *)
Definition CLONE_NEWNS : N := 131072. (* 0x20000 *)
Definition CLONE_PTRACE : N := 8192. (* 0x2000 *)
Definition CLONE_UNTRACED : N := 8388608. (* 0x800000 *)
Definition O_CREAT : N := 64. (* 0x40 *)
Definition O_TRUNC : N := 512. (* 0x200 *)
Definition O_ACCMODE : N := 3. (* 0x3 *)
Definition O_RDONLY : N := 0. (* 0x0 *)
Definition O_WRONLY : N := 1. (* 0x1 *)
Definition O_RDWR : N := 2. (* 0x2 *)
Definition S_ISVTX : N := 512. (* 0x200 *)
Definition S_ISGID : N := 1024. (* 0x400 *)
Definition S_ISUID : N := 2048. (* 0x800 *)
Definition F_GETLK : N := 5. (* 0x5 *)
Definition F_SETLK : N := 6. (* 0x6 *)
Definition F_SETLKW : N := 7. (* 0x7 *)
Definition AF_INET : N := 2. (* 0x2 *)
Definition AF_INET6 : N := 10. (* 0xa *)
Definition AF_UNIX : N := 1. (* 0x1 *)
Definition AF_LOCAL : N := 1. (* 0x1 *)
Definition SOCK_STREAM : N := 1. (* 0x1 *)
Definition SOCK_DGRAM : N := 2. (* 0x2 *)
Definition SOCK_CLOEXEC : N := 524288. (* 0x80000 *)
Definition SOCK_NONBLOCK : N := 2048. (* 0x800 *)
Definition IPPROTO_ICMP : N := 1. (* 0x1 *)
Definition IPPROTO_TCP : N := 6. (* 0x6 *)
Definition IPPROTO_UDP : N := 17. (* 0x11 *)
Definition SOL_SOCKET : N := 1. (* 0x1 *)
Definition SOL_TCP : N := 6. (* 0x6 *)
Definition SOL_IP : N := 0. (* 0x0 *)
Definition SO_TYPE : N := 3. (* 0x3 *)
Definition SO_ERROR : N := 4. (* 0x4 *)
Definition SO_REUSEPORT : N := 15. (* 0xf *)
Definition SO_REUSEADDR : N := 2. (* 0x2 *)
Definition SO_KEEPALIVE : N := 9. (* 0x9 *)
Definition SO_RCVTIMEO : N := 20. (* 0x14 *)
Definition SO_SNDTIMEO : N := 21. (* 0x15 *)
Definition SO_DONTROUTE : N := 5. (* 0x5 *)
Definition TCP_NODELAY : N := 1. (* 0x1 *)
Definition TCP_CORK : N := 3. (* 0x3 *)
Definition TCP_KEEPIDLE : N := 4. (* 0x4 *)
Definition TCP_KEEPINTVL : N := 5. (* 0x5 *)
Definition IP_RECVTTL : N := 12. (* 0xc *)
Definition IP_RECVERR : N := 11. (* 0xb *)
Definition TCP_FASTOPEN : N := 23. (* 0x17 *)
Definition TCP_FASTOPEN_CONNECT : N := 30. (* 0x1e *)
Definition TCGETS : N := 21505. (* 0x5401 *)
Definition TCSETS : N := 21506. (* 0x5402 *)
Definition TCSETSW : N := 21507. (* 0x5403 *)
Definition TCSETSF : N := 21508. (* 0x5404 *)
Definition TIOCGWINSZ : N := 21523. (* 0x5413 *)
Definition TIOCSPGRP : N := 21520. (* 0x5410 *)
Definition TIOCGPGRP : N := 21519. (* 0x540f *)
Definition TIOCSWINSZ : N := 21524. (* 0x5414 *)
Definition TCFLSH : N := 21515. (* 0x540b *)
Definition TCXONC : N := 21514. (* 0x540a *)
Definition TCSBRK : N := 21513. (* 0x5409 *)
Definition TIOCSBRK : N := 21543. (* 0x5427 *)
Definition BPF_LD : N := 0. (* 0x0 *)
Definition BPF_LDX : N := 1. (* 0x1 *)
Definition BPF_ST : N := 2. (* 0x2 *)
Definition BPF_STX : N := 3. (* 0x3 *)
Definition BPF_ALU : N := 4. (* 0x4 *)
Definition BPF_JMP : N := 5. (* 0x5 *)
Definition BPF_RET : N := 6. (* 0x6 *)
Definition BPF_MISC : N := 7. (* 0x7 *)
Definition BPF_W : N := 0. (* 0x0 *)
Definition BPF_H : N := 8. (* 0x8 *)
Definition BPF_B : N := 16. (* 0x10 *)
Definition BPF_IMM : N := 0. (* 0x0 *)
Definition BPF_ABS : N := 32. (* 0x20 *)
Definition BPF_IND : N := 64. (* 0x40 *)
Definition BPF_MEM : N := 96. (* 0x60 *)
Definition BPF_LEN : N := 128. (* 0x80 *)
Definition BPF_ADD : N := 0. (* 0x0 *)
Definition BPF_SUB : N := 16. (* 0x10 *)
Definition BPF_MUL : N := 32. (* 0x20 *)
Definition BPF_DIV : N := 48. (* 0x30 *)
Definition BPF_OR : N := 64. (* 0x40 *)
Definition BPF_AND : N := 80. (* 0x50 *)
Definition BPF_LSH : N := 96. (* 0x60 *)
Definition BPF_RSH : N := 112. (* 0x70 *)
Definition BPF_NEG : N := 128. (* 0x80 *)
Definition BPF_MOD : N := 144. (* 0x90 *)
Definition BPF_XOR : N := 160. (* 0xa0 *)
Definition BPF_JA : N := 0. (* 0x0 *)
Definition BPF_JEQ : N := 16. (* 0x10 *)
Definition BPF_JGT : N := 32. (* 0x20 *)
Definition BPF_JGE : N := 48. (* 0x30 *)
Definition BPF_JSET : N := 64. (* 0x40 *)
Definition BPF_K : N := 0. (* 0x0 *)
Definition BPF_X : N := 8. (* 0x8 *)
Definition BPF_MEMWORDS : N := 16. (* 0x10 *)
