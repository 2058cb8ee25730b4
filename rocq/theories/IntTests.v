(** Model of tests/lib.rs: the integration tests, each by the promises it pledges, the system
    calls its child makes afterwards and the outcome it expects.

    Simplified: the calls are those of the run the test is written for (a file that cannot be
    opened, and a panic of [unwrap], are not followed); [File], [UnixListener] and the functions
    of libc are replaced by the calls they make on x86_64.  [SystemTime::now] is a clock_gettime
    in [stdio_time_ok]; in [tmpfile] (tests/util.rs:60-67), where nothing depends on it, it is
    left to the vDSO. *)
From Coq Require Import NArith ZArith String List Bool.
From Verif Require Import Libc Machine Bpf SeccompRet Vm Promises Filters Kernel World Helpers.
Import ListNotations.
Local Open Scope N_scope.

(** An argument: [Int n] is a C [int] or [unsigned] (the upper half of the register is
    unspecified), [Any] an address, a descriptor the kernel gave or an unused register. *)
Inductive argument := Int (n : N) | Any.
Definition is_arg (a : argument) (v : N) : Prop :=
  match a with Int n => v mod 2 ^ 32 = n | Any => True end.
(** A call by its number and leading arguments. *)
Record request := Call { q_nr : N; q_args : list argument }.
Definition makes (q : request) (d : seccomp_data) : Prop :=
  sd_nr d = q_nr q /\ sd_arch d = AUDIT_ARCH_X86_64 /\
  exists more, Forall2 is_arg (q_args q ++ more)
                 [sd_a0 d; sd_a1 d; sd_a2 d; sd_a3 d; sd_a4 d; sd_a5 d].

(** [File::open], [File::create]: openat with AT_FDCWD and O_CLOEXEC, for create O_WRONLY,
    O_CREAT, O_TRUNC and mode 0666. *)
Definition AT_FDCWD : N := 0xffffff9c.
Definition O_CLOEXEC : N := 0x80000.
Definition file_open : request := Call SYS_openat [Int AT_FDCWD; Any; Int O_CLOEXEC].
Definition file_create : request :=
  Call SYS_openat [Int AT_FDCWD; Any; Int (1 + 0x40 + 0x200 + O_CLOEXEC); Int 0x1b6].
(** read, write and close of the descriptor; [libc::exit]. *)
Definition file_read : request := Call SYS_read [Any; Any; Any].
Definition file_write : request := Call SYS_write [Any; Any; Any].
Definition file_close : request := Call SYS_close [Any].
Definition libc_exit (code : N) : request := Call SYS_exit_group [Int code].

(** What the helper of the test is told to expect. *)
Inductive expectation := ExpectCode (e : Z) | ExpectSig (s : N).
Definition judge (e : expectation) (ret : option wait_status) : verdict :=
  match e with
  | ExpectCode c => fork_expect_code c ret
  | ExpectSig s => fork_expect_sig s ret
  end.

(** A test: its name, promises, what it then does, and what its helper expects (tests/lib.rs). *)
Record itest := Test { it_name : string; it_promises : list Promise; it_calls : list request;
                       it_expect : expectation }.

(** tests/lib.rs:44-273, all tests but the first; all call [pledge], that is
    [pledge_override] with KillProcess (src/seccomp.rs:981-983).  mknod is one of two system
    calls, depending on the C library. *)
Definition tests_lib : list itest :=
  [ Test "stdio_personality_killed" [StdIO] [Call SYS_personality [Int 0xffffffff]] (ExpectSig SIGSYS);
    Test "empty_exit_ok" [StdIO] [Call SYS_exit [Int 99]] (ExpectCode 99);
    Test "stdio_time_ok" [StdIO] [Call SYS_clock_gettime [Int 0; Any]; file_write; libc_exit 99] (ExpectCode 99);
    Test "stdio_exit_ok" [StdIO] [libc_exit 99] (ExpectCode 99);
    Test "stdio_open_not_passwd" [StdIO] [file_open; libc_exit 99] (ExpectSig SIGSYS);
    Test "rpath_open_passwd" [StdIO; RPath]
      [file_open; file_read; file_read; file_close; libc_exit 99] (ExpectCode 99);
    Test "rpath_no_create" [StdIO; RPath] [file_create; libc_exit 99] (ExpectSig SIGSYS);
    Test "wpath_no_create" [StdIO; WPath] [file_create; libc_exit 99] (ExpectSig SIGSYS);
    Test "cpath_can_create" [StdIO; CPath] [file_create; libc_exit 99] (ExpectCode 99);
    Test "create_and_write" [StdIO; CPath; WPath]
      [file_create; file_write; file_close; libc_exit 99] (ExpectCode 99);
    Test "no_dpath_mknod" [StdIO]
      [Call SYS_mknod [Any; Int 0x100; Int 0]; libc_exit 99] (ExpectSig SIGSYS);
    Test "no_dpath_mknod" [StdIO]
      [Call SYS_mknodat [Int AT_FDCWD; Any; Int 0x100; Int 0]; libc_exit 99] (ExpectSig SIGSYS);
    Test "dpath_mknod_ok" [StdIO; DPath]
      [Call SYS_mknod [Any; Int 0x100; Int 0]; libc_exit 99] (ExpectCode 99);
    Test "dpath_mknod_ok" [StdIO; DPath]
      [Call SYS_mknodat [Int AT_FDCWD; Any; Int 0x100; Int 0]; libc_exit 99] (ExpectCode 99);
    Test "fcntl_stdio" [StdIO; CPath; WPath]
      [file_create; Call SYS_fcntl [Any; Int 1030]; file_close; libc_exit 99] (ExpectCode 99);
    Test "no_fcntl_lock" [StdIO; CPath]
      [file_create; file_write; Call SYS_fcntl [Any; Int 5]; file_close; libc_exit 99] (ExpectSig SIGSYS);
    Test "fcntl_lock_ok" [StdIO; CPath; FLock]
      [file_create; file_write; Call SYS_fcntl [Any; Int 5]; file_close; libc_exit 99] (ExpectCode 99);
    Test "no_fattr" [StdIO; CPath]
      [file_create; file_write; Call SYS_fchmod [Any; Int 0x1b6]; file_close; libc_exit 99] (ExpectSig SIGSYS);
    Test "fattr_ok" [StdIO; CPath; FAttr]
      [file_create; file_write; Call SYS_fchmod [Any; Int 0x1b6]; file_close; libc_exit 99] (ExpectCode 99);
    Test "fattr_no_setuid" [StdIO; CPath; FAttr]
      [file_create; file_write; Call SYS_fchmod [Any; Int (0x800 + 0x1b6)]; file_close; libc_exit 99]
      (ExpectSig SIGSYS);
    Test "unix_socket_disabled" [StdIO]
      [Call SYS_socket [Int 1; Int (1 + O_CLOEXEC); Int 0]; Call SYS_bind [Any; Any; Any];
       Call SYS_listen [Any; Any]; file_close; libc_exit 99] (ExpectSig SIGSYS);
    Test "unix_socket_enabled" [StdIO; Unix]
      [Call SYS_socket [Int 1; Int (1 + O_CLOEXEC); Int 0]; Call SYS_bind [Any; Any; Any];
       Call SYS_listen [Any; Any]; file_close; libc_exit 99] (ExpectCode 99) ].

(** Calls one after the other, whatever the kernel answers, then a return. *)
Fixpoint straight (ds : list seccomp_data) : childfn :=
  match ds with
  | [] => Ret
  | d :: ds => Sys d (fun _ => straight ds)
  end.

(** The child of [stdio_personality_errno], tests/lib.rs:31-43, after its pledge with
    Errno(999): [personality] must give -1 and errno 999 (the kernel's -999), or exit(-1). *)
Definition errno_child (personality exit_group : seccomp_data) : childfn :=
  Sys personality (fun z =>
    if (z =? -999)%Z then Ret else Sys exit_group (fun _ => Fault SIGSEGV)).
