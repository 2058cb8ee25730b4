(** The test suite of /repo, run on the model.  These are tests of the model (each is one literal
    run), not proofs of properties: they check that the definitions behave as the project's own
    tests say the code does.  Unit tests are transcribed in full; of the integration tests
    (tests/lib.rs), which run a child process, the system calls under test are replayed. *)
From Coq Require Import NArith ZArith String List Bool.
From Verif Require Import Libc Machine Bpf SeccompRet Asm Vm Promises Filters Kernel World Testkit Spec Demo.
Import ListNotations.
Local Open Scope N_scope.

(** [BpfVM::new(&prog).unwrap().run(&data).unwrap()] *)
Definition vm_go (prof : profile) (prog : list sock_filter) (data : list N) : res bpf_error N :=
  vm <- vm_new prog ;; vm_result (vm_run prof vm data).
Definition asm_go (prof : profile) (asm : list Operation) (data : list N) : res bpf_error N :=
  prog <- compile prof asm ;; vm_go prof prog data.
Definition both (f : profile -> res bpf_error N) (v : N) : Prop := f Debug = Ok v /\ f Release = Ok v.
Ltac go := split; vm_compute; reflexivity.
(** What follows the record in memory is immaterial (C48): some junk. *)
Definition junk : list N := repeat 0xdeadbeef 48.

(** * bpfvm/src/vm.rs and bpfvm/src/bpf.rs *)
Example test_ret : both (fun p => vm_go p [bpf_ret Const 99] []) 99. Proof. go. Qed.
Example test_load_and_ret : both (fun p => vm_go p [bpf_ld IMM 99; bpf_ret Acc 0] []) 99. Proof. go. Qed.
Example test_load_data :
  both (fun p => vm_go p [bpf_ld ABS 4; bpf_ret Acc 0] [0; 0xffffffff]) 0xffffffff. Proof. go. Qed.
Example test_alu_mask :
  let prog := [bpf_ld ABS 8; bpf_stmt (N.lor (N.lor BPF_ALU BPF_AND) BPF_K) 0xf0; bpf_ret Acc 0] in
  both (fun p => vm_go p prog [0; 0; 0xff; 0]) 0xf0 /\ both (fun p => vm_go p prog [0; 0; 0x80; 0]) 0x80.
Proof. split; go. Qed.
Example test_alu_mul :
  both (fun p => vm_go p [bpf_ld ABS 8; bpf_alu MUL Const 2; bpf_ret Acc 0] [0; 0; 8; 0]) 16. Proof. go. Qed.
Example test_ld_ja_ret :
  both (fun p => vm_go p [bpf_ld IMM 99; bpf_jmp JA 1 0 0; bpf_ld IMM 999; bpf_ret Acc 0] []) 99. Proof. go. Qed.
Example test_ld_gt_ret :
  both (fun p => vm_go p [bpf_ld IMM 99; bpf_jmp JGT 98 1 0; bpf_ld IMM 999; bpf_ret Acc 0] []) 99. Proof. go. Qed.
(** The word at index [i] must be [v]; otherwise return [code]. *)
Definition expect (i v code : N) : list sock_filter :=
  [bpf_stmt (N.lor (N.lor BPF_LD BPF_ABS) BPF_W) (i * 4); bpf_jmp JEQ v 1 0;
   bpf_stmt (N.lor BPF_RET BPF_K) code].
Example test_seccomp_data_conv :
  both (fun p => vm_go p
    (expect 0 1 100 ++ expect 1 2 101 ++ expect 2 3 102 ++ expect 3 0 103 ++ expect 4 4 104 ++
     expect 5 0 105 ++ expect 6 5 106 ++ expect 7 0 107 ++ expect 8 6 108 ++ expect 9 0 109 ++
     expect 10 7 110 ++ expect 11 0 111 ++ expect 12 8 112 ++ expect 13 0 113 ++ expect 14 9 114 ++
     [bpf_stmt (N.lor BPF_RET BPF_K) 0])
    (any_to_data (mkSD 1 2 3 4 5 6 7 8 9) junk)) 0.
Proof. go. Qed.

(** * bpfvm/src/asm.rs *)
Example test_simple_jump :
  both (fun p => asm_go p [JumpTo "FAIL"; Label "OK"; Return Const 0; Label "FAIL"; Return Const 99]%string []) 99.
Proof. go. Qed.
Example test_ld_gt_ret_asm :
  both (fun p => asm_go p [Load IMM 99; Jump JGT 98 (Some "ret_acc") (Some "ret999"); Label "ret999";
                           Load IMM 999; Label "ret_acc"; Return Acc 0]%string []) 99.
Proof. go. Qed.
Example test_cosmo_socket_filter :
  let asm := [Load ABS (offset Syscall);
    Jump JEQ SYS_socket None (Some "REJECT");
    Load ABS (offset (ArgLower 0));
    Jump JEQ AF_INET (Some "Type_Check") None;
    Jump JEQ AF_INET6 (Some "Type_Check") (Some "REJECT");
    Label "Type_Check";
    Load ABS (offset (ArgLower 1));
    Alu AND Const (not_u32 0x80800);
    Jump JEQ SOCK_STREAM (Some "Proto_Check") None;
    Jump JEQ SOCK_DGRAM (Some "Proto_Check") (Some "REJECT");
    Label "Proto_Check";
    Load ABS (offset (ArgLower 2));
    Jump JEQ 0 (Some "ALLOW") None;
    Jump JEQ IPPROTO_ICMP (Some "ALLOW") None;
    Jump JEQ IPPROTO_TCP (Some "ALLOW") None;
    Jump JEQ IPPROTO_UDP (Some "ALLOW") None;
    JumpTo "REJECT";
    Label "ALLOW";
    Return Const 0;
    Label "REJECT";
    Return Const 99]%string in
  both (fun p => asm_go p asm (any_to_data (mkSD SYS_open 0 0 0 0 0 0 0 0) junk)) 99 /\
  both (fun p => asm_go p asm (any_to_data (mkSD SYS_socket 0 0 AF_INET (SOCK_STREAM + SOCK_NONBLOCK) IPPROTO_TCP 0 0 0) junk)) 0.
Proof. split; go. Qed.

(** * bpfvm/src/seccomp.rs *)
Example test_offsets :
  let ck f v := [Load ABS (offset f); Jump JEQ v None (Some "FAIL"%string)] in
  both (fun p => asm_go p
    (ck Syscall 0xffffffff ++ ck Arch 0xeeeeeeee ++ ck InstrPointerUpper 0xcccccccc ++
     ck InstrPointerLower 0xdddddddd ++ ck (ArgLower 0) 0x11111111 ++ ck (ArgUpper 0) 0 ++
     ck (ArgLower 1) 0x22222222 ++ ck (ArgUpper 2) 0x33333333 ++ ck (ArgLower 2) 0x44444444 ++
     ck (ArgLower 3) 0x55555555 ++ ck (ArgUpper 4) 0x66666666 ++ ck (ArgLower 4) 0x77777777 ++
     ck (ArgLower 5) 0x88888888 ++
     [Label "ALLOW"; Return Const 0; Label "FAIL"; Return Const 99]%string)
    (any_to_data (mkSD 0xffffffff 0xeeeeeeee 0xccccccccdddddddd 0x11111111 0x22222222
                       0x3333333344444444 0x55555555 0x6666666677777777 0x88888888) junk)) 0.
Proof. go. Qed.

(** * src/seccomp.rs *)
(** [promises_to_prog(ps, v).unwrap()] and [run_seccomp(&prog, syscall(nr, args)).unwrap()] *)
Definition sc (ps : list Promise) (v : SeccompReturn) (nr a0 a1 a2 a3 a4 : N) : res bpf_error SeccompReturn :=
  run_seccomp Debug (built ps v) (mkSD nr X86_64 0 a0 a1 a2 a3 a4 0) junk.

Example stdio_personality_errno : sc [StdIO] (Errno 999) SYS_personality 0 0 0 0 0 = Ok (Errno 999).
Proof. vm_compute. reflexivity. Qed.
Example stdio_personality_killed : sc [StdIO] KillProcess SYS_personality 0 0 0 0 0 = Ok KillProcess.
Proof. vm_compute. reflexivity. Qed.
Example stdio_time_ok : sc [StdIO] KillProcess SYS_gettimeofday 0 0 0 0 0 = Ok Allow.
Proof. vm_compute. reflexivity. Qed.
Example rust_file_open :
  sc [StdIO; CPath] KillProcess SYS_openat 0 0 (O_WRONLY + O_CREAT + 0x80000) 438 0 = Ok Allow.
Proof. vm_compute. reflexivity. Qed.
Example fcntl_stdio :
  sc [StdIO] KillProcess SYS_fcntl 42 1030 0 0 0 = Ok Allow /\
  sc [StdIO] KillProcess SYS_fcntl 42 2 0 0 0 = Ok Allow /\
  sc [StdIO] KillProcess SYS_fcntl 42 1026 0 0 0 = Ok KillProcess.
Proof. repeat split; vm_compute; reflexivity. Qed.
Example no_fcntl_lock : sc [StdIO; CPath] KillProcess SYS_fcntl 42 F_GETLK 0 0 0 = Ok KillProcess.
Proof. vm_compute. reflexivity. Qed.
Example sendto_addr :
  sc [StdIO] KillProcess SYS_sendto 0 0 0 0 (2 ^ 64 - 1) = Ok KillProcess /\
  sc [StdIO] KillProcess SYS_sendto 0 0 0 0 0xffffffff00000000 = Ok KillProcess /\
  sc [StdIO] KillProcess SYS_sendto 0 0 0 0 0x00000000ffffffff = Ok KillProcess /\
  sc [StdIO] KillProcess SYS_sendto 0 0 0 0 0 = Ok Allow.
Proof. repeat split; vm_compute; reflexivity. Qed.
Example fcntl_lock_ok : sc [StdIO; CPath; FLock] KillProcess SYS_fcntl 42 F_GETLK 0 0 0 = Ok Allow.
Proof. vm_compute. reflexivity. Qed.
Example fcntl_socket_ok :
  sc [Inet] KillProcess SYS_socket AF_INET (SOCK_STREAM + SOCK_NONBLOCK) IPPROTO_TCP 0 0 = Ok Allow.
Proof. vm_compute. reflexivity. Qed.

(** * tests/lib.rs *)
(** A fresh thread pledges (which must succeed) and then makes the calls. *)
Definition session (ps : list Promise) (v : SeccompReturn) (calls : list seccomp_data) : option (list entry) :=
  match pledge_override Debug amb0 thread0 ps v with
  | (Ok _, t) => Some (map (syscall_entry (t_filters t)) calls)
  | _ => None
  end.
Definition killed : entry := Kill DeathProcess.
Definition exit_group_99 := call SYS_exit_group 99 0 0 0 0.
(** File::create: openat(AT_FDCWD, path, O_WRONLY|O_CREAT|O_TRUNC|O_CLOEXEC, 0666) *)
Definition file_create := call SYS_openat 0xffffff9c 1 (O_WRONLY + O_CREAT + O_TRUNC + 0x80000) 438 0.
Definition file_open := call SYS_openat 0xffffff9c 1 0x80000 0 0.

Example lib_stdio_personality_errno :
  session [StdIO] (Errno 999) [call SYS_personality 0xffffffff 0 0 0 0] = Some [Fake (-999)].
Proof. vm_compute. reflexivity. Qed.
Example lib_stdio_personality_killed :
  session [StdIO] KillProcess [call SYS_personality 0xffffffff 0 0 0 0] = Some [killed].
Proof. vm_compute. reflexivity. Qed.
Example lib_empty_exit_ok : session [StdIO] KillProcess [call SYS_exit 99 0 0 0 0] = Some [Proceed].
Proof. vm_compute. reflexivity. Qed.
Example lib_stdio_exit_ok :
  session [StdIO] KillProcess [call SYS_clock_gettime 0 0 0 0 0; call SYS_write 1 0 0 0 0; exit_group_99]
  = Some [Proceed; Proceed; Proceed].
Proof. vm_compute. reflexivity. Qed.
Example lib_stdio_open_not_passwd : session [StdIO] KillProcess [file_open] = Some [killed].
Proof. vm_compute. reflexivity. Qed.
Example lib_rpath_open_passwd :
  session [StdIO; RPath] KillProcess [file_open; call SYS_read 3 0 0 0 0; call SYS_close 3 0 0 0 0; exit_group_99]
  = Some [Proceed; Proceed; Proceed; Proceed].
Proof. vm_compute. reflexivity. Qed.
Example lib_no_create :
  session [StdIO; RPath] KillProcess [file_create] = Some [killed] /\
  session [StdIO; WPath] KillProcess [file_create] = Some [killed].
Proof. split; vm_compute; reflexivity. Qed.
Example lib_create_and_write :
  session [StdIO; CPath] KillProcess [file_create; exit_group_99] = Some [Proceed; Proceed] /\
  session [StdIO; CPath; WPath] KillProcess [file_create; call SYS_write 3 0 0 0 0; exit_group_99]
  = Some [Proceed; Proceed; Proceed].
Proof. split; vm_compute; reflexivity. Qed.
Example lib_mknod :
  session [StdIO] KillProcess [call SYS_mknod 0 256 0 0 0] = Some [killed] /\
  session [StdIO; DPath] KillProcess [call SYS_mknod 0 256 0 0 0; exit_group_99] = Some [Proceed; Proceed].
Proof. split; vm_compute; reflexivity. Qed.
Example lib_fcntl :
  session [StdIO; CPath; WPath] KillProcess [file_create; call SYS_fcntl 3 1030 0 0 0; exit_group_99]
    = Some [Proceed; Proceed; Proceed] /\
  session [StdIO; CPath] KillProcess [file_create; call SYS_fcntl 3 F_GETLK 0 0 0] = Some [Proceed; killed] /\
  session [StdIO; CPath; FLock] KillProcess [file_create; call SYS_fcntl 3 F_GETLK 0 0 0; exit_group_99]
    = Some [Proceed; Proceed; Proceed].
Proof. repeat split; vm_compute; reflexivity. Qed.
Example lib_fattr :
  session [StdIO; CPath] KillProcess [file_create; call SYS_fchmod 3 438 0 0 0] = Some [Proceed; killed] /\
  session [StdIO; CPath; FAttr] KillProcess [file_create; call SYS_fchmod 3 438 0 0 0; exit_group_99]
    = Some [Proceed; Proceed; Proceed] /\
  session [StdIO; CPath; FAttr] KillProcess [file_create; call SYS_fchmod 3 (S_ISUID + 438) 0 0 0]
    = Some [Proceed; killed].
Proof. repeat split; vm_compute; reflexivity. Qed.
Example lib_unix_socket :
  let sock := call SYS_socket AF_UNIX (SOCK_STREAM + 0x80000) 0 0 0 in
  session [StdIO] KillProcess [sock] = Some [killed] /\
  session [StdIO; Unix] KillProcess [sock; call SYS_bind 3 0 0 0 0; call SYS_listen 3 0 0 0 0; exit_group_99]
    = Some [Proceed; Proceed; Proceed; Proceed].
Proof. split; vm_compute; reflexivity. Qed.
