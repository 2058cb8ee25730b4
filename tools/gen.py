import sys
sys.path.insert(0,'/verif/tools')
from ext import stmts
S=stmts()
HEAD='''From Coq Require Import NArith ZArith String List Bool Lia.
From Verif Require Import Libc Machine Bpf SeccompRet Asm Vm Promises Filters Kernel World Testkit Spec %sDemo.
From Verif Require %s.
Import ListNotations.
Local Open Scope N_scope.
'''
MOD={}
files={}
SPEC={}
def f(name,title,mods,spec=''): files[name]=[title,mods,[]]; SPEC[name]=spec; return files[name][2]
PROG='[Load ABS 0; Jump JEQ 59 (Some "yes") None; JumpTo "no"; Label "yes"; Return Const 0x7fff0000; Label "no"; Return Const 0]%string'
A=f('PropsAsm','C01-C05: the assembler.',['AsmProofs'])
A+= [
("C01","C01_compile_preserves_meaning","c01",f'''Example C01_example :
  let prog := {PROG} in
  well_formed prog /\\
  compile Debug prog = Ok [SockFilter 0x20 0 0 0; SockFilter 0x15 1 0 59; SockFilter 0x05 0 0 1;
                           SockFilter 0x06 0 0 0x7fff0000; SockFilter 0x06 0 0 0] /\\
  interp Debug prog None t_zero [59] = Ok 0x7fff0000 /\\
  interp Debug prog None t_zero [60] = Ok 0 /\\
  interp Debug prog None t_zero [] = Panic.
Proof. cbv zeta. split; [well_formed|]. repeat split; vm_compute; reflexivity. Qed.'''),
("C02","C02_one_instruction_per_token","c02_length",f'''Example C02_length_example :
  let prog := {PROG} in
  exists code, compile Release prog = Ok code /\\ instructions prog = 5 /\\ length prog = 7%nat.
Proof. eexists. repeat split; vm_compute; reflexivity. Qed.'''),
("C02","C02_labels_are_only_names","c02_rename",f'''Example C02_rename_example :
  let f := String.append "x" in
  (forall a b, f a = f b -> a = b) /\\
  map (rename_op f) [Jump JEQ 1 (Some "a") None; Label "a"]%string
    = [Jump JEQ 1 (Some "xa") None; Label "xa"]%string /\\
  compile Debug (map (rename_op f) [JumpTo "a"; Label "b"]%string) = Err (UnknownLabelReference "xa").
Proof. split; [intros a b H; injection H as H; exact H|]. split; reflexivity. Qed.'''),
("C03","C03_errors_are_exactly_undefined_labels","c03",'''Example C03_example :
  let fwd := [JumpTo "a"; Label "a"; Return Const 0]%string in
  let undef := [Load ABS 0; Jump JEQ 1 (Some "b") (Some "c"); Label "c"; Return Const 0]%string in
  let back := [Label "a"; Load ABS 0; JumpTo "a"]%string in
  (exists code, compile Debug fwd = Ok code) /\\
  compile Debug undef = Err (UnknownLabelReference "b") /\\
  compile Debug back = Panic /\\ (exists code, compile Release back = Ok code) /\\
  refs undef = [("b", [Label "c"; Return Const 0]); ("c", [Label "c"; Return Const 0])]%string.
Proof. repeat split; try eexists; vm_compute; reflexivity. Qed.'''),
("C04","C04_jump_lands_partial","c04_partial",f'''Example C04_partial_example :
  let prog := {PROG} in
  exists code, compile Debug prog = Ok code /\\
    reaches (skipn 2 prog) "yes" 255 /\\ reaches (skipn 3 prog) "no" (2 ^ 32 - 1).
Proof.
  eexists. split; [vm_compute; reflexivity|].
  split; eexists; (split; [vm_compute; reflexivity|discriminate]).
Qed.'''),
("C04","C04_far_jump_refuted","c04_refuted_far",None),
("C04","C04_backward_jump_refuted","c04_refuted_back",None),
("C05","C05_tokens_keep_their_meaning_partial","c05_partial",'''Example C05_partial_example :
  exists vm, vm_new [bpf_alu ADD Idx 0] = Ok vm /\\ length (vm_mem vm) = 16%nat /\\
    encodable (Alu ADD Idx 0) /\\
    to_sock_filter Debug 0 (Alu ADD Idx 0) [] = Ok (bpf_alu ADD Idx 0) /\\
    exec_token Debug (Alu ADD Idx 0) (bpf_alu ADD Idx 0) (set_idx (set_acc vm 3) 4) []
      = (Ok None, set_idx (set_acc vm 7) 4).
Proof. eexists. repeat split; vm_compute; reflexivity. Qed.'''),
("C05","C05_alu_accumulator_refuted","c05_refuted_alu",None),
("C05","C05_unconditional_jump_refuted","c05_refuted_ja",None),
]
V=f('PropsVm','C06-C13: the VM, its agreement with the kernel, field offsets and return codes.',['VmProofs','KernelVmProofs','CodeProofs'])
V+=[
("C06","C06_run_terminates","c06_terminates",'''Example C06_example : forall vm, vm_prog vm = [SockFilter 0x05 0 0 0xffffffff; SockFilter 0xff 1 2 3] ->
  fst (vm_run Debug vm [1]) = Finished (Ok 0) /\\ fst (run_loop 1 Debug (vm_reset vm) [1]) <> OutOfFuel.
Proof. intros [p a i m pr] H. cbn in H. subst. split; vm_compute; [reflexivity|discriminate]. Qed.'''),
("C06","C06_at_most_length_steps","c06_bound",'''Example C06_bound_example :
  let prog := [SockFilter 0x00 0 0 1; SockFilter 0x00 0 0 2; SockFilter 0x06 0 0 0] in
  exists vm vm', vm_new prog = Ok vm /\\ executed 2 Debug (vm_reset vm) [] = Some vm' /\\
    vm_pc vm' = 2 /\\ executed 3 Debug (vm_reset vm) [] = None.
Proof. eexists. eexists. repeat split; vm_compute; reflexivity. Qed.'''),
("C06","C06_counter_increases","c06_increases",'''Example C06_increases_example :
  exists vm vm', vm_new [SockFilter 0x05 0 0 7] = Ok vm /\\ execute Debug vm [] = (Ok None, vm') /\\
    vm_pc vm' = 8.
Proof. eexists. eexists. repeat split; vm_compute; reflexivity. Qed.'''),
("C07","C07_runs_independent_of_history","c07",'''Example C07_example :
  let prog := [SockFilter 0x20 0 0 0; SockFilter 0x02 0 0 3; SockFilter 0x16 0 0 0] in
  exists vm, vm_new prog = Ok vm /\\
    fold_left (vm_apply Debug) [VRun [5]; VStep [6]; VReset; VRun []] vm <> vm /\\
    fst (vm_run Debug vm [9]) = Finished (Ok 9).
Proof. eexists. repeat split; vm_compute; try reflexivity; discriminate. Qed.'''),
("C08","C08_new_iff_at_most_65535","c08",'''Example C08_example :
  (exists vm, vm_new [SockFilter 6 0 0 0] = Ok vm) /\\
  forall n, n = 65536 -> vm_new (repeat (SockFilter 6 0 0 0) (N.to_nat n)) = Err (ProgramTooLong n).
Proof.
  split; [eexists; vm_compute; reflexivity|]. intros n H.
  destruct (C08_new_iff_at_most_65535 (repeat (SockFilter 6 0 0 0) (N.to_nat n))) as [_ E].
  rewrite repeat_length, N2Nat.id in E. apply E. rewrite H. reflexivity.
Qed.'''),
("C09","C09_registers_stay_32_bit","c09",'''Example C09_example :
  let prog := [SockFilter 0x20 0 0 0; SockFilter 0x24 0 0 0xffffffff; SockFilter 0x02 0 0 15] in
  Forall wf_insn prog /\\ words [0xffffffff] /\\
  exists vm, vm_new prog = Ok vm /\\
    vm_acc (fold_left (vm_apply Release) [VRun [0xffffffff]] vm) = 1.
Proof.
  split; [repeat constructor|]. split; [repeat constructor|]. eexists.
  split; [vm_compute; reflexivity|]. vm_compute. reflexivity.
Qed.'''),
("C10","C10_vm_agrees_with_kernel","c10",'''Example C10_example :
  let prog := [SockFilter 0x20 0 0 0; SockFilter 0x02 0 0 1; SockFilter 0x61 0 0 1;
               SockFilter 0x3c 0 0 0; SockFilter 0x15 0 1 1; SockFilter 0x06 0 0 7;
               SockFilter 0x16 0 0 0] in
  kernel_accepts prog = true /\\ Forall wf_insn prog /\\ Forall vm_subset prog /\\
  Exists divides_by_index prog /\\
  kernel_eval prog (call 59 0 0 0 0 0) = 7 /\\ kernel_eval prog (call 0 0 0 0 0 0) = 0 /\\
  (forall vm, vm_prog vm = prog ->
     fst (vm_run Release vm (any_to_data (call 59 0 0 0 0 0) (repeat 0 48))) = Finished (Ok 7) /\\
     fst (vm_run Release vm (any_to_data (call 0 0 0 0 0 0) (repeat 0 48))) = Finished Panic).
Proof.
  split; [vm_compute; reflexivity|]. split; [repeat constructor|]. split; [repeat constructor|].
  split; [do 3 right; left; reflexivity|]. split; [vm_compute; reflexivity|].
  split; [vm_compute; reflexivity|].
  intros [p a i m pr] H. cbn in H. subst. split; vm_compute; reflexivity.
Qed.'''),
("C10","C10_release_equality","c10_release",'''Example C10_release_example :
  kernel_accepts (built [StdIO; Inet] KillProcess) = true /\\
  Forall wf_insn (built [RPath] KillProcess) /\\ Forall vm_subset (built [RPath] KillProcess) /\\
  ~ Exists divides_by_index (built [RPath] KillProcess).
Proof.
  split; [vm_compute; reflexivity|].
  assert (E : forallb (fun f => (sf_code f <? 2 ^ 16) && (sf_jt f <? 2 ^ 8) && (sf_jf f <? 2 ^ 8) &&
                       (sf_k f <? 2 ^ 32) && existsb (N.eqb (sf_code f)) simple_codes)
                      (built [RPath] KillProcess) = true) by (vm_compute; reflexivity).
  rewrite forallb_forall in E.
  assert (F : forall f, In f (built [RPath] KillProcess) ->
              wf_insn f /\\ vm_subset f /\\ ~ divides_by_index f).
  { intros f I. specialize (E f I). rewrite !andb_true_iff, !N.ltb_lt in E.
    destruct E as ((((E1 & E2) & E3) & E4) & E5).
    split; [repeat split; assumption|]. apply existsb_exists in E5.
    destruct E5 as (c & Ic & Ec). apply N.eqb_eq in Ec.
    unfold vm_subset, divides_by_index. rewrite Ec. unfold simple_codes in Ic. cbn [In] in Ic.
    repeat destruct Ic as [<-|Ic]; try contradiction; (split; [exact I|discriminate]) || auto.
    all: split; vm_compute; [exact Logic.I|discriminate]. }
  repeat split; try (apply Forall_forall; intros f I; apply F; exact I).
  intros X. apply Exists_exists in X. destruct X as (f & I & D). apply (F f I). exact D.
Qed.'''),
("C11","C11_register_comparison_refuted","c11_refuted",None),
("C11","C11_agrees_without_register_comparisons_partial","c11_partial","""Example C11_partial_example :
  let prog := [SockFilter 0x20 0 0 0; SockFilter 0x15 0 1 59; SockFilter 0x84 0 0 0; SockFilter 0x16 0 0 0] in
  kernel_accepts prog = true /\\ Forall wf_insn prog /\\ Forall (fun f => ~ compares_index f) prog /\\
  kernel_eval prog (call 59 0 0 0 0 0) = 2 ^ 32 - 59 /\\ kernel_eval prog (call 60 0 0 0 0 0) = 60 /\\
  (forall vm, vm_prog vm = prog ->
     fst (vm_run Debug vm (any_to_data (call 59 0 0 0 0 0) (repeat 0 48))) =
       Finished (Err (UnsupportedInstruction 0x80)) /\\
     fst (vm_run Debug vm (any_to_data (call 60 0 0 0 0 0) (repeat 0 48))) = Finished (Ok 60)).
Proof.
  cbv zeta. split; [vm_compute; reflexivity|]. split; [repeat constructor|].
  split; [repeat constructor; intros [c H]; discriminate H|]. split; [vm_compute; reflexivity|].
  split; [vm_compute; reflexivity|].
  intros [p a i m pr] H. cbn in H. subst. split; vm_compute; reflexivity.
Qed."""),
("C11","C11_reads_register_comparisons_as_constants","c11_exact","""Example C11_exact_example :
  map as_constant jx_prog =
    [SockFilter 0x01 0 0 5; SockFilter 0x00 0 0 5; SockFilter 0x15 0 1 0;
     SockFilter 0x06 0 0 0x7fff0000; SockFilter 0x06 0 0 0x80000000] /\\
  kernel_accepts jx_prog = true /\\
  kernel_eval jx_prog (call 0 0 0 0 0 0) = 0x7fff0000 /\\
  kernel_eval (map as_constant jx_prog) (call 0 0 0 0 0 0) = 0x80000000 /\\
  (forall vm, vm_prog vm = jx_prog ->
     fst (vm_run Debug vm (any_to_data (call 0 0 0 0 0 0) (repeat 0 48))) = Finished (Ok 0x80000000)).
Proof.
  repeat (split; [vm_compute; reflexivity|]).
  intros [p a i m pr] H. cbn in H. subst. vm_compute. reflexivity.
Qed."""),
("C12","C12_offset_loads_the_field","c12",'''Example C12_example :
  let d := call 59 0x1122334455667788 2 3 4 5 in
  wf_data d /\\ exists_field (ArgUpper 0) /\\ field (ArgUpper 0) d = 0x11223344 /\\
  field (ArgLower 0) d = 0x55667788 /\\ offset (ArgUpper 5) = 60.
Proof. repeat split; vm_compute; (reflexivity || discriminate). Qed.'''),
("C12","C12_halves_make_the_whole","c12_whole","""Example C12_whole_example :
  let d := call 1 2 3 0x123456789abc 5 6 in
  wf_data d /\\ field (ArgLower 2) d = 0x56789abc /\\ field (ArgUpper 2) d = 0x1234.
Proof. cbv zeta. split; [repeat split; reflexivity|]. split; vm_compute; reflexivity. Qed."""),
("C12","C12_offsets_distinct","c12_distinct","""Example C12_distinct_example :
  map offset [Syscall; Arch; InstrPointerLower; InstrPointerUpper; ArgLower 0; ArgUpper 5] = [0; 4; 8; 12; 16; 60].
Proof. vm_compute. reflexivity. Qed."""),
("C13","C13_action_round_trips","c13_forward",'''Example C13_example :
  small_payload (Errno 13) /\\ ret_into (Errno 13) = 0x5000d /\\
  small_payload (Trace 0xffff) /\\ ret_into (Trace 0xffff) = 0x7ff0ffff.
Proof. repeat split; vm_compute; reflexivity. Qed.'''),
("C13","C13_round_trips_exactly_small_payloads","c13_exact",'''Example C13_exact_example :
  payload_u32 (Errno 0x10000) /\\ ~ small_payload (Errno 0x10000) /\\
  ret_try_from (ret_into (Errno 0x10000)) = Ok (Errno 0).
Proof. split; [|split]; vm_compute; try reflexivity; discriminate. Qed.'''),
("C13","C13_code_round_trips","c13_back",'''Example C13_back_example :
  word 0x5000d /\\ ret_try_from 0x5000d = Ok (Errno 13) /\\ carries_data (Errno 13) /\\
  word 0x7fff1234 /\\ ret_try_from 0x7fff1234 = Ok Allow /\\ ~ carries_data Allow.
Proof. repeat split; vm_compute; try reflexivity. intros []. Qed.'''),
("C13","C13_recognised_codes","c13_recognised",'''Example C13_recognised_example :
  In (N.land 0x7ffc0001 0xffff0000) known_actions /\\ ~ In (N.land 0x7fc00000 0xffff0000) known_actions /\\
  ret_try_from 0x7fc00000 = Err (UnsupportedReturn 0x7fc00000).
Proof. vm_compute. intuition discriminate. Qed.'''),
("C13","C13_large_payload_refuted","c13_refuted",None),
]
def pol(name,ps,v,call,concl='proceeds',extra=''):
    neg='' if concl=='proceeds' else '~ '
    return f'''Example {name} :
  filter_for Debug 100 101 {ps} {v} (built {ps} {v}) /\\ native ({call}) /\\
  {neg}proceeds (built {ps} {v}) ({call}){extra}.
Proof. unfold proceeds. concrete. Qed.'''
P=f('PropsPolicy','C14-C35: what a pledged process can do.',['PolicyFacts','CodeProofs','PledgeProofs'])
P+=[
("C14","C14_filter_always_builds","c14_build","""Example C14_builds_example :
  exists prog, promises_to_prog Debug (mkEnv (Ok 5) (Ok 6)) [Default; Unveil; StdIO; StdIO] (Errno 0xffffffff) = Ok prog
    /\\ length prog = 595%nat.
Proof. eexists. split; [vm_compute; reflexivity|]. vm_compute. reflexivity. Qed."""),
("C14","C14_pledge_fails_only_through_the_system","c14_pledge",'''Example C14_example :
  fst (pledge_override Debug amb0 thread0 [StdIO; Exec] KillProcess) = Ok tt /\\
  fst (pledge_override Debug amb0
         (set_filters thread0 [built [RPath] (Errno 13)]) [StdIO] KillProcess) = Err (SysErr 13) /\\
  fst (pledge_override Debug amb0
         (set_filters thread0 [built [RPath] KillThread]) [StdIO] KillProcess) = Died DeathThread.
Proof. repeat split; vm_compute; reflexivity. Qed.'''),
("C15","C15_allows_exactly_what_is_granted","c15",'''Example C15_example :
  let ps := [StdIO; RPath] in
  filter_for Debug 100 101 ps (Errno 1) (built ps (Errno 1)) /\\
  native (call SYS_openat 0 0 0 0 0) /\\
  kernel_eval (built ps (Errno 1)) (call SYS_openat 0 0 0 0 0) = SECCOMP_RET_ALLOW /\\
  kernel_eval (built ps (Errno 1)) (call SYS_openat 0 0 O_WRONLY 0 0) = ret_into (Errno 1).
Proof. concrete. Qed.'''),
("C15","C15_same_verdict_in_the_vm","c15_vm",'''Example C15_vm_example : forall vm, vm_prog vm = built [Tty] Log ->
  fst (vm_run Debug vm (any_to_data (call SYS_ioctl 0 TCGETS 0 0 0) [])) = Finished (Ok SECCOMP_RET_ALLOW).
Proof. intros [p a i m pr] H. cbn [vm_prog] in H. subst. vm_compute. reflexivity. Qed.'''),
("C16","C16_foreign_architecture_kills","c16",'''Example C16_example :
  let d := mkSD 1 0x40000003 0 0 0 0 0 0 0 in
  filter_for Debug 100 101 [StdIO] Allow (built [StdIO] Allow) /\\ wf_data d /\\
  sd_arch d <> X86_64 /\\ kernel_eval (built [StdIO] Allow) d = 0x80000000.
Proof. concrete. Qed.'''),
("C17","C17_x32_never_granted","c17",'''Example C17_example :
  let d := call (2 ^ 30 + SYS_read) 0 0 0 0 0 in
  filter_for Debug 100 101 [StdIO] Trap (built [StdIO] Trap) /\\ native d /\\
  N.testbit (sd_nr d) 30 = true /\\ kernel_eval (built [StdIO] Trap) d = ret_into Trap /\\
  kernel_eval (built [StdIO] Trap) (call SYS_read 0 0 0 0 0) = ret_into Allow.
Proof. concrete. Qed.'''),
("C18","C18_lists_are_sets","c18",'''Example C18_example :
  (forall p, In p [StdIO; Exec] <-> In p [Exec; StdIO; Exec]) /\\
  built [StdIO; Exec] KillProcess <> built [Exec; StdIO; Exec] KillProcess.
Proof. split; [cbn [In]; intuition|]. vm_compute. discriminate. Qed.'''),
("C19","C19_more_promises_allow_more","c19",'''Example C19_example :
  (forall p, In p [RPath] -> In p [StdIO; RPath]) /\\
  kernel_eval (built [RPath] KillProcess) (call SYS_stat 0 0 0 0 0) = SECCOMP_RET_ALLOW /\\
  kernel_eval (built [RPath] KillProcess) (call SYS_read 0 0 0 0 0) <> SECCOMP_RET_ALLOW /\\
  kernel_eval (built [StdIO; RPath] KillProcess) (call SYS_read 0 0 0 0 0) = SECCOMP_RET_ALLOW.
Proof. split; [cbn [In]; intuition|]. concrete. Qed.'''),
("C20","C20_irrelevant_parts_ignored","c20",'''Example C20_example :
  let d := call SYS_kill 100 9 0 0 0 in
  let d' := mkSD SYS_kill X86_64 0x7777 (2 ^ 63 + 100) 9 (2 ^ 40) 0 0 77 in
  wf_data d /\\ wf_data d' /\\ lo32 (sd_a0 d) = lo32 (sd_a0 d') /\\ sd_a0 d <> sd_a0 d' /\\
  kernel_eval (built [StdIO] KillProcess) d = SECCOMP_RET_ALLOW /\\
  kernel_eval (built [StdIO] KillProcess) d' = SECCOMP_RET_ALLOW.
Proof. concrete. Qed.'''),
("C21","C21_exit_always_allowed","c21_exit",pol('C21_exit_example','[]','KillProcess','call SYS_exit 3 0 0 0 0')),
("C21","C21_empty_list_allows_only_exit","c21_empty",pol('C21_empty_example','[]','KillProcess','call SYS_exit_group 3 0 0 0 0','no')),
("C22","C22_dangerous_calls_never_granted","c22",'''Example C22_example :
  let all := [StdIO; RPath; WPath; CPath; Exec; Proc; ProtExec; Inet; Unix; Id] in
  filter_for Debug 100 101 all KillProcess (built all KillProcess) /\\
  native (call SYS_ptrace 0 0 0 0 0) /\\ existsb (N.eqb SYS_ptrace) dangerous = true /\\
  kernel_eval (built all KillProcess) (call SYS_ptrace 0 0 0 0 0) = ret_into KillProcess.
Proof. concrete. Qed.'''),
("C23","C23_no_executable_memory","c23",pol('C23_example','[StdIO]','KillProcess','call SYS_mprotect 0 4096 3 0 0')),
("C24","C24_exec_needs_promise","c24",pol('C24_example','[Exec]','KillProcess','call SYS_execve 1 2 3 0 0')+'\n'+pol('C24_example_refused','[StdIO; Proc]','KillProcess','call SYS_execve 1 2 3 0 0','no')),
("C25","C25_processes_need_proc","c25",pol('C25_example','[StdIO]','KillProcess','call SYS_clone 0x3d0f00 0 0 0 0')),
("C25","C25_allowed_forms","c25_allows",pol('C25_allows_example','[Proc]','KillProcess','call SYS_fork 0 0 0 0 0')),
("C26","C26_signals_only_to_self","c26",pol('C26_example','[StdIO]','KillProcess','call SYS_kill 100 15 0 0 0')+'\n'+pol('C26_example_refused','[StdIO]','KillProcess','call SYS_kill 99 15 0 0 0','no')),
("C27","C27_read_only_openat_partial","c27_partial",pol('C27_partial_example','[RPath; TmpPath]','KillProcess','call SYS_openat 0 1 0 0 0')),
("C27","C27_open_refuted","c27_refuted",None),
("C28","C28_wpath_openat_partial","c28_partial",pol('C28_partial_example','[WPath]','KillProcess','call SYS_openat 0 1 O_WRONLY 0 0')),
("C28","C28_open_refuted","c28_refuted",None),
("C29","C29_no_suid_partial","c29_partial",pol('C29_partial_example','[CPath; FAttr]','KillProcess','call SYS_openat 0 1 O_CREAT 420 0')+'\n'+pol('C29_partial_example_chmod','[FAttr]','KillProcess','call SYS_chmod 0 420 0 0 0')),
("C29","C29_fchmodat_refuted","c29_refuted_fchmodat",None),
("C29","C29_open_refuted","c29_refuted_open",None),
("C30","C30_sockets_confined","c30",pol('C30_example','[Inet]','KillProcess','call SYS_socket AF_INET (SOCK_STREAM + 2 ^ 19) IPPROTO_TCP 0 0')+'\n'+pol('C30_example_refused','[Inet]','KillProcess','call SYS_socket AF_UNIX SOCK_STREAM 0 0 0','no')),
("C31","C31_limits_read_only_partial","c31_partial",pol('C31_partial_example','[StdIO]','KillProcess','call SYS_prlimit64 0 7 0 1 0')),
("C31","C31_prlimit_pointer_refuted","c31_refuted",None),
("C32","C32_socket_options_partial","c32_partial",pol('C32_partial_example','[Inet]','KillProcess','call SYS_getsockopt 3 SOL_SOCKET SO_ERROR 0 0')),
("C32","C32_setsockopt_refuted","c32_refuted",pol('C32_refuted_example','[Inet; Unix]','KillProcess','call SYS_setsockopt 3 SOL_SOCKET SO_KEEPALIVE 0 0','no')),
("C33","C33_messages_partial","c33_partial",pol('C33_partial_example','[RecvFd]','KillProcess','call SYS_recvmsg 3 0 0 0 0')),
("C33","C33_sendfd_refuted","c33_refuted",pol('C33_refuted_example','[SendFd]','KillProcess','call SYS_sendmsg 3 0 0 0 0','no')),
("C34","C34_anonymous_memory_partial","c34_partial",pol('C34_partial_example','[StdIO]','KillProcess','call SYS_mmap 0 4096 1 0x22 0')),
("C34","C34_read_write_refuted","c34_refuted",pol('C34_refuted_example','[StdIO]','KillProcess','call SYS_mmap 0 4096 3 0x22 0','no')),
("C35","C35_fcntl_ioctl_prctl","c35",pol('C35_example','[StdIO]','KillProcess','call SYS_fcntl 0 3 0 0 0')+'\n'+pol('C35_example_refused','[StdIO; Inet; Tty]','KillProcess','call SYS_ioctl 0 0x5412 0 0 0','no')),
]
L=f('PropsPledge','C36-C46: installing filters, histories and threads.',['CodeProofs','PledgeProofs','WorldProofs'])
WF='(forall n, wf_amb (amb0 n))'
L+=[
("C36","C36_kernel_accepts_generated_filters","c36",'''Example C36_example :
  filter_for Debug 100 101 [StdIO; Inet] Trap (built [StdIO; Inet] Trap) /\\
  NoDup [StdIO; Inet] /\\ (100 < length (built [StdIO; Inet] Trap))%nat /\\
  kernel_accepts (built [StdIO; Inet] Trap) = true /\\
  kernel_accepts (built (repeat StdIO 20) Trap) = false.
Proof.
  split; [vm_compute; reflexivity|]. split; [repeat constructor; cbn; intuition discriminate|].
  split; [apply Nat.ltb_lt|split]; vm_compute; reflexivity.
Qed.'''),
("C37","C37_no_prefix_accepted","c37_prefix",'''Example C37_prefix_example :
  filter_for Debug 100 101 [RPath] Trap (built [RPath] Trap) /\\
  kernel_accepts (built [RPath] Trap) = true /\\
  kernel_accepts (firstn (length (built [RPath] Trap) - 1) (built [RPath] Trap)) = false.
Proof. repeat split; vm_compute; reflexivity. Qed.'''),
("C37","C37_too_long_fails","c37_pledge",'''Example C37_pledge_example :
  let ps := repeat StdIO 20 in
  filter_for Debug 100 101 ps Trap (built ps Trap) /\\
  4096 < N.of_nat (length (built ps Trap)) /\\
  pledge_override Debug amb0 thread0 ps Trap = (Err (SysErr 22), set_nnp thread0).
Proof. repeat split; vm_compute; reflexivity. Qed.'''),
("C38","C38_all_or_nothing","c38",'''Example C38_example :
  pledge_override Debug amb0 thread0 [StdIO] Trap
    = (Ok tt, set_filters (set_nnp thread0) [built [StdIO] Trap]) /\\
  (let t := set_filters thread0 [built [RPath] (Errno 5)] in
   pledge_override Debug amb0 t [StdIO] Trap = (Err (SysErr 5), t)).
Proof. split; vm_compute; reflexivity. Qed.'''),
("C38","C38_interruption","c38_interrupted",'''Example C38_interrupted_example :
  let n := pledge_length [StdIO] in
  pledge_steps (n - 2) Debug amb0 thread0 (PStart [StdIO] Trap)
    = (inl (PNnp [StdIO] Trap (built [StdIO] Trap)), thread0) /\\
  pledge_steps (n - 1) Debug amb0 thread0 (PStart [StdIO] Trap)
    = (inl (PLoad [StdIO] Trap (built [StdIO] Trap)), set_nnp thread0) /\\
  (exists parts rules, pledge_steps 9 Debug amb0 thread0 (PStart [StdIO] Trap)
    = (inl (PBuild [StdIO] Trap parts rules), thread0)).
Proof. cbv zeta. split; [|split; [|eexists; eexists]]; vm_compute; reflexivity. Qed.'''),
("C38","C38_filter_acts_like_filter_for","c38_like",'''Example C38_like_example :
  let part := fun pid rule => match filter_to_bpf Debug (mkEnv (Ok pid) (Ok 101)) rule with Ok c => c | _ => [] end in
  let rules := match promises_to_filters [StdIO; StdIO] with Ok l => l | _ => [] end in
  let half := Nat.div2 (length rules) in
  let parts := map (part 100) (firstn half rules) ++ map (part 200) (skipn half rules) in
  let prog := match assemble_parts Debug parts Trap with Ok p => p | _ => [] end in
  let kill pid := mkSD SYS_kill X86_64 0 pid 15 0 0 0 0 in
  filter_with Debug (fun e => e = mkEnv (Ok 100) (Ok 101) \\/ e = mkEnv (Ok 200) (Ok 101)) [StdIO; StdIO] Trap prog /\\
  kernel_eval prog (kill 100) = 0x7fff0000 /\\ kernel_eval prog (kill 200) = 0x7fff0000 /\\
  kernel_eval prog (kill 300) = 0x30000.
Proof.
  cbv zeta. split; [|repeat split; vm_compute; reflexivity].
  eexists. eexists. split; [reflexivity|]. split; [|reflexivity].
  cbn. repeat (constructor; [solve [eexists; split; [left; reflexivity|reflexivity] |
                                    eexists; split; [right; reflexivity|reflexivity]]|]). constructor.
Qed.'''),
("C38","C38_one_answer_gives_filter_for","c38_one",'''Example C38_one_example :
  let E := fun e => exists n, e = thread_env thread0 (amb0 n) in
  filter_with Debug E [RPath] Trap (built [RPath] Trap) /\\
  (forall e x, E e -> env_getpid e = Ok x -> x = 100) /\\ (forall e x, E e -> env_gettid e = Ok x -> x = 101).
Proof.
  cbv zeta. split.
  - apply (PledgeProofs.for_with Debug _ 100 101); [vm_compute; reflexivity|exists 0%nat; vm_compute; reflexivity].
  - split; intros e x (n & ->) H; vm_compute in H; congruence.
Qed.'''),
("C39","C39_success_means_installed_partial","c39_partial",'''Example C39_partial_example :
  (forall n, calm (amb0 n)) /\\
  exists t t', pledged Debug thread0 [([StdIO; RPath; Exec], KillProcess)] t /\\
    small_payload KillProcess /\\ KillProcess <> Errno 0 /\\
    pledge_override Debug amb0 t [StdIO; RPath] Trap = (Ok tt, t') /\\ length (t_filters t') = 2%nat.
Proof.
  assert (W : forall n, calm (amb0 n)) by (intros n; vm_compute; repeat split; reflexivity).
  split; [exact W|]. eexists. eexists. split.
  { eapply pledged_cons; [intros n; apply (proj1 (W n))|vm_compute; reflexivity|apply pledged_nil]. }
  split; [exact I|]. split; [discriminate|]. split; vm_compute; reflexivity.
Qed.'''),
("C39","C39_success_without_filter_refuted","c39_refuted",None),
("C39","C39_errno_0_always_misleads","c39_errno0",'''Example C39_errno0_example : NoDup [RPath; Exec] /\\ ~ In StdIO [RPath; Exec] /\\ t_filters thread0 = [].
Proof. split; [repeat constructor; cbn; intuition discriminate|]. split; [cbn; intuition discriminate|reflexivity]. Qed.'''),
("C40","C40_pledges_only_narrow","c40",'''Example C40_example :
  let w := mkWorld [thread0] 1 in
  let amb := amb0 0%nat in
  let fork := call SYS_fork 0 0 0 0 0 in
  let read := call SYS_read 0 0 0 0 0 in
  let exec := call SYS_execve 0 0 0 0 0 in
  let p1 := EvCall 0 (call_getpid amb) Proceed in let p2 := EvCall 0 (call_gettid amb) Proceed in
  let p3 := EvCall 0 (call_set_nnp amb) Proceed in let p4 := EvCall 0 (call_set_seccomp amb) Proceed in
  let tracer := mkSup (Some Proceed) (Some Proceed) (Some 0%Z) in
  fresh_world w /\\ hard (Errno 1) /\\
  snd (wrun Debug w (OPledge 0 [StdIO; Proc] (Errno 1) ::
                     repeat (OStep 0 amb) (pledge_length [StdIO; Proc]) ++
                    [OSys 0 fork (mkOracle tracer [] false false 102); ODie 0;
                     OSys 1 exec (mkOracle tracer [] false false 0); OSys 1 read (mkOracle tracer [] false false 0)]))
  = [p1; p2; p3; p4] ++ EvInstalled 0 100 101 [StdIO; Proc] (Errno 1) ::
    [EvReturned 0 [StdIO; Proc] (Errno 1) (Ok tt); EvCall 0 fork Proceed; EvSpawn 0 1;
     EvCall 1 exec (Fake (-1))] ++ EvCall 1 read Proceed :: [] /\\
  descendants [0%nat] [EvReturned 0 [StdIO; Proc] (Errno 1) (Ok tt); EvCall 0 fork Proceed; EvSpawn 0 1;
     EvCall 1 exec (Fake (-1))] = [1%nat; 0%nat] /\\
  (forall x, answered 0 [p1; p2; p3; p4] SYS_getpid 100 x -> x = 100).
Proof.
  cbv zeta. split; [repeat constructor|]. split; [reflexivity|].
  split; [vm_compute; reflexivity|]. split; [vm_compute; reflexivity|].
  intros x [E|(d & r & I & _)]; [exact E|]. cbn [In] in I.
  destruct I as [I|[I|[I|[I|[]]]]]; discriminate I.
Qed.'''),
("C41","C41_other_threads_refuted","c41_refuted",None),
("C42","C42_cannot_tighten_without_stdio","c42_never",'''Example C42_never_example :
  filter_with Debug (fun _ => True) [RPath] (Errno 1) (built [RPath] (Errno 1)) /\\ enforcing (Errno 1) /\\ hard (Errno 1) /\\
  ~ In StdIO [RPath] /\\
  fst (pledge_override Debug amb0
         (set_filters thread0 [built [StdIO; RPath] Trap; built [RPath] (Errno 1); built [StdIO] Log])
         [RPath] KillProcess) = Err (SysErr 1).
Proof.
  split; [apply (PledgeProofs.for_with Debug _ 100 101); [vm_compute; reflexivity|exact I]|].
  split; [vm_compute; repeat split; discriminate|]. split; [reflexivity|].
  split; [cbn; intuition discriminate|]. vm_compute. reflexivity.
Qed.'''),
("C42","C42_first_call_gets_the_violation","c42_first_call",'''Example C42_first_call_example :
  filter_with Debug (fun _ => True) [RPath] Trap (built [RPath] Trap) /\\ wf_amb (amb0 0%nat) /\\
  syscall_entry [built [RPath] Trap] (call_set_nnp (amb0 0%nat)) = Kill DeathSigsys.
Proof.
  split; [apply (PledgeProofs.for_with Debug _ 100 101); [vm_compute; reflexivity|exact I]|].
  repeat split; vm_compute; reflexivity.
Qed.'''),
("C42","C42_later_pledge_fails","c42_fails",'''Example C42_fails_example :
  let pledges := [([StdIO], KillProcess); ([RPath], Errno 13)] in
  stack_with Debug pledges [built [StdIO] KillProcess; built [RPath] (Errno 13)] /\\
  Forall (fun pv => small_payload (snd pv) /\\ snd pv <> Errno 0) pledges /\\
  exists ps0 v0, In (ps0, v0) pledges /\\ enforcing v0 /\\ ~ In StdIO ps0.
Proof.
  split; [apply (PledgeProofs.stack_of_with Debug [mkInst 100 101 [StdIO] KillProcess; mkInst 100 101 [RPath] (Errno 13)]);
          repeat constructor; vm_compute; reflexivity|].
  split; [repeat constructor; vm_compute; congruence|].
  eexists. eexists. split; [right; left; reflexivity|].
  split; [vm_compute; repeat split; discriminate|cbn; intuition discriminate].
Qed.'''),
("C42","C42_stdio_pledges_can_be_tightened","c42_succeeds",'''Example C42_succeeds_example :
  let pledges := [([StdIO; RPath], KillProcess)] in
  stack_with Debug pledges [built [StdIO; RPath] KillProcess] /\\
  Forall (fun pv => small_payload (snd pv) /\\ In StdIO (fst pv)) pledges /\\
  fst (pledge_override Debug amb0 (set_filters thread0 [built [StdIO; RPath] KillProcess]) [RPath] Trap) = Ok tt /\\
  stack_cost [built [StdIO; RPath] KillProcess] < 1000.
Proof.
  split; [apply (PledgeProofs.stack_of_with Debug [mkInst 100 101 [StdIO; RPath] KillProcess]);
          repeat constructor; vm_compute; reflexivity|].
  split; [repeat constructor|]. split; vm_compute; reflexivity.
Qed.'''),
("C43","C43_strictest_action_wins","c43",'''Example C43_example :
  let pledges := [mkInst 100 101 [StdIO] (Errno 1); mkInst 100 101 [RPath] (Errno 2); mkInst 100 101 [] Log] in
  let fs := [built [StdIO] (Errno 1); built [RPath] (Errno 2); built [] Log] in
  stack_of Debug pledges fs /\\ Forall (fun i => small_payload (i_v i)) pledges /\\
  syscall_entry fs (call SYS_execve 0 0 0 0 0) = Fake (-1) /\\
  syscall_entry fs (call SYS_read 0 0 0 0 0) = Fake (-2) /\\
  syscall_entry fs (call SYS_exit 0 0 0 0 0) = Proceed.
Proof.
  split; [repeat constructor; vm_compute; reflexivity|].
  split; [repeat constructor|]. repeat split; vm_compute; reflexivity.
Qed.'''),
("C43","C43_proceeds_iff_all_let_it","c43_proceeds","""Example C43_proceeds_example :
  let fs := [built [StdIO; RPath] Trap; built [RPath; WPath] (Errno 2); built [] Log] in
  stack_of Debug [mkInst 100 101 [StdIO; RPath] Trap; mkInst 100 101 [RPath; WPath] (Errno 2); mkInst 100 101 [] Log] fs /\\
  syscall_entry fs (call SYS_stat 0 0 0 0 0) = Proceed /\\
  syscall_entry fs (call SYS_read 0 0 0 0 0) = Fake (-2) /\\
  syscall_entry fs (call SYS_truncate 0 0 0 0 0) = Kill DeathSigsys.
Proof.
  cbv zeta. split; [repeat constructor; vm_compute; reflexivity|]. repeat split; vm_compute; reflexivity.
Qed."""),
("C44","C44_violation_decides_refused_calls","c44",'''Example C44_example :
  filter_for Debug 100 101 [RPath] (Errno 5000) (built [RPath] (Errno 5000)) /\\
  small_payload (Errno 5000) /\\
  syscall_entry [built [RPath] (Errno 5000)] (call SYS_read 0 0 0 0 0) = Fake (-4095) /\\
  syscall_entry [built [RPath] Log] (call SYS_read 0 0 0 0 0) = Proceed.
Proof. repeat split; vm_compute; reflexivity. Qed.'''),
("C44","C44_large_payload_refuted","c44_refuted",None),
("C45","C45_pledge_kills_the_process","c45",'''Example C45_example :
  pledge Debug amb0 thread0 [StdIO] = (Ok tt, set_filters (set_nnp thread0) [built [StdIO] KillProcess]) /\\
  syscall_entry [built [StdIO] KillProcess] (call SYS_execve 0 0 0 0 0) = Kill DeathProcess /\\
  (forall pid tid, ~ granted [StdIO] pid tid (call SYS_execve 0 0 0 0 0)) /\\
  (forall n x, read_call thread0 (amb0 n) (call_getpid (amb0 n)) = Ok x -> x = 100).
Proof.
  split; [vm_compute; reflexivity|]. split; [vm_compute; reflexivity|]. split.
  - intros pid tid G. PolicyProofs.row SYS_execve R. rewrite R in G by reflexivity.
    unfold PolicyProofs.promised in G. cbn in G. intuition discriminate.
  - intros n x H. vm_compute in H. congruence.
Qed.'''),
("C46","C46_cost_of_generated_filters","c46",'''Example C46_example :
  length (ktrace (built [StdIO; RPath] Trap) 0 0 0 (repeat 0 16) (sd_words (call SYS_exit 0 0 0 0 0))) = 5%nat.
Proof. vm_compute. reflexivity. Qed.'''),
("C46","C46_accepted_filters_return","c46_accepted",'''Example C46_accepted_example : kernel_accepts (built [StdIO; RPath] Trap) = true.
Proof. vm_compute. reflexivity. Qed.'''),
]

R=f('PropsRun','C47-C49: filters run in the VM, and the record handed to it.',['RunProofs'])
R+=[
("C47","C47_vm_check_predicts_policy","c47","""Example C47_example :
  filter_for Debug 100 101 [RPath] (Errno 13) (built [RPath] (Errno 13)) /\\
  N.of_nat (length (built [RPath] (Errno 13))) <= 65535 /\\ small_payload (Errno 13) /\\
  run_seccomp Debug (built [RPath] (Errno 13)) (call SYS_stat 1 2 3 4 5) [] = Ok Allow /\\
  run_seccomp Release (built [RPath] (Errno 13)) (call SYS_read 1 2 3 4 5) (repeat 7 48) = Ok (Errno 13) /\\
  run_seccomp Debug (built [RPath] (Errno 13)) (mkSD SYS_stat 0x40000003 0 0 0 0 0 0 0) [] = Ok KillProcess.
Proof. repeat split; vm_compute; try reflexivity; discriminate. Qed."""),
("C47","C47_vm_check_predicts_kernel","c47_fate","""Example C47_kernel_example :
  run_seccomp Debug (built [StdIO] Trap) (call SYS_openat 0 0 0 0 0) [] = Ok Trap /\\
  syscall_entry [built [StdIO] Trap] (call SYS_openat 0 0 0 0 0) = Kill DeathSigsys.
Proof. split; vm_compute; reflexivity. Qed."""),
("C48","C48_slice_too_long_refuted","c48_slice_refuted",None),
("C48","C48_load_past_record_refuted","c48_refuted",None),
("C48","C48_accepted_filters_stay_inside_partial","c48_partial","""Example C48_partial_example :
  let prog := [bpf_ld ABS 16; bpf_ret Acc 0] in
  kernel_accepts prog = true /\\ Forall wf_insn prog /\\ Forall vm_subset prog /\\
  ~ Exists divides_by_index prog /\\
  exists vm, vm_new prog = Ok vm /\\
    fst (vm_run Release vm (any_to_data (call 1 77 3 4 5 6) (repeat 0 48))) = Finished (Ok 77) /\\
    fst (vm_run Release vm (any_to_data (call 1 77 3 4 5 6) (repeat 9 48))) = Finished (Ok 77).
Proof.
  cbv zeta. split; [vm_compute; reflexivity|].
  split; [repeat constructor; vm_compute; reflexivity|].
  split; [repeat constructor; vm_compute; intuition discriminate|].
  split; [intros X; repeat (apply Exists_cons in X; destruct X as [X|X]; [vm_compute in X; intuition discriminate|]);
          inversion X|].
  eexists. repeat split; vm_compute; reflexivity.
Qed."""),
("C48","C48_generated_filters_stay_inside","c48_generated","""Example C48_generated_example :
  exists vm, vm_new (built [StdIO] Trap) = Ok vm /\\
    fst (vm_run Debug vm (any_to_data (call SYS_openat 0 0 0 0 0) (repeat 9 48))) = Finished (Ok 0x30000).
Proof. eexists. split; [vm_compute; reflexivity|]. vm_compute. reflexivity. Qed."""),
("C49","C49_offset_arithmetic","c49","""Example C49_example :
  offset_u32 (E := bpf_error) Debug (ArgUpper 5) = Ok 60 /\\
  offset_u32 (E := bpf_error) Debug (ArgLower (2 ^ 29)) = Panic /\\
  offset_u32 (E := bpf_error) Release (ArgLower (2 ^ 29)) = Ok 16.
Proof. repeat split; vm_compute; reflexivity. Qed."""),
("C49","C49_distinct_fields_refuted","c49_refuted",None),
]
L=f('PropsLink','C50-C52: from tokens to the kernel, and concatenation of programs.',['LinkProofs'])
L+=[
("C50","C50_tokens_mean_what_the_kernel_does","c50","""Example C50_example :
  let prog := [Load ABS 0; LoadIdx IMM 7; Alu DIV Idx 0; Return Acc 0] in
  let zero := [Load ABS 0; LoadIdx IMM 0; Alu DIV Idx 0; Return Acc 0] in
  well_formed prog /\\ Forall word_token prog /\\ well_formed zero /\\ Forall word_token zero /\\
  exists code code', compile Debug prog = Ok code /\\ kernel_accepts code = true /\\
    kernel_eval code (call 59 0 0 0 0 0) = 8 /\\
    compile Debug zero = Ok code' /\\ kernel_accepts code' = true /\\
    interp Release zero None t_zero (any_to_data (call 59 0 0 0 0 0) (repeat 0 48)) = Panic /\\
    kernel_eval code' (call 59 0 0 0 0 0) = 0.
Proof.
  cbv zeta. split; [well_formed|]. split; [repeat constructor|].
  split; [well_formed|]. split; [repeat constructor|].
  eexists. eexists. repeat split; vm_compute; reflexivity.
Qed."""),
("C50","C50_equal_without_division","c50_exact",f"""Example C50_exact_example :
  let prog := {PROG} in
  well_formed prog /\\ Forall word_token prog /\\ (forall v, ~ In (Alu DIV Idx v) prog) /\\
  exists code, compile Debug prog = Ok code /\\ kernel_accepts code = true /\\
    kernel_eval code (call 59 0 0 0 0 0) = 0x7fff0000 /\\ kernel_eval code (call 60 0 0 0 0 0) = 0.
Proof.
  cbv zeta. split; [well_formed|]. split; [repeat constructor|].
  split; [intros v H; repeat (destruct H as [H|H]; [discriminate H|]); destruct H|].
  eexists. repeat split; vm_compute; reflexivity.
Qed."""),
("C51","C51_compiled_code_fits_the_wire_format","c51","""Example C51_example :
  let prog := [JumpTo "a"; Alu MUL Const 4294967295; Label "a"; Return Acc 0]%string in
  Forall word_token prog /\\ exists code, compile Release prog = Ok code /\\ length code = 3%nat.
Proof. cbv zeta. split; [repeat constructor|]. eexists. split; vm_compute; reflexivity. Qed."""),
("C51","C51_profiles_agree_unless_debug_panics","c51_profiles","""Example C51_profiles_example :
  let back := [Label "a"; Load ABS 0; JumpTo "a"]%string in
  compile Debug back = Panic /\\
  compile Debug [JumpTo "x"]%string = Err (UnknownLabelReference "x") /\\
  compile Release [JumpTo "x"]%string = Err (UnknownLabelReference "x").
Proof. repeat split; vm_compute; reflexivity. Qed."""),
("C52","C52_concatenation_compiles_piecewise","c52","""Example C52_example :
  let p := [Load ABS 0; Jump JEQ 1 (Some "a") None; Return Const 0; Label "a"]%string in
  let q := [Label "b"; JumpTo "c"; Label "c"; Return Const 1]%string in
  linkable p q /\\
  compile Debug (p ++ q) = Ok [SockFilter 0x20 0 0 0; SockFilter 0x15 1 0 1; SockFilter 0x06 0 0 0;
                               SockFilter 0x05 0 0 0; SockFilter 0x06 0 0 1].
Proof.
  cbv zeta. split; [|vm_compute; reflexivity].
  split; intros op Hin; cbn [In] in Hin; intuition (subst; cbn in *; intuition (subst; try discriminate)).
Qed."""),
]

NF=f('PropsNeeds','C53-C64: which promise a capability needs.',['NeedFacts'])
NF+=[
("C53","C53_capabilities_of_one_promise","c53",pol('C53_example','[Chown]','KillProcess','call SYS_fchownat 1 2 3 4 5')+'\n'+pol('C53_example_refused','[StdIO; Proc; Id; FAttr; WPath]','KillProcess','call SYS_fchownat 1 2 3 4 5','no')),
("C54","C54_order_of_promises","c54","""Example C54_example :
  granted [VmInfo] 1 1 (call SYS_sched_yield 0 0 0 0 0) /\\ granted [StdIO] 1 1 (call SYS_sched_yield 0 0 0 0 0).
Proof.
  split.
  - exists [(AnyArgs, [StdIO; VmInfo])], AnyArgs, [StdIO; VmInfo], VmInfo. cbn. tauto.
  - exists [(AnyArgs, [StdIO; VmInfo])], AnyArgs, [StdIO; VmInfo], StdIO. cbn. tauto.
Qed."""),
("C55","C55_paths_need_path_promises","c55",pol('C55_example','[StdIO; DPath]','Trap','call SYS_mknod 1 2 3 4 5',extra=' /\\ In SYS_mknod path_calls')+'\n'+pol('C55_example_refused','[StdIO; Inet; Unix; Proc; Id; Tty; RecvFd; SendFd; ProtExec; VmInfo; FLock; SetTime; Unveil]','KillProcess','call SYS_openat 0 0 0 0 0','no')),
("C56","C56_no_sockets_without_network_promises","c56",pol('C56_example','[StdIO; RPath]','(Errno 1)','call SYS_sendto 3 4 5 0 0')+'\n'+pol('C56_example_refused','[StdIO; RPath]','(Errno 1)','call SYS_sendto 3 4 5 0 (2 ^ 40)','no')),
("C57","C57_exit_group_refuted","c57_refuted",pol('C57_example','[RPath; WPath; Exec]','KillProcess','call SYS_exit_group 0 0 0 0 0','no')),
("C57","C57_exit_group_needs_stdio_partial","c57_partial",pol('C57_partial_example','[StdIO; Exec]','KillProcess','call SYS_exit_group 0 0 0 0 0')),
("C58","C58_directory_listing_refuted","c58_refuted",pol('C58_example','[StdIO; RPath; WPath; CPath]','KillProcess','call SYS_getdents64 3 0x7000 1024 0 0','no')),
("C58","C58_old_getdents_needs_rpath_partial","c58_partial",pol('C58_partial_example','[StdIO; RPath]','KillProcess','call SYS_getdents 3 0x7000 1024 0 0')),
("C59","C59_cpath_opens_for_writing_refuted","c59_refuted",pol('C59_example','[CPath]','KillProcess','call SYS_openat 0xffffff9c 0x7000 (O_RDWR + O_TRUNC) 0 0')),
("C59","C59_writing_needs_wpath_or_cpath_partial","c59_partial",pol('C59_partial_example','[StdIO; RPath; Dns; TmpPath]','KillProcess','call SYS_openat 0xffffff9c 0x7000 O_WRONLY 0 0','no')),
("C60","C60_dns_reads_files_refuted","c60_refuted",pol('C60_example','[Dns]','KillProcess','call SYS_openat 0xffffff9c 0x7000 0 0 0',extra=' /\\ read_only 0')),
("C60","C60_reading_needs_rpath_dns_or_cpath_partial","c60_partial",pol('C60_partial_example','[StdIO; WPath; TmpPath]','KillProcess','call SYS_openat 0xffffff9c 0x7000 0 0 0','no')),
("C61","C61_other_thread_signals_itself_refuted","c61_refuted",pol('C61_example','[StdIO; RPath]','KillProcess','call SYS_tkill 102 6 0 0 0','no')),
("C61","C61_pledging_thread_signals_itself_partial","c61_partial",pol('C61_partial_example','[StdIO; RPath]','KillProcess','call SYS_tkill 101 6 0 0 0')),
("C62","C62_clock_settime_refuted","c62_refuted",pol('C62_example','[StdIO; SetTime]','KillProcess','call SYS_clock_settime 0 0x7000 0 0 0','no')),
("C62","C62_settimeofday_needs_settime_partial","c62_partial",pol('C62_partial_example','[StdIO; SetTime]','KillProcess','call SYS_clock_adjtime 0 0x7000 0 0 0')),
("C63","C63_mknod_setuid_refuted","c63_refuted",pol('C63_example','[DPath]','KillProcess','call SYS_mknod 0x7000 0x89ed 0 0 0',extra=' /\\ has 0x800 0x89ed')),
("C63","C63_mknod_needs_dpath_partial","c63_partial",pol('C63_partial_example','[CPath; StdIO]','KillProcess','call SYS_mkdir 0x7000 0x1ff 0 0 0')),
("C64","C64_tmppath_makes_no_files_refuted","c64_refuted",pol('C64_example','[StdIO; TmpPath]','KillProcess','call SYS_openat 0xffffff9c 0x7000 0xc2 0x180 0','no')),
("C64","C64_what_tmppath_adds_partial","c64_partial",pol('C64_partial_example','[TmpPath; StdIO]','KillProcess','call SYS_unlinkat 0xffffff9c 0x7000 0 0 0')),
]
ST=f('PropsStack','C65-C71, C77: stacks of pledges.',['StackProofs'])
ST+=[
("C65","C65_order_of_filters_is_irrelevant","c65","""Example C65_example :
  let a := built [StdIO] (Errno 1) in let b := built [RPath] (Errno 2) in
  syscall_entry [a; b] (call SYS_execve 0 0 0 0 0) = Fake (-1) /\\
  syscall_entry [b; a] (call SYS_execve 0 0 0 0 0) = Fake (-2) /\\
  syscall_entry [a; b] (call SYS_fstat 0 0 0 0 0) = Proceed /\\
  syscall_entry [b; a] (call SYS_fstat 0 0 0 0 0) = Proceed.
Proof. repeat split; vm_compute; reflexivity. Qed."""),
("C66","C66_repeated_filter_changes_nothing","c66","""Example C66_example :
  syscall_entry [built [StdIO] (Errno 1); built [StdIO] (Errno 1)] (call SYS_execve 0 0 0 0 0) = Fake (-1).
Proof. vm_compute. reflexivity. Qed."""),
("C66","C66_repeated_pledge_changes_nothing","c66_pledge","""Example C66_pledge_example :
  stack_with Debug [] (t_filters thread0) /\\
  exists t1 t2, pledge_override Debug amb0 thread0 [StdIO] Trap = (Ok tt, t1) /\\
    pledge_override Debug amb0 t1 [StdIO] Trap = (Ok tt, t2) /\\ length (t_filters t2) = 2%nat.
Proof.
  split; [constructor|].
  eexists. eexists. split; [vm_compute; reflexivity|]. split; [vm_compute; reflexivity|].
  vm_compute. reflexivity.
Qed."""),
("C67","C67_larger_pledge_changes_nothing","c67","""Example C67_example :
  let small := built [StdIO] Trap in let large := built [StdIO; Exec] (Errno 3) in
  enforcing Trap /\\ incl [StdIO] [StdIO; Exec] /\\
  syscall_entry [small] (call SYS_read 0 0 0 0 0) = Proceed /\\
  syscall_entry [large; small] (call SYS_read 0 0 0 0 0) = Proceed /\\
  syscall_entry [large; small] (call SYS_execve 0 0 0 0 0) = Kill DeathSigsys.
Proof.
  split; [concrete|]. split; [intros p [<-|[]]; left; reflexivity|]. repeat split; vm_compute; reflexivity.
Qed."""),
("C68","C68_common_promises_survive_partial","c68_partial","""Example C68_partial_example :
  syscall_entry [built [RPath; StdIO] Trap; built [StdIO; Exec] Trap] (call SYS_read 0 0 0 0 0) = Proceed /\\
  filter (fun p => existsb (promise_eqb p) [RPath; StdIO]) [StdIO; Exec] = [StdIO].
Proof. split; vm_compute; reflexivity. Qed."""),
("C68","C68_intersection_refuted","c68_refuted",None),
("C69","C69_28_pledges_fit","c69","""Example C69_example :
  let all := [StdIO; RPath; WPath; CPath; DPath; FLock; FAttr; Inet; Unix; Dns; Tty; RecvFd; SendFd;
              Proc; Id; Chown; SetTime; ProtExec; Exec; VmInfo; TmpPath; Unveil; Default] in
  let pledges := repeat (all, Trap) 27 in
  stack_with Debug pledges (repeat (built all Trap) 27) /\\
  Forall (fun pv => small_payload (snd pv) /\\ In StdIO (fst pv) /\\ NoDup (fst pv)) pledges /\\
  fst (pledge_override Debug amb0 (set_filters thread0 (repeat (built all Trap) 27)) all Trap) = Ok tt /\\
  fst (pledge_override Debug amb0 (set_filters thread0 (repeat (built all Trap) 28)) all Trap) = Err (SysErr 12).
Proof.
  cbv zeta. split; [|split; [|split]].
  - match goal with |- stack_with _ (repeat (?all, Trap) 27) _ =>
      apply (PledgeProofs.stack_of_with Debug (repeat (mkInst 100 101 all Trap) 27)) end.
    unfold stack_of. cbn [repeat]. repeat constructor; vm_compute; reflexivity.
  - cbn [repeat]. repeat (constructor; [split; [exact I|split; [left; reflexivity|]];
      repeat constructor; cbn; intuition discriminate|]). constructor.
  - vm_compute. reflexivity.
  - vm_compute. reflexivity.
Qed."""),
("C70","C70_exact_filter_size","c70","""Example C70_example :
  length (built [StdIO; Dns; Exec] Trap) = 342%nat /\\ promises_size [StdIO; Dns; Exec] = 335 /\\
  promises_size (repeat StdIO 14) = 4060.
Proof. repeat split; vm_compute; reflexivity. Qed."""),
("C70","C70_first_pledge_succeeds_iff_it_fits","c70_pledge","""Example C70_pledge_example :
  fst (pledge_override Debug amb0 thread0 (repeat StdIO 14 ++ repeat VmInfo 14) Trap) = Ok tt /\\
  fst (pledge_override Debug amb0 thread0 (repeat StdIO 14 ++ repeat VmInfo 15) Trap) = Err (SysErr 22).
Proof. split; vm_compute; reflexivity. Qed."""),
("C77","C77_exact_cost_of_a_filter","c77_cost","""Example C77_cost_example :
  small_ids 100 101 /\\ prog_cost (built [StdIO; Dns; Exec] Trap) = 485 /\\
  prog_cost (match promises_to_prog Debug (mkEnv (Ok (2 ^ 31)) (Ok 101)) [StdIO] Trap with Ok p => p | _ => [] end)
  = 14 + promises_cost [StdIO] + 1.
Proof. repeat split; vm_compute; reflexivity. Qed."""),
("C77","C77_exactly_when_another_pledge_fits","c77","""Example C77_example :
  let pledges n := repeat (mkInst 100 101 [StdIO] Trap) n in
  stack_of Debug (pledges 75%nat) (repeat (built [StdIO] Trap) 75) /\\
  Forall (fun i => small_payload (i_v i) /\\ In StdIO (i_ps i) /\\ small_ids (i_pid i) (i_tid i)) (pledges 75%nat) /\\
  14 + promises_cost [StdIO] + pledges_cost (pledges 75%nat) = 32752 /\\
  fst (pledge_override Debug amb0 (set_filters thread0 (repeat (built [StdIO] Trap) 75)) [StdIO] Trap) = Ok tt /\\
  fst (pledge_override Debug amb0 (set_filters thread0 (repeat (built [StdIO] Trap) 76)) [StdIO] Trap) = Err (SysErr 12).
Proof.
  cbv zeta. split; [|split; [|split; [|split]]].
  - unfold stack_of. cbn [repeat]. repeat constructor; vm_compute; reflexivity.
  - apply Forall_forall. intros i I. apply repeat_spec in I. subst. repeat split. left. reflexivity.
  - vm_compute. reflexivity.
  - vm_compute. reflexivity.
  - vm_compute. reflexivity.
Qed."""),
("C71","C71_build_profile_is_irrelevant","c71","""Example C71_example :
  fst (pledge_override Release amb0 thread0 [StdIO] (Errno 0xffffffff)) = Ok tt.
Proof. vm_compute. reflexivity. Qed."""),
("C71","C71_build_profile_same_filter","c71_filter","""Example C71_filter_example :
  filter_for Release 100 101 [StdIO; Inet] Trap (built [StdIO; Inet] Trap).
Proof. vm_compute. reflexivity. Qed."""),
]
H=f('PropsHistory','C72-C76: supervisors, histories, isolation.',['HistoryProofs'])
H+=[
("C39","C39_signal_handler_misleads","c39_handler","""Example C39_handler_example :
  let amb1 := fun _ : nat => mkAmb 1 2 3 4 5 6 7 (mkSup None None (Some 0%Z)) false 0 in
  (0 mod 2 ^ 32 = 0)%Z /\\ NoDup [RPath] /\\
  exists t1, pledge_override Debug amb0 thread0 [RPath] Trap = (Ok tt, t1) /\\
    pledge_override Debug amb1 t1 [StdIO] KillProcess = (Ok tt, t1).
Proof.
  cbv zeta. split; [reflexivity|]. split; [repeat constructor; cbn; tauto|].
  exists (set_filters (set_nnp thread0) [built [RPath] Trap]). split; vm_compute; reflexivity.
Qed."""),
("C39","C39_success_means_installed_in_histories_partial","c39_history","""Example C39_history_example :
  let allow := [SockFilter 6 0 0 0x7fff0000] in
  let w := mkWorld [set_nnp thread0; mkThread 1 100 102 false false [allow] None] 2 in
  let amb := amb0 0%nat in
  let install := call SYS_prctl 22 2 0 0 0 in
  let ops := [OSys 0 install (mkOracle nobody allow false false 0)] ++
             OPledge 0 [StdIO] (Errno 13) :: repeat (OStep 0 amb) (pledge_length [StdIO]) ++
             [OSys 0 (call SYS_execve 0 0 0 0 0) (mkOracle nobody allow false false 0)] ++
             OPledge 0 [RPath] Trap :: repeat (OStep 0 amb) (pledge_length [RPath]) in
  fresh_world w /\\ Forall (fun t => Forall frank (t_filters t)) (w_threads w) /\\ Forall frank_op ops /\\
  snd (wrun Debug w ops) =
    [EvCall 0 install Proceed;
     EvCall 0 (call_getpid amb) Proceed; EvCall 0 (call_gettid amb) Proceed;
     EvCall 0 (call_set_nnp amb) Proceed; EvCall 0 (call_set_seccomp amb) Proceed;
     EvInstalled 0 100 101 [StdIO] (Errno 13); EvReturned 0 [StdIO] (Errno 13) (Ok tt);
     EvCall 0 (call SYS_execve 0 0 0 0 0) (Fake (-13)%Z);
     EvCall 0 (call_set_nnp amb) Proceed; EvCall 0 (call_set_seccomp amb) Proceed;
     EvInstalled 0 100 101 [RPath] Trap; EvReturned 0 [RPath] Trap (Ok tt)] /\\
  ~ frank (built [StdIO] (Errno 0)).
Proof.
  assert (A : frank [SockFilter 6 0 0 0x7fff0000]) by (intros d; vm_compute; discriminate).
  cbv zeta. split; [repeat constructor|]. split; [repeat constructor; exact A|]. split; [|split].
  - apply Forall_app. split; [repeat constructor; exact A|].
    constructor; [split; [exact I|split; [reflexivity|discriminate]]|].
    apply Forall_app. split; [apply Forall_forall; intros o Io; apply repeat_spec in Io; subst o; split; [reflexivity|exact I]|].
    apply Forall_app. split; [repeat constructor; exact A|].
    constructor; [split; [exact I|split; [exact I|discriminate]]|].
    apply Forall_forall; intros o Io; apply repeat_spec in Io; subst o; split; [reflexivity|exact I].
  - vm_compute. reflexivity.
  - intros F. apply (F (call SYS_execve 0 0 0 0 0)). vm_compute. reflexivity.
Qed."""),
("C41","C41_single_threaded_process_partial","c41_partial","""Example C41_example :
  let w := mkWorld [thread0; mkThread 1 7 7 false false [] None] 2 in
  let amb := amb0 0%nat in
  let clone := call SYS_clone 0x10f00 0 0 0 0 in
  let read := call SYS_read 0 0 0 0 0 in
  let exec := call SYS_execve 0 0 0 0 0 in
  let ops := OPledge 0 [StdIO] (Errno 1) :: repeat (OStep 0 amb) (pledge_length [StdIO] - 1) in
  let w1 := fst (wrun Debug w ops) in
  let w2 := fst (wstep Debug w1 (OStep 0 amb)) in
  let w3 := fst (wrun Debug w2 [OSys 0 clone (mkOracle nobody [] false false 102)]) in
  fresh_world w /\\ hard (Errno 1) /\\
  snd (wstep Debug w1 (OStep 0 amb)) =
    [EvCall 0 (call_set_seccomp amb) Proceed; EvInstalled 0 100 101 [StdIO] (Errno 1);
     EvReturned 0 [StdIO] (Errno 1) (Ok tt)] /\\
  map (fun t => (t_uid t, t_pid t)) (w_threads w1) = [(0%nat, 100); (1%nat, 7)] /\\
  In (2%nat, 100) (map (fun t => (t_uid t, t_pid t)) (w_threads w3)) /\\
  snd (wstep Debug w3 (OSys 2 read (mkOracle nobody [] false false 0))) = [EvCall 2 read Proceed] /\\
  snd (wstep Debug w3 (OSys 2 exec (mkOracle nobody [] false false 0))) = [EvCall 2 exec (Fake (-1))].
Proof.
  cbv zeta. split; [repeat constructor|]. split; [reflexivity|]. split; [vm_compute; reflexivity|].
  split; [vm_compute; reflexivity|]. split; [vm_compute; tauto|]. split; vm_compute; reflexivity.
Qed."""),
("C42","C42_no_later_installation_in_histories","c42_history","""Example C42_history_example :
  let w := mkWorld [thread0] 1 in
  let amb := amb0 0%nat in
  let fork := call SYS_fork 0 0 0 0 0 in
  let ops := OPledge 0 [RPath; Proc] (Errno 13) :: repeat (OStep 0 amb) (pledge_length [RPath; Proc]) ++
             OSys 0 fork (mkOracle nobody [] false false 102) ::
             OPledge 1 [RPath] Trap :: repeat (OStep 1 amb) (pledge_length [RPath]) in
  fresh_world w /\\ Forall real_calls ops /\\ hard (Errno 13) /\\ ~ In StdIO [RPath; Proc] /\\
  snd (wrun Debug w ops) =
    [EvCall 0 (call_set_nnp amb) Proceed; EvCall 0 (call_set_seccomp amb) Proceed] ++
    EvInstalled 0 100 101 [RPath; Proc] (Errno 13) ::
    [EvReturned 0 [RPath; Proc] (Errno 13) (Ok tt);
     EvCall 0 fork Proceed; EvSpawn 0 1;
     EvCall 1 (call_set_nnp amb) (Fake (-13)%Z); EvReturned 1 [RPath] Trap (Err (SysErr 13))].
Proof.
  cbv zeta. split; [repeat constructor|]. split; [|split; [reflexivity|split; [cbn; intuition discriminate|vm_compute; reflexivity]]].
  assert (A : wf_amb (amb0 0%nat)) by (vm_compute; repeat split; discriminate).
  constructor; [exact I|]. apply Forall_app. split; [apply Forall_forall; intros o Io; apply repeat_spec in Io; subst o; exact A|].
  constructor; [vm_compute; repeat split; discriminate|]. constructor; [exact I|].
  apply Forall_forall; intros o Io; apply repeat_spec in Io; subst o; exact A.
Qed."""),
("C72","C72_hard_violations_hold_under_any_supervisor","c72","""Example C72_example :
  let all := mkSup (Some Proceed) (Some Proceed) (Some 0%Z) in
  filter_for Debug 100 101 [StdIO] (Errno 1) (built [StdIO] (Errno 1)) /\\ hard (Errno 1) /\\
  wf_data (call SYS_execve 0 0 0 0 0) /\\
  supervised_entry all [built [Exec] (Trace 7); built [StdIO] (Errno 1)] (call SYS_execve 0 0 0 0 0) = Fake (-1) /\\
  supervised_entry all [built [StdIO] Trap] (call SYS_execve 0 0 0 0 0) = Fake 0 /\\
  supervised_entry all [built [StdIO] Trap] (call SYS_read 0 0 0 0 0) = Proceed.
Proof. repeat split; vm_compute; reflexivity. Qed."""),
("C72","C72_tracer_lifts_trace_refuted","c72_refuted",None),
("C73","C73_confinement_only_grows","c73","""Example C73_example :
  let w := mkWorld [set_filters thread0 [built [StdIO; Proc] Trap]] 1 in
  let fork := call SYS_fork 0 0 0 0 0 in
  distinct w /\\ exists w' tr,
  wrun Debug w ([OSys 0 fork (mkOracle nobody [] false false 102); OPledge 1 [StdIO] Trap] ++
                repeat (OStep 1 (amb0 0%nat)) (pledge_length [StdIO]) ++ [ODie 0]) = (w', tr) /\\
  descendants [0%nat] tr = [1%nat; 0%nat] /\\
  map t_filters (w_threads w') =
    [[(match promises_to_prog Debug (mkEnv (Ok 102) (Ok 102)) [StdIO] Trap with Ok p => p | _ => [] end);
      built [StdIO; Proc] Trap]].
Proof.
  cbv zeta. split; [repeat constructor; cbn; tauto|]. eexists. eexists.
  split; [vm_compute; reflexivity|]. split; vm_compute; reflexivity.
Qed."""),
("C74","C74_success_follows_installation","c74","""Example C74_example :
  snd (wrun Debug (mkWorld [thread0] 1) (OPledge 0 [RPath] Trap :: repeat (OStep 0 (amb0 0%nat)) (pledge_length [RPath])))
  = [EvCall 0 (call_set_nnp (amb0 0%nat)) Proceed; EvCall 0 (call_set_seccomp (amb0 0%nat)) Proceed;
     EvInstalled 0 100 101 [RPath] Trap] ++ EvReturned 0 [RPath] Trap (Ok tt) :: [].
Proof. vm_compute. reflexivity. Qed.
(** The other case: the load was skipped with value 0. *)
Example C74_example_skipped :
  snd (wrun Debug (mkWorld [set_filters thread0 [built [RPath] (Errno 0)]] 1)
    (OPledge 0 [Exec] Trap :: repeat (OStep 0 (amb0 0%nat)) (pledge_length [Exec])))
  = [EvCall 0 (call_set_nnp (amb0 0%nat)) (Fake 0); EvCall 0 (call_set_seccomp (amb0 0%nat)) (Fake 0)] ++
    EvReturned 0 [Exec] Trap (Ok tt) :: [].
Proof. vm_compute. reflexivity. Qed."""),
("C74","C74_installation_is_reported","c74_converse","""Example C74_converse_example :
  snd (wrun Debug (mkWorld [thread0] 1) (OPledge 0 [] Trap :: repeat (OStep 0 (amb0 0%nat)) (pledge_length [])))
  = [EvCall 0 (call_set_nnp (amb0 0%nat)) Proceed; EvCall 0 (call_set_seccomp (amb0 0%nat)) Proceed;
     EvInstalled 0 100 101 [] Trap; EvReturned 0 [] Trap (Ok tt)].
Proof. vm_compute. reflexivity. Qed."""),
("C75","C75_pledging_changes_no_other_thread","c75","""Example C75_example :
  let other := mkThread 1 100 102 false false [] None in
  let stranger := mkThread 2 103 103 false false [] None in
  let stuck := set_call (set_filters thread0 [built [RPath] Trap]) (Some (PBuild [StdIO] Trap [] [KillSelf])) in
  w_threads (fst (wstep Debug (mkWorld [set_call thread0 (Some (PLoad [RPath] Trap (built [RPath] Trap))); other; stranger] 3)
                        (OStep 0 (amb0 0%nat)))) = [thread0; other; stranger] /\\
  w_threads (fst (wstep Debug (mkWorld [stuck; other; stranger] 3) (OStep 0 (amb0 0%nat)))) = [stranger].
Proof. split; vm_compute; reflexivity. Qed."""),
("C76","C76_no_new_processes_without_proc","c76","""Example C76_example :
  let amb := amb0 0%nat in
  let thread := call SYS_clone 0x3d0f00 0 0 0 0 in let fork := call SYS_fork 0 0 0 0 0 in
  exists w' tr2,
  fresh_world (mkWorld [thread0] 1) /\\
  wrun Debug (mkWorld [thread0] 1)
    (OPledge 0 [StdIO] (Errno 1) :: repeat (OStep 0 amb) (pledge_length [StdIO]) ++
     [OSys 0 thread (mkOracle nobody [] false false 102); OSys 1 fork (mkOracle nobody [] false false 103);
      OSys 1 thread (mkOracle nobody [] false false 104)])
  = (w', [EvCall 0 (call_getpid amb) Proceed; EvCall 0 (call_gettid amb) Proceed;
          EvCall 0 (call_set_nnp amb) Proceed; EvCall 0 (call_set_seccomp amb) Proceed] ++
         EvInstalled 0 100 101 [StdIO] (Errno 1) :: tr2) /\\
  descendants [0%nat] tr2 = [2%nat; 1%nat; 0%nat] /\\
  map (fun t => (t_uid t, t_pid t, t_tid t)) (w_threads w')
    = [(2%nat, 100, 104); (1%nat, 100, 102); (0%nat, 100, 101)] /\\
  In (EvCall 1 fork (Fake (-1))) tr2.
Proof.
  cbv zeta. eexists. eexists. split; [repeat constructor|]. split; [vm_compute; reflexivity|].
  split; [vm_compute; reflexivity|]. split; [vm_compute; reflexivity|].
  cbn [In]. right. right. right. left. vm_compute. reflexivity.
Qed."""),
]
D=f('PropsDoc','C78: the rules against their comments.',['DocFacts'],'DocSpec ')
D+=[
("C78","C78_rules_follow_their_comments_partial","c78_follows","""Example C78_follows_example :
  let thread := call SYS_clone 0x10f00 0 0 0 0 in let fork := call SYS_clone 0x1200011 0 0 0 0 in
  exists prog, ~ In CloneThread deviating /\\
    rule_filter Debug 100 101 CloneThread (Errno 1) prog /\\ enforcing (Errno 1) /\\
    native thread /\\ native fork /\\
    proceeds prog thread /\\ documented CloneThread 100 101 thread /\\
    ~ proceeds prog fork /\\ ~ documented CloneThread 100 101 fork.
Proof.
  cbv zeta. eexists. split; [cbn; intuition discriminate|]. split; [vm_compute; reflexivity|].
  split; [concrete|]. split; [concrete|]. split; [concrete|]. split; [vm_compute; reflexivity|].
  split; [repeat constructor|]. split; [vm_compute; discriminate|].
  intros (_ & A & _). inversion A. discriminate.
Qed."""),
("C78","C78_mmap_noexec_too_strict","c78_mmap","""Example C78_mmap_example :
  let rw := call SYS_mmap 0 0x1000 3 0x22 0 in let ro := call SYS_mmap 0 0x1000 1 0x22 0 in
  exists prog, rule_filter Debug 100 101 MmapNoexec (Errno 1) prog /\\ native rw /\\
    documented MmapNoexec 100 101 rw /\\ ~ proceeds prog rw /\\ proceeds prog ro.
Proof.
  cbv zeta. eexists. split; [vm_compute; reflexivity|]. split; [concrete|].
  split; [repeat constructor|]. split; [vm_compute; discriminate|vm_compute; reflexivity].
Qed."""),
("C78","C78_prlimit_too_lax","c78_prlimit","""Example C78_prlimit_example :
  let set := call SYS_prlimit64 0 7 0x100000000 0 0 in let ask := call SYS_prlimit64 0 7 0 0x7fff0000 0 in
  exists prog, rule_filter Debug 100 101 Prlimit64Stdio (Errno 1) prog /\\ native set /\\
    ~ documented Prlimit64Stdio 100 101 set /\\ proceeds prog set /\\
    documented Prlimit64Stdio 100 101 ask /\\ proceeds prog ask.
Proof.
  cbv zeta. eexists. split; [vm_compute; reflexivity|]. split; [concrete|].
  split; [intros [_ E]; discriminate E|]. split; [vm_compute; reflexivity|].
  split; [split; reflexivity|vm_compute; reflexivity].
Qed."""),
("C78","C78_rules_allow_too_much_refuted","c78_too_much",None),
("C78","C78_rules_allow_too_little_refuted","c78_too_little",None),
]
V2=f('PropsStep','C79-C83: single VM instructions, stepping, more data, build profiles.',['VmFacts'],'VmSpec ')
V2+=[
("C79","C79_outcome_of_an_instruction","c79","""Example C79_example :
  let half := SockFilter 0x48 0 0 0xffffffff in let div := SockFilter 0x3c 0 0 0 in
  let vm := mkVM 0 7 1 (repeat 0 16) [half; div] in
  (* a half-word load relative to X whose address overflows *)
  nth_error (vm_prog vm) (N.to_nat (vm_pc vm)) = Some half /\\
  insn_error half = Some UnsupportedDataOffset /\\ panics_here Debug half vm [] /\\
  ~ panics_here Release half vm [] /\\
  fst (execute Debug vm []) = Panic /\\ fst (execute Release vm []) = Err UnsupportedDataOffset /\\
  (* a division by X *)
  insn_error div = None /\\ panics_here Debug div (mkVM 1 7 0 [] []) [] /\\
  ~ panics_here Debug div (mkVM 1 7 3 [] []) [].
Proof.
  cbv zeta. repeat split; try (vm_compute; reflexivity).
  - left. split; [reflexivity|]. vm_compute. discriminate.
  - intros [[H _]|[H _]]; discriminate H.
  - intros H. discriminate H.
Qed."""),
("C79","C79_no_instruction_panics","c79_past","""Example C79_past_example :
  let vm := mkVM 2 7 0 (repeat 0 16) [SockFilter 6 0 0 0] in
  N.of_nat (length (vm_prog vm)) <= vm_pc vm /\\ execute Release vm [] = (Panic, vm).
Proof. split; [discriminate|reflexivity]. Qed."""),
("C79","C79_outcome_of_a_run","c79_run","""Example C79_run_example :
  let prog := [SockFilter 0x00 0 0 5; SockFilter 0x05 0 0 1; SockFilter 0x07 0 0 0; SockFilter 0x84 0 0 0] in
  let vm := mkVM 9 9 9 [] prog in
  exists vm1, executed 2 Debug (vm_reset vm) [] = Some vm1 /\\ vm_pc vm1 = 3 /\\
    insn_error (SockFilter 0x84 0 0 0) = Some (UnsupportedInstruction 0x80) /\\
    fst (vm_run Debug vm []) = Finished (Err (UnsupportedInstruction 0x80)).
Proof. eexists. repeat split; vm_compute; reflexivity. Qed."""),
("C79","C79_errors_are_in_the_program","c79_static","""Example C79_static_example :
  let vm := mkVM 0 0 0 [] [SockFilter 0x1e 0 0 0] in
  fst (vm_run Release vm []) = Finished (Err (InvalidInstructionCode 0x1e)) /\\
  insn_error (SockFilter 0x1e 0 0 0) = Some (InvalidInstructionCode 0x1e) /\\
  insn_error (SockFilter 0x16 0 0 0) = None.
Proof. repeat split. Qed."""),
("C80","C80_run_is_repeated_execute","c80","""Example C80_example :
  let prog := [SockFilter 0x20 0 0 4; SockFilter 0x15 1 0 9; SockFilter 0x06 0 0 1; SockFilter 0x16 0 0 0] in
  let vm := mkVM 3 3 3 [] prog in
  exists vm1 vm2, executed 2 Debug (vm_reset vm) [8; 9] = Some vm1 /\\ vm_pc vm1 = 3 /\\
    execute Debug vm1 [8; 9] = (Ok (Some 9), vm2) /\\ vm_run Debug vm [8; 9] = (Finished (Ok 9), vm2).
Proof. eexists. eexists. repeat split; vm_compute; reflexivity. Qed.
(** The other end: running off the program. *)
Example C80_example_end :
  let vm := mkVM 3 3 3 [] [SockFilter 0x00 0 0 4] in
  exists vm1, executed 1 Debug (vm_reset vm) [] = Some vm1 /\\
    N.of_nat (length (vm_prog vm)) <= vm_pc vm1 /\\ vm_run Debug vm [] = (Finished (Ok 0), vm1).
Proof. eexists. repeat split; vm_compute; try reflexivity; discriminate. Qed."""),
("C81","C81_more_data_changes_nothing","c81","""Example C81_example :
  let prog := [SockFilter 0x20 0 0 4; SockFilter 0x16 0 0 0] in
  let vm := mkVM 0 0 0 [] prog in
  Forall (fun f => ~ asks_length f) prog /\\
  fst (vm_run Debug vm [8; 9]) = Finished (Ok 9) /\\ fst (vm_run Debug vm [8; 9; 10]) = Finished (Ok 9) /\\
  fst (vm_run Debug vm [8]) = Finished Panic.
Proof.
  cbv zeta. split; [|repeat split; vm_compute; reflexivity].
  repeat constructor; intros [A B]; discriminate.
Qed.
(** The hypothesis is needed. *)
Example C81_example_length :
  let vm := mkVM 0 0 0 [] [SockFilter 0x80 0 0 0; SockFilter 0x16 0 0 0] in
  fst (vm_run Debug vm [8]) = Finished (Ok 1) /\\ fst (vm_run Debug vm [8; 9]) = Finished (Ok 2).
Proof. split; vm_compute; reflexivity. Qed."""),
("C82","C82_release_agrees_with_debug","c82","""Example C82_example :
  let add k := mkVM 0 0 0 [] [SockFilter 0x00 0 0 5; SockFilter 0x04 0 0 k; SockFilter 0x16 0 0 0] in
  fst (vm_run Debug (add 2) []) = Finished (Ok 7) /\\ fst (vm_run Release (add 2) []) = Finished (Ok 7) /\\
  fst (vm_run Debug (add 0xffffffff) []) = Finished Panic /\\
  fst (vm_run Release (add 0xffffffff) []) = Finished (Ok 4).
Proof. repeat split; vm_compute; reflexivity. Qed."""),
("C82","C82_release_follows_debug","c82_prefix","""Example C82_prefix_example :
  let vm := mkVM 0 0 0 [] [SockFilter 0x00 0 0 5; SockFilter 0x04 0 0 0xffffffff] in
  exists vm1, executed 1 Debug vm [] = Some vm1 /\\ vm_acc vm1 = 5 /\\ executed 2 Debug vm [] = None.
Proof. eexists. repeat split; vm_compute; reflexivity. Qed."""),
("C83","C83_effect_of_an_instruction","c83","""Example C83_example :
  let sub := SockFilter 0x1c 0 0 0 in
  let vm := mkVM 0 3 5 [1; 2] [sub] in
  word (vm_acc vm) /\\ word (vm_idx vm) /\\ word (sf_k sub) /\\ insn_error sub = None /\\
  insn_returns sub 3 5 = None /\\ ~ panics_here Release sub vm [] /\\ panics_here Debug sub vm [] /\\
  insn_effect sub vm [] = mkVM 1 0xfffffffe 5 [1; 2] [sub] /\\
  execute Release vm [] = (Ok None, mkVM 1 0xfffffffe 5 [1; 2] [sub]).
Proof.
  cbv zeta. repeat split; try (vm_compute; reflexivity). intros [H _]. discriminate H.
Qed."""),
]
T=f('PropsText','C84: error messages.',['ErrorFacts'],'Errors TextSpec ')
T+=[
("C84","C84_messages_identify_bpf_errors","c84_bpf","""Example C84_bpf_example :
  bpf_message (UnsupportedInstruction 128) = "Unsupported BPF Instruction; 128."%string /\\
  bpf_message (UnknownInstruction 128) = "Unknown BPF Instruction; 128."%string /\\
  bpf_message (UnknownLabelReference (String (Ascii.ascii_of_nat 10) "x")) =
    "Unknown label reference; ""\\nx""."%string.
Proof. repeat split. Qed."""),
("C84","C84_messages_identify_pledge_errors","c84_pledge","""Example C84_pledge_example :
  let os n := if N.eqb n 22 then "Invalid argument"%string else "Cannot allocate memory"%string in
  pledge_message os (SysErr 22) = "Invalid argument (os error 22)"%string /\\
  pledge_message os (SysErr 12) = "Cannot allocate memory (os error 12)"%string /\\
  pledge_message os (UndefinedPromise TmpPath) = "Promise TmpPath is not implemented."%string.
Proof. repeat split. Qed."""),
("C84","C84_numbers_are_decimal","c84_texts","""Example C84_number_example :
  decimal "65537" 65537 /\\ ~ decimal "065537" 65537 /\\
  bpf_message (ProgramTooLong 65537) = "Program len is bigger than limit (u16::MAX); 65537."%string.
Proof.
  split; [|split; [|reflexivity]].
  - repeat split; try (vm_compute; reflexivity); try (cbn; lia). cbn. intros H. discriminate H.
  - intros (_ & H & _). specialize (H eq_refl). discriminate H.
Qed."""),
("C84","C84_labels_are_quoted","c84_quoted",r'''Example C84_quoted_example :
  let l := String (Ascii.ascii_of_nat 97) (String (Ascii.ascii_of_nat 34) (String (Ascii.ascii_of_nat 92) (String (Ascii.ascii_of_nat 10)
             (String (Ascii.ascii_of_nat 27) "b"%string)))) in
  let t := ("a\""" ++ "\\\n\u{1b}b")%string in
  quoted_text l t /\ bpf_message (UnknownLabelReference l) = ("Unknown label reference; """ ++ t ++ """.")%string.
Proof.
  cbv zeta. split; [|reflexivity]. cbv [Ascii.ascii_of_nat].
  apply QSelf; [cbn; lia|discriminate|discriminate|]. apply QMarked; [left; reflexivity|].
  apply QMarked; [right; reflexivity|]. apply QLetter; [right; right; left; split; reflexivity|].
  apply (QCode _ "1b"%string); [cbn; lia|cbn; lia|exists 1%nat, 11%nat; repeat split; lia|].
  apply QSelf; [cbn; lia|discriminate|discriminate|constructor].
Qed.'''),
("C84","C84_labels_appear_verbatim","c84_label","""Example C84_label_example :
  printable "NEXT_FILTER" /\\
  bpf_message (UnknownLabelReference "NEXT_FILTER") = "Unknown label reference; ""NEXT_FILTER""."%string.
Proof. split; [|reflexivity]. cbn. repeat split; try lia; intros H; discriminate H. Qed."""),
]
De=f('PropsDeath','C85: kills.',['DeathProofs'])
De+=[
("C85","C85_kill_hits_exactly_its_target","c85_step","""Example C85_step_example :
  let t1 := set_filters thread0 [built [StdIO] KillThread] in
  let t2 := mkThread 1 100 102 false false [built [StdIO] KillProcess] None in
  let t3 := mkThread 2 200 200 false false [] None in
  let w := mkWorld [t1; t2; t3] 3 in
  let open := call SYS_open 0 0 0 0 0 in
  let o := mkOracle nobody [] false false 0 in
  wstep Debug w (OSys 0 open o) = (mkWorld [t2; t3] 3, [EvCall 0 open (Kill DeathThread)]) /\\
  wstep Debug w (OSys 1 open o) = (mkWorld [t3] 3, [EvCall 1 open (Kill DeathProcess)]).
Proof. cbv zeta. split; vm_compute; reflexivity. Qed."""),
("C85","C85_nobody_else_dies","c85_only","""Example C85_only_example :
  let t2 := mkThread 1 100 102 false false [built [StdIO] KillProcess] None in
  let w := mkWorld [thread0; t2] 2 in
  let open := call SYS_open 0 0 0 0 0 in
  let (w', evs) := wstep Debug w (OSys 1 open (mkOracle nobody [] false false 0)) in
  In thread0 (w_threads w) /\\ w_threads w' = [] /\\
  In (EvCall (t_uid t2) open (Kill DeathProcess)) evs /\\ t_pid t2 = t_pid thread0.
Proof. vm_compute. tauto. Qed."""),
("C85","C85_the_dead_do_nothing","c85","""Example C85_example :
  let t1 := set_filters thread0 [built [StdIO; Proc] KillThread] in
  let t2 := mkThread 1 100 102 false false [] None in
  let w := mkWorld [t1; t2] 2 in
  let o := mkOracle nobody [] false false 300 in
  let fork := call SYS_fork 0 0 0 0 0 in
  let open := call SYS_open 0 0 0 0 0 in
  distinct w /\\ Forall (fun t => (t_uid t < w_next w)%nat) (w_threads w) /\\
  snd (wrun Debug w [OSys 0 fork o; OSys 0 open o; OSys 0 fork o; OPledge 0 [] Trap; OStep 0 (amb0 0%nat);
                     OSys 1 open o; OSys 2 open o; OSys 2 fork o]) =
    [EvCall 0 fork Proceed; EvSpawn 0 2] ++ EvCall 0 open (Kill DeathThread) ::
    [EvCall 1 open Proceed; EvCall 2 open (Kill DeathThread)].
Proof.
  cbv zeta. split; [repeat constructor; cbn; intuition discriminate|].
  split; [repeat constructor|]. vm_compute. reflexivity.
Qed."""),
("C85","C85_killing_violations_kill","c85_violation","""Example C85_violation_example :
  let permit := mkSup (Some Proceed) (Some Proceed) (Some 0%Z) in
  let t1 := set_filters thread0 [built [StdIO; Exec] (Trace 5); built [StdIO] KillThread] in
  let t2 := mkThread 1 100 102 false false [] None in
  let w := mkWorld [t1; t2] 2 in
  let exec := call SYS_execve 0 0 0 0 0 in
  distinct w /\\ filter_for Debug 100 101 [StdIO] KillThread (built [StdIO] KillThread) /\\
  ~ granted [StdIO] 100 101 exec /\\
  wstep Debug w (OSys 0 exec (mkOracle permit [] false false 0)) =
    (mkWorld [t2] 2, [EvCall 0 exec (Kill DeathThread)]).
Proof.
  cbv zeta. split; [repeat constructor; cbn; intuition discriminate|]. split; [vm_compute; reflexivity|].
  split; [|vm_compute; reflexivity].
  intros G. PolicyProofs.row SYS_execve R. rewrite R in G by reflexivity. unfold PolicyProofs.promised in G.
  cbn in G. intuition discriminate.
Qed."""),
]
Li=f('PropsLive','C86-C92: the course of a pledge call, what refuses calls.',['LiveProofs','JustProofs','AloneProofs'])
Li+=[
("C86","C86_pledge_ends","c86","""Example C86_example :
  let t2 := mkThread 1 100 102 false false [] None in
  let w := mkWorld [thread0; t2] 2 in
  let fork := call SYS_fork 0 0 0 0 0 in
  let o := mkOracle nobody [] false false 300 in
  let s := OStep 0 (amb0 0%nat) in
  let other := OSys 1 fork o in
  let ops := [s; other; s; s; OSys 0 fork o; s; other; s; OPledge 1 [StdIO] Trap; s] in
  fresh_world w /\\ distinct w /\\ steps_needed [Tty] = 6%nat /\\ steps_of 0 ops = 6%nat /\\
  In (EvReturned 0 [Tty] Trap (Ok tt)) (snd (wrun Debug w (OPledge 0 [Tty] Trap :: ops))).
Proof.
  cbv zeta. split; [repeat constructor|]. split; [repeat constructor; cbn; intuition discriminate|].
  split; [reflexivity|]. split; [reflexivity|]. vm_compute. tauto.
Qed."""),
("C86","C86_pledge_takes_all_its_steps","c86_early","""Example C86_early_example :
  let w := mkWorld [thread0] 1 in
  let s := OStep 0 (amb0 0%nat) in
  snd (wrun Debug w (OPledge 0 [Tty] Trap :: [s; s; s; s; s])) =
    [EvCall 0 (call_set_nnp (amb0 0%nat)) Proceed] /\\
  snd (wrun Debug w (OPledge 0 [Tty] Trap :: [s; s; s; s; s; s])) =
    [EvCall 0 (call_set_nnp (amb0 0%nat)) Proceed; EvCall 0 (call_set_seccomp (amb0 0%nat)) Proceed;
     EvInstalled 0 100 101 [Tty] Trap; EvReturned 0 [Tty] Trap (Ok tt)].
Proof. cbv zeta. split; vm_compute; reflexivity. Qed."""),
("C87","C87_calls_of_a_pledge","c87","""Example C87_example :
  let t2 := mkThread 1 100 102 false false [] None in
  let w := mkWorld [thread0; t2] 2 in
  let ops := OSys 1 (call SYS_fork 0 0 0 0 0) (mkOracle nobody [] false false 300) ::
             repeat (OStep 0 (amb0 0%nat)) 120 in
  let tr := snd (wrun Debug w (OPledge 0 [Tty; StdIO] Trap :: ops)) in
  footprint [Tty; StdIO] = [(39, 0); (186, 0); (157, 38); (157, 22)] /\\
  calls_by 0 tr = [(39, 0); (186, 0); (157, 38); (157, 22)] /\\
  In (EvReturned 0 [Tty; StdIO] Trap (Ok tt)) tr.
Proof. vm_compute. tauto. Qed."""),
("C88","C88_failed_pledge_leaves_no_trace_refuted","c88_refuted","""Example C88_refuted_example :
  let full := fun _ : nat => mkAmb 1 2 3 4 5 6 7 nobody true 0 in
  pledge_override Debug full thread0 [StdIO] Trap = (Err (SysErr 12), set_nnp thread0) /\\
  4089 < promises_size (repeat StdIO 20) /\\
  pledge_override Debug amb0 thread0 (repeat StdIO 20) Trap = (Err (SysErr 22), set_nnp thread0).
Proof. vm_compute. repeat split. Qed."""),
("C88","C88_what_a_failed_pledge_leaves_partial","c88_partial","""Example C88_partial_example :
  let t := set_filters thread0 [built [StdIO; RPath] (Errno 13); built [Tty; RPath] (Errno 13)] in
  let t1 := set_filters thread0 [built [StdIO] Trap] in
  let full := fun _ : nat => mkAmb 1 2 3 4 5 6 7 nobody true 0 in
  pledge_override Release amb0 t [StdIO] Trap = (Err (SysErr 13), t) /\\
  pledge_override Release full t1 [StdIO] Trap = (Err (SysErr 12), set_nnp t1).
Proof. vm_compute. repeat split. Qed."""),
("C89","C89_stale_registers_do_not_matter","c89","""Example C89_example :
  let amb1 := fun n : nat => mkAmb (N.of_nat n) 22 (2 ^ 63) 0 38 7 (2 ^ 64 - 1) nobody false 0 in
  let t := set_filters thread0 [built [StdIO; Exec] Trap; built [StdIO] (Errno 1)] in
  (forall n, (n < 200)%nat -> alike (amb0 n) (amb1 n)) /\\
  stack_with Debug [([StdIO; Exec], Trap); ([StdIO], Errno 1)] (t_filters t) /\\
  pledge_override Debug amb0 t [Proc; StdIO] KillThread = pledge_override Debug amb1 t [Proc; StdIO] KillThread /\\
  fst (pledge_override Debug amb0 t [Proc; StdIO] KillThread) = Ok tt.
Proof.
  cbv zeta. split.
  - intros n H. unfold alike, wf_amb. cbn [amb0 amb_ip amb_r0 amb_r1 amb_r2 amb_r3 amb_r4 amb_r5 amb_sup amb_oom amb_errno].
    repeat split; try reflexivity. lia.
  - split; [|split; vm_compute; reflexivity].
    repeat constructor; (apply (PledgeProofs.for_with Debug _ 100 101); [vm_compute; reflexivity|exact I]).
Qed."""),
("C90","C90_refusals_are_justified","c90","""Example C90_example :
  let w := mkWorld [thread0] 1 in
  let amb := amb0 0%nat in
  let fork := call SYS_fork 0 0 0 0 0 in
  let exec := call SYS_execve 0 0 0 0 0 in
  let p1 := EvCall 0 (call_getpid amb) Proceed in let p2 := EvCall 0 (call_gettid amb) Proceed in
  let p3 := EvCall 0 (call_set_nnp amb) Proceed in let p4 := EvCall 0 (call_set_seccomp amb) Proceed in
  let o := mkOracle (mkSup (Some Proceed) None None) [] false false 102 in
  let ops := OPledge 0 [StdIO; Proc] (Errno 1) :: repeat (OStep 0 amb) (pledge_length [StdIO; Proc]) ++
             [OSys 0 fork o; ODie 0; OSys 1 exec o] in
  let mid := [EvReturned 0 [StdIO; Proc] (Errno 1) (Ok tt); EvCall 0 fork Proceed; EvSpawn 0 1] in
  fresh_world w /\\ (forall t, In t (w_threads w) -> t_filters t = []) /\\ Forall own_filters_none ops /\\
  snd (wrun Debug w ops) =
    ([p1; p2; p3; p4] ++ EvInstalled 0 100 101 [StdIO; Proc] (Errno 1) :: mid) ++
    EvCall 1 exec (Fake (-1)) :: [] /\\
  wf_data exec /\\ In 1%nat (descendants [0%nat] mid) /\\ consequence (Errno 1) (Fake (-1)) /\\
  ~ granted [StdIO; Proc] 100 101 exec.
Proof.
  cbv zeta. split; [repeat constructor|]. split; [intros t [<-|[]]; reflexivity|].
  split.
  { apply Forall_forall. intros x [<-|I]; [exact Logic.I|]. apply in_app_or in I. destruct I as [I|I].
    - apply repeat_spec in I. subst x. exact Logic.I.
    - cbn [In] in I. destruct I as [<-|[<-|[<-|[]]]]; try exact Logic.I; split; try discriminate;
        intros E; vm_compute in E; discriminate E. }
  split; [vm_compute; reflexivity|]. split; [vm_compute; repeat split; reflexivity|].
  split; [left; reflexivity|]. split; [reflexivity|].
  intros G. PolicyProofs.row SYS_execve R. rewrite R in G by reflexivity. unfold PolicyProofs.promised in G.
  cbn in G. intuition discriminate.
Qed."""),
("C90","C90_unsupervised_refusals_are_justified","c90_unsupervised","""Example C90_unsupervised_example :
  let w := mkWorld [thread0] 1 in
  let amb := amb0 0%nat in
  let exec := call SYS_execve 0 0 0 0 0 in
  let ops := OPledge 0 [RPath] (Trace 7) :: repeat (OStep 0 amb) (pledge_length [RPath]) ++
             [OSys 0 exec (mkOracle nobody [] false false 0)] in
  fresh_world w /\\ Forall own_filters_none ops /\\ Forall unsupervised ops /\\
  exists tr1 tr2, snd (wrun Debug w ops) = tr1 ++ EvCall 0 exec (Fake (-38)) :: tr2 /\\
                  fate (Trace 7) = Fake (-38).
Proof.
  cbv zeta. split; [repeat constructor|].
  split; [|split].
  1,2: apply Forall_forall; intros x [<-|I]; [exact Logic.I|]; apply in_app_or in I; destruct I as [I|I];
    [apply repeat_spec in I; subst x|cbn [In] in I; destruct I as [<-|[]]].
  - exact Logic.I.
  - split; [discriminate|]. intros E. vm_compute in E. discriminate E.
  - reflexivity.
  - reflexivity.
  - eexists [_; _; _; _], []. split; vm_compute; reflexivity.
Qed."""),
("C91","C91_filters_are_the_pledges_of_the_line","c91","""Example C91_example :
  let w := mkWorld [thread0] 1 in
  let amb := amb0 0%nat in
  let fork := call SYS_fork 0 0 0 0 0 in
  let exec := call SYS_execve 0 0 0 0 0 in
  let o := mkOracle nobody [] false false 102 in
  let steps u ps := repeat (OStep u amb) (pledge_length ps) in
  let ops := OPledge 0 [StdIO; Proc; Exec] (Errno 1) :: steps 0%nat [StdIO; Proc; Exec] ++
             OSys 0 fork o :: OPledge 0 [StdIO] KillProcess :: steps 0%nat [StdIO] ++
             OPledge 1 [StdIO; RPath] (Trace 7) :: steps 1%nat [StdIO; RPath] ++ [OSys 1 exec o] in
  let its := [mkInst 102 102 [StdIO; RPath] (Trace 7); mkInst 100 101 [StdIO; Proc; Exec] (Errno 1)] in
  let tr := snd (wrun Debug w ops) in
  fresh_world w /\\ (forall t, In t (w_threads w) -> t_filters t = []) /\\ Forall own_filters_none ops /\\
  map t_uid (w_threads (fst (wrun Debug w ops))) = [1%nat; 0%nat] /\\
  map (fun t => length (t_filters t)) (w_threads (fst (wrun Debug w ops))) = [2%nat; 2%nat] /\\
  line 1 (rev tr) = its /\\
  line 0 (rev tr) = [mkInst 100 101 [StdIO] KillProcess; mkInst 100 101 [StdIO; Proc; Exec] (Errno 1)] /\\
  forallb (fun ev => match ev with EvCall _ d (Fake _) => negb ((sd_nr d =? 39) || (sd_nr d =? 186)) | _ => true end) tr
    = true.
Proof.
  cbv zeta. split; [repeat constructor|]. split; [intros t [<-|[]]; reflexivity|].
  split.
  { repeat (apply Forall_cons; [exact I||(split; [intros E; vm_compute in E; discriminate E|discriminate])|]
            || (apply Forall_app; split; [apply Forall_forall; intros x X; apply repeat_spec in X; subst x; exact I|])).
    constructor. }
  split; [vm_compute; reflexivity|]. split; [vm_compute; reflexivity|]. split; [vm_compute; reflexivity|].
  split; [vm_compute; reflexivity|]. vm_compute. reflexivity.
Qed."""),
("C91","C91_fate_of_a_call","c91_fate","""Example C91_fate_example :
  let w := mkWorld [thread0] 1 in
  let amb := amb0 0%nat in
  let fork := call SYS_fork 0 0 0 0 0 in
  let exec := call SYS_execve 0 0 0 0 0 in
  let o := mkOracle nobody [] false false 102 in
  let steps u ps := repeat (OStep u amb) (pledge_length ps) in
  let ops := OPledge 0 [StdIO; Proc; Exec] (Errno 1) :: steps 0%nat [StdIO; Proc; Exec] ++
             OSys 0 fork o :: OPledge 0 [StdIO] KillProcess :: steps 0%nat [StdIO] ++
             OPledge 1 [StdIO; RPath] (Trace 7) :: steps 1%nat [StdIO; RPath] ++ [OSys 1 exec o] in
  let its := [mkInst 102 102 [StdIO; RPath] (Trace 7); mkInst 100 101 [StdIO; Proc; Exec] (Errno 1)] in
  let tr := snd (wrun Debug w ops) in
  fresh_world w /\\ Forall unsupervised ops /\\
  tr = removelast tr ++ EvCall 1 exec (Fake (-38)) :: [] /\\ line 1 (rev (removelast tr)) = its /\\
  Forall (fun i => small_payload (i_v i)) its /\\ wf_data exec /\\
  fate (Trace 7) = Fake (-38) /\\ (severity (Trace 7) < severity Allow)%nat.
Proof.
  cbv zeta. split; [repeat constructor|].
  split.
  { repeat (apply Forall_cons; [exact I||reflexivity|]
            || (apply Forall_app; split; [apply Forall_forall; intros x X; apply repeat_spec in X; subst x; reflexivity|])).
    constructor. }
  split; [vm_compute; reflexivity|]. split; [vm_compute; reflexivity|].
  split; [repeat constructor|]. split; [vm_compute; repeat split; reflexivity|].
  split; [reflexivity|]. vm_compute. lia.
Qed."""),
("C92","C92_as_if_alone","c92","""Example C92_example :
  let t2 := mkThread 1 100 102 false false [] None in
  let w := mkWorld [thread0; t2] 2 in
  let s0 := OStep 0 (amb0 0%nat) in let s1 := OStep 1 (amb0 1%nat) in
  let exec := OSys 1 (call SYS_execve 0 0 0 0 0) (mkOracle nobody [] false false 0) in
  let ops := [s0; OPledge 1 [Tty; VmInfo] (Errno 5); s1; s0; s1; s0; s1; s1; s0; s1; s1; s0; s1; exec; s0] in
  let t' := set_filters (set_nnp thread0) [built [Tty] Trap] in
  fresh_world w /\\ distinct w /\\ t_call thread0 = None /\\ Forall (leaves_alone 0) ops /\\
  In (EvReturned 0 [Tty] Trap (Ok tt)) (snd (wrun Debug w (OPledge 0 [Tty] Trap :: ops))) /\\
  In (EvReturned 1 [Tty; VmInfo] (Errno 5) (Ok tt)) (snd (wrun Debug w (OPledge 0 [Tty] Trap :: ops))) /\\
  turns 0 ops = repeat (amb0 0%nat) 6 /\\
  pledge_override Debug (in_turn [Tty] (turns 0 ops)) thread0 [Tty] Trap = (Ok tt, t') /\\
  In t' (w_threads (fst (wrun Debug w (OPledge 0 [Tty] Trap :: ops)))).
Proof.
  cbv zeta. split; [repeat constructor|]. split; [repeat constructor; cbn; intuition discriminate|].
  split; [reflexivity|].
  split; [repeat (apply Forall_cons; [cbn; try split; exact Logic.I || discriminate|]); constructor|].
  split; [vm_compute; tauto|]. split; [vm_compute; tauto|]. split; [reflexivity|].
  split; [vm_compute; reflexivity|]. vm_compute. tauto.
Qed."""),
]
EX=f('PropsExact','C05, C78, C93-C97: exact conditions.',['ExactFacts'],'DocSpec ')
EX+=[
("C05","C05_what_accumulator_operands_do","c05_accumulator","""Example C05_accumulator_example :
  let vm := mkVM 0 12 0 (repeat 0 16) [] in
  to_sock_filter Debug 0 (Alu MUL Acc 4) [] = Ok (SockFilter 0x34 0 0 4) /\\
  exec_insn Debug (SockFilter 0x34 0 0 4) vm [] = (Ok None, mkVM 0 3 0 (repeat 0 16) []) /\\
  to_sock_filter Debug 0 (Alu XOR Acc 4) [] = Ok (SockFilter 0xb4 0 0 4) /\\
  exec_insn Debug (SockFilter 0xb4 0 0 4) vm [] = (Err (UnknownInstruction 4), vm).
Proof. cbv zeta. repeat split; vm_compute; reflexivity. Qed."""),
("C05","C05_what_unconditional_jumps_do","c05_ja","""Example C05_ja_example :
  let f := SockFilter 0x05 4 0 9 in
  to_sock_filter Debug 0 (Jump JA 9 (Some "a"%string) None) [("a"%string, 5)] = Ok f /\\
  vm_pc (snd (exec_insn Debug f (mkVM 1 0 0 (repeat 0 16) []) [])) = 10.
Proof. cbv zeta. split; vm_compute; reflexivity. Qed."""),
("C78","C78_what_the_other_rules_test","c78_mistaken","""Example C78_mistaken_example :
  (* open(path, O_WRONLY | O_CREAT | O_TRUNC, 0) passes as read-only because its mode is 0 *)
  let d := call SYS_open 0x7000 0x241 0 0 0 in
  exists prog, rule_filter Debug 100 101 OpenReadonly (Errno 1) prog /\\ native d /\\
    ~ documented OpenReadonly 100 101 d /\\ documented OpenReadonly 100 101 (mistaken OpenReadonly d) /\\
    proceeds prog d.
Proof.
  cbv zeta. eexists. split; [vm_compute; reflexivity|]. split; [concrete|].
  split; [intros (_ & A & _); discriminate A|].
  split; [split; [reflexivity|split; [reflexivity|repeat constructor]]|vm_compute; reflexivity].
Qed."""),
("C93","C93_exactly_which_opens_are_allowed","c93",pol('C93_example','[StdIO; RPath]','Trap','call SYS_openat 0xffffff9c 0x7000 0x80000 0 0')+'\n'+pol('C93_example_refused','[StdIO; RPath]','Trap','call SYS_openat 0xffffff9c 0x7000 2 0 0','no')),
("C93","C93_open_ignores_its_flags","c93_open_flags","""Example C93_open_flags_example :
  let d := call SYS_open 0x7000 0 0 0 0 in let d' := call SYS_open 0x7000 0x242 0 0 0 in
  filter_for Debug 100 101 [RPath] Trap (built [RPath] Trap) /\\ native d /\\ native d' /\\
  same_but_arg1 d d' /\\ proceeds (built [RPath] Trap) d /\\ proceeds (built [RPath] Trap) d'.
Proof. cbv zeta. unfold same_but_arg1, proceeds. concrete. Qed."""),
("C94","C94_exactly_which_modes_are_allowed","c94",pol('C94_example','[FAttr]','Trap','call SYS_chmod 0x7000 0x1ff 0 0 0')+'\n'+pol('C94_example_refused','[FAttr]','Trap','call SYS_chmod 0x7000 0x9ed 0 0 0','no')),
("C94","C94_fchmodat_ignores_its_mode","c94_fchmodat_mode","""Example C94_fchmodat_example :
  let d := call SYS_fchmodat 0xffffff9c 0x7000 0x1ed 0 0 in let d' := call SYS_fchmodat 0xffffff9c 0x7000 0x9ed 0 0 in
  let e := call SYS_fchmodat 0xffffff9c 0x7200 0x1ed 0 0 in
  filter_for Debug 100 101 [FAttr] Trap (built [FAttr] Trap) /\\ native d /\\ native d' /\\
  same_but_arg2 d d' /\\ proceeds (built [FAttr] Trap) d /\\ proceeds (built [FAttr] Trap) d' /\\
  ~ proceeds (built [FAttr] Trap) e.
Proof. cbv zeta. unfold same_but_arg2, proceeds. concrete. Qed."""),
("C95","C95_exactly_which_memory_calls_are_allowed","c95","""Example C95_example :
  (* readable and writable memory takes two steps *)
  let f := built [StdIO] Trap in
  filter_for Debug 100 101 [StdIO] Trap f /\\
  ~ proceeds f (call SYS_mmap 0 4096 3 0x22 0xffffffff) /\\
  proceeds f (call SYS_mmap 0 4096 1 0x22 0xffffffff) /\\ proceeds f (call SYS_mprotect 0x7000 4096 3 0 0) /\\
  ~ proceeds f (call SYS_mprotect 0x7000 4096 5 0 0).
Proof. cbv zeta. unfold proceeds. concrete. Qed."""),
("C96","C96_exactly_which_signals_are_allowed","c96",pol('C96_example','[StdIO]','Trap','call SYS_kill 100 9 0 0 0')+'\n'+pol('C96_example_refused','[StdIO]','Trap','call SYS_kill 1 9 0 0 0','no')),
("C97","C97_exactly_what_a_stack_allows","c97","""Example C97_example :
  let a := built [StdIO; RPath] Trap in let b := built [StdIO; WPath] (Errno 1) in
  stack_of Debug [mkInst 100 101 [StdIO; WPath] (Errno 1); mkInst 100 101 [StdIO; RPath] Trap] [b; a] /\\
  enforcing Trap /\\ enforcing (Errno 1) /\\
  syscall_entry [b; a] (call SYS_stat 0x7000 0x8000 0 0 0) = Proceed /\\
  syscall_entry [b; a] (call SYS_chdir 0x7000 0 0 0 0) = Fake (-1) /\\
  syscall_entry [b; a] (call SYS_truncate 0x7000 0 0 0 0) = Kill DeathSigsys.
Proof.
  cbv zeta. split; [unfold stack_of; repeat constructor; vm_compute; reflexivity|].
  split; [concrete|]. split; [concrete|]. repeat split; vm_compute; reflexivity.
Qed."""),
("C97","C97_a_stack_need_not_be_any_list","c97_no_list","""Example C97_no_list_example :
  let f := built [RPath] KillProcess in let f' := built [WPath] KillProcess in
  filter_for Debug 100 101 [RPath] KillProcess f /\\ filter_for Debug 100 101 [WPath] KillProcess f' /\\
  syscall_entry [f'; f] (call SYS_stat 1 2 0 0 0) = Proceed /\\
  syscall_entry [f'; f] (call SYS_chdir 1 0 0 0 0) = Kill DeathProcess /\\
  syscall_entry [f'; f] (call SYS_truncate 1 0 0 0 0) = Kill DeathProcess.
Proof. cbv zeta. repeat split; vm_compute; reflexivity. Qed."""),
]
RE=f('PropsReach','C98-C101: what some pledge can reach.',['ReachFacts'])
RE+=[
("C98","C98_new_namespaces_refuted","c98_refuted",pol('C98_example','[StdIO; Proc]','Trap','call SYS_clone 0x10000011 0 0 0 0')),
("C98","C98_other_ways_into_namespaces_partial","c98_partial",pol('C98_example_thread','[StdIO]','Trap','call SYS_clone 0x3d0f00 0 0 0 0')+'\n'+pol('C98_example_refused','[StdIO]','Trap','call SYS_clone 0x10000011 0 0 0 0','no')),
("C99","C99_migrate_pages_refuted","c99_refuted",pol('C99_example','[StdIO]','Trap','call SYS_migrate_pages 1 0 0 0 0')),
("C99","C99_exactly_which_targets_partial","c99_partial",pol('C99_example_own','[StdIO]','Trap','call SYS_prlimit64 1 7 0 0x7000 0')+'\n'+pol('C99_example_refused','[StdIO]','Trap','call SYS_setpriority 0 1 0 0 0','no')),
("C100","C100_promises_some_call_needs","c100","""Example C100_example :
  ~ In Proc [Default; Dns; RecvFd; SendFd; VmInfo; TmpPath] /\\
  proceeds (built [Proc] Trap) (call SYS_fork 0 0 0 0 0) /\\
  ~ proceeds (built [Default; StdIO; RPath; WPath; CPath; DPath; FLock; FAttr; Inet; Unix; Dns; Tty;
                     RecvFd; SendFd; Id; Chown; SetTime; ProtExec; Exec; VmInfo; TmpPath; Unveil] Trap)
             (call SYS_fork 0 0 0 0 0).
Proof. unfold proceeds. concrete. Qed."""),
("C100","C100_replaceable_promises","c100_replace","""Example C100_replace_example :
  let d := call SYS_openat 0xffffff9c 0x7000 0x80000 0 0 in
  In (Dns, [StdIO; RPath; Inet]) replacements /\\
  filter_for Debug 100 101 [Dns; Tty] Trap (built [Dns; Tty] Trap) /\\
  filter_for Debug 100 101 ([StdIO; RPath; Inet] ++ [Tty]) Trap (built ([StdIO; RPath; Inet] ++ [Tty]) Trap) /\\
  native d /\\ proceeds (built [Dns; Tty] Trap) d /\\ proceeds (built ([StdIO; RPath; Inet] ++ [Tty]) Trap) d /\\
  ~ proceeds (built [Tty] Trap) d.
Proof. cbv zeta. unfold proceeds. split; [cbn; tauto|]. concrete. Qed."""),
("C101","C101_exactly_which_calls_are_reachable","c101","""Example C101_example :
  (exists a b, In (a, b) reachable_calls /\\ a <= SYS_socket <= b) /\\
  ~ (exists a b, In (a, b) reachable_calls /\\ a <= SYS_statx <= b) /\\
  (let f := built [Inet] Trap in let d := call SYS_socket 2 1 0 0 0 in
   filter_for Debug 100 101 [Inet] Trap f /\\ native d /\\ proceeds f d).
Proof.
  split; [exists 32, 45; split; [cbn; tauto|split; discriminate]|]. split.
  - intros (a & b & H & L). cbn [reachable_calls In] in H.
    repeat (destruct H as [H|H]; [injection H as <- <-; destruct L as [L M]; vm_compute in L, M; congruence|]).
    destruct H.
  - cbv zeta. unfold proceeds. concrete.
Qed."""),
]
SU=f('PropsSum','C102-C103: promises one by one; the error number of a refused call.',['SumFacts'])
SU+=[
("C102","C102_promises_act_independently","c102","""Example C102_example :
  let d := call SYS_chdir 0x7000 0 0 0 0 in
  filter_for Debug 100 101 [StdIO; RPath; Inet] Trap (built [StdIO; RPath; Inet] Trap) /\\ native d /\\
  proceeds (built [StdIO; RPath; Inet] Trap) d /\\
  proceeds (built [RPath] Trap) d /\\ ~ proceeds (built [StdIO] Trap) d /\\ ~ proceeds (built [Inet] Trap) d.
Proof. cbv zeta. unfold proceeds. concrete. Qed."""),
("C102","C102_joined_lists","c102_append","""Example C102_joined_example :
  let f := built [StdIO; Proc] Trap in let g := built [RPath] Trap in let h := built ([StdIO; Proc] ++ [RPath]) Trap in
  filter_for Debug 100 101 [StdIO; Proc] Trap f /\\ filter_for Debug 100 101 [RPath] Trap g /\\
  filter_for Debug 100 101 ([StdIO; Proc] ++ [RPath]) Trap h /\\
  (proceeds h (call SYS_fork 0 0 0 0 0) /\\ proceeds f (call SYS_fork 0 0 0 0 0)) /\\
  (proceeds h (call SYS_chdir 1 0 0 0 0) /\\ proceeds g (call SYS_chdir 1 0 0 0 0)) /\\
  ~ proceeds h (call SYS_socket 2 1 0 0 0).
Proof. cbv zeta. unfold proceeds. concrete. Qed."""),
("C103","C103_large_error_number_refuted","c103_refuted","""Example C103_refuted_example :
  let f := built [StdIO] (Errno 5000) in let d := call SYS_chdir 0x7000 0 0 0 0 in
  filter_for Debug 100 101 [StdIO] (Errno 5000) f /\\ native d /\\ syscall_entry [f] d = Fake (-4095).
Proof. cbv zeta. concrete. Qed."""),
("C103","C103_error_number_returned_partial","c103","""Example C103_example :
  let d := call SYS_chdir 0x7000 0 0 0 0 in native d /\\
  syscall_entry [built [StdIO] (Errno 13)] d = Fake (-13) /\\
  syscall_entry [built [StdIO] (Errno 4095)] d = Fake (-4095) /\\
  syscall_entry [built [StdIO] (Errno 0)] d = Fake 0.
Proof. cbv zeta. concrete. Qed."""),
]
SH=f('PropsShape','C104-C105: which programs the assembler can produce, and where jumps go.',['ShapeFacts'],'AsmSpec ')
SH+=[
("C104","C104_exactly_the_programs_compile_can_produce","c104","""Example C104_example :
  let code := [SockFilter 0x20 0 0 0; SockFilter 0x15 1 0 59; SockFilter 0x06 0 0 0; SockFilter 0x06 0 0 1] in
  compile Debug [Load ABS 0; Jump JEQ 59 (Some "y") None; Return Const 0; Label "y"; Return Const 1]%string = Ok code /\\
  expressible 4 1 (SockFilter 0x15 1 0 59) /\\ expressible 4 1 (SockFilter 0x15 2 0 59) /\\
  ~ expressible 4 1 (SockFilter 0x15 3 0 59) /\\ ~ expressible 4 1 (SockFilter 0x1d 1 0 59) /\\
  ~ expressible 4 1 (SockFilter 0x20 1 0 0) /\\ ~ expressible 4 1 (SockFilter 0x28 0 0 0).
Proof.
  cbv zeta. split; [vm_compute; reflexivity|]. unfold expressible. cbn [sf_code sf_jt sf_jf sf_k].
  split; [split; [lia|right; split; [vm_compute; tauto|lia]]|].
  split; [split; [lia|right; split; [vm_compute; tauto|lia]]|].
  split; [intros [_ [[_ [H _]]|(_ & _ & _ & H & _)]]; [discriminate|lia]|].
  split; [intros [_ [[H _]|[H _]]]; vm_compute in H; intuition discriminate|].
  split; [intros [_ [(_ & H & _)|[H _]]]; [discriminate|vm_compute in H; intuition discriminate]|].
  intros [_ [[H _]|[H _]]]; vm_compute in H; intuition discriminate.
Qed."""),
("C104","C104_written_for_both_profiles","c104_all",None),
("C104","C104_kernel_filters_compile_can_produce","c104_kernel","""Example C104_kernel_example :
  let good := [SockFilter 0x20 0 0 0; SockFilter 0x35 1 0 59; SockFilter 0x05 0 0 1; SockFilter 0x06 0 0 0;
               SockFilter 0x16 0 0 0] in
  let bad := [SockFilter 0x20 0 0 0; SockFilter 0x07 0 0 0; SockFilter 0x06 0 0 0] in
  (kernel_accepts good = true /\\ Forall wf_insn good /\\ Forall unused_zero good /\\
   Forall (fun f => ~ In (sf_code f) missing_codes) good) /\\
  (kernel_accepts bad = true /\\ Forall wf_insn bad /\\ Forall unused_zero bad /\\
   ~ Forall (fun f => ~ In (sf_code f) missing_codes) bad).
Proof.
  cbv zeta. split; (split; [vm_compute; reflexivity|]; split; [repeat constructor|];
    split; [repeat (constructor; [vm_compute; tauto|]); constructor|]).
  - repeat (constructor; [vm_compute; intuition discriminate|]). constructor.
  - intros H. inversion H as [|? ? _ H']; subst. inversion H' as [|? ? H2 _]; subst. apply H2. vm_compute. tauto.
Qed."""),
]
SH+=[
("C105","C105_exactly_where_jumps_go","c105","""Example C105_example :
  let far := [Label "top"; Load ABS 0; Jump JEQ 59 (Some "deny") None]%string ++ repeat (Load IMM 0) 256
             ++ [Label "deny"; Return Const 0; JumpTo "top"]%string in
  compile Debug far = Panic /\\
  (exists code, compile Release far = Ok code /\\
     nth_error code 1 = Some (SockFilter 0x15 0 0 59) /\\ nth_error code 259 = Some (SockFilter 0x05 0 0 4294967036)) /\\
  offset_to Release far 1 (2 ^ 8) (Some "deny"%string) 0 /\\
  offset_to Release far 259 (2 ^ 32) (Some "top"%string) 4294967036.
Proof.
  cbv zeta. split; [vm_compute; reflexivity|]. split.
  - eexists. split; [vm_compute; reflexivity|]. split; reflexivity.
  - split; (eexists; split; [vm_compute; reflexivity|split; [reflexivity|discriminate]]).
Qed."""),
]
RU=f('PropsRule','C106: the rules of a promise one by one.',['RuleFacts'])
RU+=[
("C106","C106_getsockopt_rule_is_idle_refuted","c106_refuted","""Example C106_refuted_example :
  exists l r, promises_get Inet = Some (l ++ GetsockoptRestrict :: r) /\\
  let less := match filters_to_prog Debug (mkEnv (Ok 100) (Ok 101)) (filters_Default ++ l ++ r) Trap with
              | Ok prog => prog | _ => [] end in
  proceeds less (call SYS_getsockopt 3 SOL_SOCKET SO_ERROR 0 0) /\\
  proceeds (built [Inet] Trap) (call SYS_getsockopt 3 SOL_SOCKET SO_ERROR 0 0) /\\
  ~ proceeds less (call SYS_getsockopt 3 SOL_SOCKET 17 0 0).
Proof.
  exists (firstn 8 filters_Inet); eexists. split; [reflexivity|]. cbv zeta. unfold proceeds. concrete.
Qed."""),
("C106","C106_every_other_rule_matters_partial","c106_partial","""Example C106_example :
  exists l r, promises_get StdIO = Some (l ++ FcntlStdio :: r) /\\
  let less := match filters_to_prog Debug (mkEnv (Ok 100) (Ok 101)) (filters_Default ++ l ++ r) Trap with
              | Ok prog => prog | _ => [] end in
  proceeds (built [StdIO] Trap) (call SYS_fcntl 3 1 0 0 0) /\\
  ~ proceeds less (call SYS_fcntl 3 1 0 0 0) /\\ proceeds less (call SYS_read 3 1 0 0 0).
Proof.
  exists (firstn 24 filters_StdIO); eexists. split; [reflexivity|]. cbv zeta. unfold proceeds. concrete.
Qed."""),
]
HE=f('PropsHelper','C107: what a passing integration test shows.',['HelperFacts'],'Helpers HelperSpec ')
HE+=[
("C107","C107_exit_code_tests_are_exact","c107_code",r'''(** A child like that of rpath_open_passwd (tests/lib.rs): open, read, close, exit(99). *)
Example C107_code_example :
  let body := Sys (call SYS_openat 4294967196 0x7000 0x80000 0 0) (fun fd =>
              Sys (call SYS_read 3 0x7100 4096 0 0) (fun _ =>
              Sys (call SYS_exit_group 99 0 0 0 0) (fun _ => Fault SIGSEGV))) in
  let go ps := child_of_test Debug amb0 thread0 ps KillProcess (fun _ => 3%Z) body Ret in
  (t_filters thread0 = [] /\ amb_oom (amb0 1%nat) = false /\ NoDup [StdIO; RPath] /\ calls_wf body) /\
  (fork_expect_code 99 (snd (go [StdIO; RPath])) = Passed /\ length (fst (go [StdIO; RPath])) = 3%nat) /\
  (fork_expect_code 99 (snd (go [StdIO])) = Failed /\ fork_expect_sig SIGSYS (snd (go [StdIO])) = Passed /\
   length (fst (go [StdIO])) = 1%nat) /\ fork_expect_code 98 (snd (go [StdIO; RPath])) = Failed.
Proof.
  cbv zeta. split; [|vm_compute; repeat split; reflexivity].
  split; [reflexivity|]. split; [reflexivity|]. split; [repeat constructor; cbn; intuition discriminate|].
  cbn. repeat split.
Qed.'''),
("C107","C107_later_calls_pass_signal_tests_refuted","c107_refuted",r'''(** A child like that of stdio_personality_killed (tests/lib.rs), were the call granted: getpid
    instead of personality. *)
Example C107_refuted_example :
  let body := Sys (call SYS_getpid 0 0 0 0 0) (fun _ => Ret) in
  let harness := Sys (call SYS_clone3 0 0 0 0 0) (fun _ => Ret) in
  let go h := child_of_test Debug amb0 thread0 [StdIO] KillProcess (fun _ => 100%Z) body h in
  child_run (fun _ => 100%Z) [built [StdIO] KillProcess] [] body = ([call SYS_getpid 0 0 0 0 0], None) /\
  permitted [StdIO] 100 101 (call SYS_getpid 0 0 0 0 0) /\
  fork_expect_sig SIGSYS (snd (go harness)) = Passed /\
  fork_expect_sig SIGSYS (snd (go Ret)) = Failed.
Proof.
  cbv zeta. split; [vm_compute; reflexivity|].
  split; [split; [reflexivity|]|split; vm_compute; reflexivity].
  exists [(AnyArgs, [StdIO])], AnyArgs, [StdIO], StdIO.
  split; [vm_compute; tauto|cbn; tauto].
Qed.'''),
("C107","C107_signal_tests_partial","c107_sig",r'''(** The child of stdio_open_not_passwd (tests/lib.rs): open, then exit(99). *)
Example C107_sig_example :
  let body := Sys (call SYS_openat 4294967196 0x7000 0x80000 0 0) (fun _ =>
              Sys (call SYS_exit_group 99 0 0 0 0) (fun _ => Fault SIGSEGV)) in
  let go ps := child_of_test Debug amb0 thread0 ps KillProcess (fun _ => 3%Z) body
                 (Sys (call SYS_clone3 0 0 0 0 0) (fun _ => Ret)) in
  (calls_wf body /\ never_raises SIGSYS body /\ never_returns body) /\
  fork_expect_sig SIGSYS (snd (go [StdIO])) = Passed /\
  fork_expect_sig SIGSYS (snd (go [StdIO; RPath])) = Failed.
Proof.
  cbv zeta. split; [|vm_compute; split; reflexivity].
  split; [cbn; repeat split|]. split; [cbn; intros; discriminate|]. cbn. tauto.
Qed.'''),
]
SA=f('PropsSame','C108, C109: comparing two pledges.',['SameFacts'])
SA+=[
("C108","C108_when_two_pledges_build_the_same_filter","c108",r'''Example C108_example :
  let at_ids pid tid ps := match promises_to_prog Release (mkEnv (Ok pid) (Ok tid)) ps Trap with
                           | Ok p => p | _ => [] end in
  (built [Inet; SendFd; Tty] Trap = at_ids 7 8 [Inet; RecvFd; Tty] /\ length (built [Inet; SendFd; Tty] Trap) = 111%nat) /\
  built [Inet; SendFd] Trap <> built [SendFd; Inet] Trap /\ built [Inet] Trap <> built [Dns] Trap /\
  built [Tty] Trap <> built [Tty; Default] Trap /\ built [Tty] Trap <> built [Tty] (Errno 1) /\
  built [StdIO] Trap = at_ids 100 (2 ^ 32 + 101) [StdIO] /\ built [StdIO] Trap <> at_ids 100 102 [StdIO] /\
  built [StdIO] Trap <> at_ids 101 101 [StdIO].
Proof.
  cbv zeta. split; [split; vm_compute; reflexivity|].
  split; [vm_compute; discriminate|]. split; [vm_compute; discriminate|]. split; [vm_compute; discriminate|].
  split; [vm_compute; discriminate|]. split; [vm_compute; reflexivity|]. split; vm_compute; discriminate.
Qed.'''),
("C109","C109_when_a_pledge_allows_all_another_does","c109",r'''Example C109_example :
  (forall d, native d -> proceeds (built [Dns; TmpPath; VmInfo] Trap) d ->
                         proceeds (built [StdIO; CPath; Inet; WPath] KillProcess) d) /\
  (let d := call SYS_newfstatat 0 0x7000 0x7100 0 0 in
   native d /\ proceeds (built [Dns] Trap) d /\ ~ proceeds (built [StdIO; CPath; Inet] KillProcess) d) /\
  (let d := call SYS_chdir 0x7000 0 0 0 0 in
   native d /\ proceeds (built [RPath] Trap) d /\ ~ proceeds (built [StdIO; CPath; Inet; WPath] KillProcess) d).
Proof.
  split; [|unfold proceeds; concrete].
  apply (proj2 (C109_when_a_pledge_allows_all_another_does Debug Debug 100 101 100 101 [Dns; TmpPath; VmInfo]
    [StdIO; CPath; Inet; WPath] Trap KillProcess _ _ eq_refl eq_refl
    ltac:(repeat split; discriminate) ltac:(repeat split; discriminate) eq_refl)).
  split.
  - intros p [<-|[<-|[<-|[]]]]; right; right; eexists; (split; [cbn; eauto 12|]); cbn; intuition.
  - cbn. intuition discriminate.
Qed.'''),
]
IN=f('PropsInt','C110: the integration tests pass.',['IntFacts'],'Helpers HelperSpec IntTests ')
IN+=[
("C110","C110_integration_tests_pass","c110",r'''(** fchmod passes with FAttr, not without, and not with a setuid bit. *)
Example C110_example :
  length tests_lib = 22%nat /\
  (let ds := call SYS_openat 0xffffff9c 0x7000 0x80241 0x1b6 0 ::
             call SYS_write 3 0x7000 15 0 0 :: call SYS_fchmod 3 0xbeef000001b6 0 0 0 ::
             call SYS_close 3 0 0 0 0 :: [call SYS_exit_group (2 ^ 32 + 99) 0 0 0 0] in
   let go ps := snd (child_of_test Debug amb0 thread0 ps KillProcess (fun _ => 3%Z) (straight ds) Ret) in
   match find (fun t => String.eqb (it_name t) "fattr_ok") tests_lib with
   | Some t => Forall2 makes (it_calls t) ds /\ Forall wf_data ds
   | None => False
   end /\
   go [StdIO; CPath; FAttr] = Some (Exited 99) /\ go [StdIO; CPath] = Some (Signaled SIGSYS)).
Proof.
  cbv zeta. split; [reflexivity|]. cbn [find tests_lib it_name String.eqb Ascii.eqb Bool.eqb it_calls].
  split; [split|split; vm_compute; reflexivity].
  - repeat (apply Forall2_cons;
      [split; [reflexivity|]; split; [reflexivity|];
       match goal with |- exists more, Forall2 is_arg (q_args ?q ++ more) _ =>
         let k := eval vm_compute in (6 - length (q_args q))%nat in exists (repeat Any k) end;
       repeat constructor|]). constructor.
  - repeat constructor.
Qed.'''),
("C110","C110_errno_test_passes","c110_errno",r'''Example C110_errno_example :
  let d := call SYS_personality 0xffffffff 0 0 0 0 in
  let e := call SYS_exit_group 0xffffffff 0 0 0 0 in
  let go v := child_of_test Debug amb0 thread0 [StdIO] v (fun _ => 0%Z) (errno_child d e) Ret in
  makes (Call SYS_personality [Int 0xffffffff]) d /\ makes (libc_exit 0xffffffff) e /\
  go (Errno 999) = ([d; mkSD SYS_exit_group AUDIT_ARCH_X86_64 0 0 0 0 0 0 0], Some (Exited 0)) /\
  go (Errno 998) = ([d; e], Some (Exited 255)) /\ go KillProcess = ([d], Some (Signaled SIGSYS)).
Proof.
  cbv zeta. repeat split; try (vm_compute; reflexivity); exists (repeat Any 5); repeat constructor.
Qed.'''),
]
WD=f('PropsWord','C111: the words of a call a verdict depends on.',['WordFacts'],'WordSpec ')
WD+=[
("C111","C111_what_a_verdict_depends_on","c111",r'''(** The protection of a mapping matters until ProtExec is promised; its flags always do, its length never. *)
Example C111_example :
  matters (built [StdIO] KillProcess) SYS_mmap 8 /\
  ~ matters (built [StdIO; ProtExec] KillProcess) SYS_mmap 8 /\
  matters (built [ProtExec] Trap) SYS_mmap 10 /\ ~ matters (built [ProtExec; StdIO] Trap) SYS_mmap 6.
Proof.
  assert (T : forall ps v nr i, filter_for Debug 100 101 ps v (built ps v) -> v = KillProcess \/ v = Trap ->
    (2 <= i)%nat -> (matters (built ps v) nr i <-> exists needs unless, In (nr, i, needs, unless) inspected_words /\
       (exists p, In p needs /\ In p ps) /\ (forall p, In p unless -> ~ In p ps))).
  { intros ps v nr i F Hv Hi.
    apply (C111_what_a_verdict_depends_on Debug 100 101 ps v); [|split; [|split]|reflexivity|exact Hi].
    - exact F.
    - destruct Hv as [->| ->]; exact Logic.I.
    - destruct Hv as [->| ->]; discriminate.
    - destruct Hv as [->| ->]; discriminate. }
  rewrite !T by first [solve [vm_compute; reflexivity]|solve [auto]|lia]. split; [|split; [|split]].
  - exists [StdIO], [ProtExec]. split; [cbn; tauto|]. split; [exists StdIO; cbn; auto|].
    intros p [<-|[]] [E|[]]; discriminate E.
  - intros (needs & unless & I & _ & U). cbn in I.
    repeat (destruct I as [I|I]; [try discriminate I; injection I as <- <-|]); [|destruct I].
    apply (U ProtExec); cbn; auto.
  - exists [StdIO; ProtExec], []. split; [cbn; tauto|]. split; [exists ProtExec; cbn; auto|intros p []].
  - intros (needs & unless & I & _). cbn in I. intuition discriminate.
Qed.'''),
("C111","C111_inspected_words_decide","c111_together",r'''(** Under Proc the target of a signal does not matter, under StdIO it does. *)
Example C111_together_example :
  let d := call SYS_kill 100 9 0 0 0 in let e := call SYS_kill 1 9 0 0 0 in
  (forall i needs unless, In (SYS_kill, i, needs, unless) inspected_words ->
     (exists p, In p needs /\ In p [StdIO; Proc]) -> (forall p, In p unless -> ~ In p [StdIO; Proc]) ->
     nth i (sd_words d) 0 = nth i (sd_words e) 0) /\
  kernel_eval (built [StdIO; Proc] KillProcess) d = kernel_eval (built [StdIO; Proc] KillProcess) e /\
  kernel_eval (built [StdIO] KillProcess) d <> kernel_eval (built [StdIO] KillProcess) e.
Proof.
  cbv zeta. split; [|split; vm_compute; [reflexivity|discriminate]].
  intros i needs unless I _ U. cbn in I.
  repeat (destruct I as [I|I]; [try discriminate I; injection I as <- <- <-|]); [|destruct I].
  elim (U Proc); cbn; auto.
Qed.'''),
]
OK_=f('PropsOld','C112: pledges on older kernels.',['OldFacts'],'OldKernel ')
OK_+=[
("C112","C112_older_kernels_are_as_strict","c112",r'''(** KillProcess kills the thread, an error number stays, and a violation meant to be logged kills. *)
Example C112_example :
  let fs := [built [StdIO] (Errno 1); built [StdIO; RPath] Log; built [StdIO; RPath; WPath] KillProcess] in
  let both nr := (syscall_entry fs (call nr 0 0 0 0 0), old_syscall_entry fs (call nr 0 0 0 0 0)) in
  stack_of Debug [mkInst 100 101 [StdIO] (Errno 1); mkInst 100 101 [StdIO; RPath] Log;
                  mkInst 100 101 [StdIO; RPath; WPath] KillProcess] fs /\
  both SYS_read = (Proceed, Proceed) /\ both SYS_chdir = (Fake (-1), Fake (-1)) /\
  both SYS_fork = (Kill DeathProcess, Kill DeathThread) /\
  let fs' := [built [StdIO] Log] in
  syscall_entry fs' (call SYS_fork 0 0 0 0 0) = Proceed /\
  old_syscall_entry fs' (call SYS_fork 0 0 0 0 0) = Kill DeathThread.
Proof.
  cbv zeta. split; [repeat constructor; vm_compute; reflexivity|]. repeat split; vm_compute; reflexivity.
Qed.'''),
("C112","C112_foreign_calls_on_older_kernels","c112_foreign",r'''Example C112_foreign_example :
  let d := mkSD 3 0x40000003 0x8048000 0 0 0 0 0 0 in
  wf_data d /\ old_syscall_entry [built [StdIO; Proc] Log; built [] Allow] d = Kill DeathThread.
Proof. cbv zeta. split; [repeat split|]; vm_compute; reflexivity. Qed.'''),
]
CO_=f('PropsCost','C113: exact costs of calls.',['CostFacts'],'CostSpec ')
CO_+=[
("C113","C113_exact_costs","c113",r'''(** ptrace is in no rule; a refused openat costs more, because its flags are looked at. *)
Example C113_example :
  let p := built [StdIO; RPath] Trap in
  let cost d := insns_executed p (repeat 0 16) d in
  unnamed [StdIO; RPath] SYS_ptrace /\ promises_scan [StdIO; RPath] = 141 /\
  cost (call SYS_ptrace 0 0 0 0 0) = 146 /\ cost (call SYS_exit 9 8 7 6 5) = 5 /\
  cost (call SYS_openat 0 0 1 0 0) = 149 /\ ~ granted [StdIO; RPath] 100 101 (call SYS_openat 0 0 1 0 0) /\
  cost (mkSD 3 0x40000003 0 0 0 0 0 0 0) = 3.
Proof.
  cbv zeta. split.
  { intros alts r who p H. exfalso. revert H. cbv [policy]. repeat (intros [H|H]; [discriminate H|revert H]); intros []. }
  split; [vm_compute; reflexivity|]. split; [vm_compute; reflexivity|].
  split; [vm_compute; reflexivity|]. split; [vm_compute; reflexivity|]. split; [|vm_compute; reflexivity].
  intros G. PolicyProofs.row SYS_openat R. rewrite R in G by reflexivity.
  unfold PolicyProofs.promised in G. cbn in G. intuition discriminate.
Qed.'''),
("C113","C113_later_promises_cost_nothing","c113_early",r'''Example C113_later_example :
  let cost ps := insns_executed (built ps Trap) (repeat 0 16) (call SYS_read 0 0 0 0 0) in
  cost [StdIO] = cost [StdIO; RPath; WPath; Proc] /\ cost [StdIO] < cost [RPath; StdIO].
Proof. cbv zeta. split; vm_compute; reflexivity. Qed.'''),
("C113","C113_costs_add","c113_add",r'''(** mmap, refused by StdIO and allowed by ProtExec, and refused by Proc too. *)
Example C113_add_example :
  let cost ps d := insns_executed (built ps Trap) (repeat 0 16) d in
  let exec := call SYS_mmap 0 0 7 0 0 in
  cost [StdIO; ProtExec] exec + 5 = cost [StdIO] exec + cost [ProtExec] exec /\
  cost [StdIO] exec = 130 /\ cost [ProtExec] exec = 9 /\
  cost [StdIO; Proc] exec + 5 = cost [StdIO] exec + cost [Proc] exec /\ cost [Proc] exec = 28.
Proof. cbv zeta. repeat (apply conj); vm_compute; reflexivity. Qed.'''),
("C113","C113_order_costs_a_refused_call_nothing","c113_order",r'''(** An allowed call may cost more in another order. *)
Example C113_order_example :
  let cost ps d := insns_executed (built ps Trap) (repeat 0 16) d in
  cost [StdIO; Proc] (call SYS_kill 5 0 0 0 0) > cost [Proc; StdIO] (call SYS_kill 5 0 0 0 0) /\
  cost [StdIO; Proc] (call SYS_mmap 0 0 7 0 0) = cost [Proc; StdIO] (call SYS_mmap 0 0 7 0 0).
Proof. cbv zeta. repeat (apply conj); vm_compute; reflexivity. Qed.'''),
]
EX_=f('PropsExec','C114: programs run by execve and execveat.',['ExecFacts'],'')
EX_+=[
("C114","C114_program_keeps_the_filters","c114_step",r'''(** Thread 102 of process 100, in the middle of a pledge, runs a program; threads 100 and 101 end. *)
Example C114_example :
  let t1 := mkThread 1 100 102 true false [built [StdIO; Exec] Trap] (Some (PStart [StdIO] Trap)) in
  let t2 := mkThread 2 100 100 true false [] None in
  let t3 := mkThread 3 200 200 false true [] None in
  let exec := call SYS_execve 0 0 0 0 0 in
  wstep Debug (mkWorld [thread0; t1; t2; t3] 4) (OSys 1 exec (mkOracle nobody [] false false 0)) =
    (mkWorld [mkThread 1 100 100 true false [built [StdIO; Exec] Trap] None; t3] 4, [EvCall 1 exec Proceed]).
Proof. vm_compute. reflexivity. Qed.'''),
("C114","C114_failed_program_changes_nothing","c114_refused",r'''Example C114_refused_example :
  let t1 := mkThread 0 100 101 true false [built [StdIO] (Errno 13)] None in
  let t2 := mkThread 1 100 102 true false [] None in
  let exec := call SYS_execveat 0 0 0 0 0 in
  let w := mkWorld [t1; t2] 2 in
  wstep Debug w (OSys 0 exec (mkOracle nobody [] false false 0)) = (w, [EvCall 0 exec (Fake (-13))]) /\
  wstep Debug w (OSys 1 exec (mkOracle nobody [] true false 0)) = (w, [EvCall 1 exec Proceed]).
Proof. cbv zeta. split; vm_compute; reflexivity. Qed.'''),
("C114","C114_programs_need_exec","c114_needs",r'''(** The first program may run another; what it starts is bound by the pledge it makes itself. *)
Example C114_needs_example :
  let w := mkWorld [thread0] 1 in
  let amb := amb0 0%nat in
  let exec := call SYS_execve 0 0 0 0 0 in
  let o := mkOracle nobody [] false false 0 in
  let tr := snd (wrun Debug w (OPledge 0 [StdIO; Exec] (Errno 1) ::
                     repeat (OStep 0 amb) (pledge_length [StdIO; Exec]) ++
                     [OSys 0 exec o; OPledge 0 [StdIO] (Errno 1)] ++
                     repeat (OStep 0 amb) (pledge_length [StdIO]) ++ [OSys 0 exec o])) in
  nth_error tr 4 = Some (EvInstalled 0 100 101 [StdIO; Exec] (Errno 1)) /\
  nth_error tr 6 = Some (EvCall 0 exec Proceed) /\ In Exec [StdIO; Exec] /\
  nth_error tr 11 = Some (EvInstalled 0 100 100 [StdIO] (Errno 1)) /\
  nth_error tr 13 = Some (EvCall 0 exec (Fake (-1))).
Proof. vm_compute. tauto. Qed.'''),
("C114","C114_program_signalling_itself","c114_self",r'''(** Thread 101 of process 100 pledges and runs a program, which then is thread 100. *)
Example C114_self_example :
  let p := built [StdIO; Exec] (Errno 1) in
  let t := mkThread 0 100 101 true false [p] None in
  let exec := call SYS_execve 0 0 0 0 0 in
  let (w', evs) := wstep Debug (mkWorld [t] 1) (OSys 0 exec (mkOracle nobody [] false false 0)) in
  filter_for Debug 100 101 [StdIO; Exec] (Errno 1) p /\ In (EvCall 0 exec Proceed) evs /\
  map t_tid (w_threads w') = [100] /\ map t_filters (w_threads w') = [[p]] /\
  syscall_entry [p] (call SYS_kill 100 6 0 0 0) = Proceed /\
  syscall_entry [p] (call SYS_tkill 100 6 0 0 0) = Fake (-1) /\
  syscall_entry [p] (call SYS_tkill 101 6 0 0 0) = Proceed.
Proof. vm_compute. tauto. Qed.'''),
("C114","C114_pledge_in_progress_is_forgotten","c114_abandoned",r'''(** A signal handler runs a program while the thread is in a pledge: no filter is installed. *)
Example C114_abandoned_example :
  let amb := amb0 0%nat in
  let exec := call SYS_execve 0 0 0 0 0 in
  wrun Debug (mkWorld [thread0] 1)
    (OPledge 0 [] Trap :: repeat (OStep 0 amb) 3 ++ [OSys 0 exec (mkOracle nobody [] false false 0)] ++
     repeat (OStep 0 amb) (pledge_length [])) =
  (mkWorld [mkThread 0 100 100 false false [] None] 1, [EvCall 0 exec Proceed]).
Proof. vm_compute. reflexivity. Qed.'''),
]
EN_=f('PropsEnd','C115: threads and processes that end themselves.',['EndFacts'],'')
EN_+=[
("C115","C115_exit_always_works","c115_exit",r'''(** Under three pledges, none with StdIO. *)
Example C115_exit_example :
  let fs := [built [] KillProcess; built [RPath] (Errno 1); built [WPath] Trap] in
  let t1 := mkThread 0 100 101 true false fs None in
  let t2 := mkThread 1 100 102 true false [] None in
  let exit := call SYS_exit 3 0 0 0 0 in
  wstep Debug (mkWorld [t1; t2] 2) (OSys 0 exit (mkOracle nobody [] true false 0)) =
    (mkWorld [t2] 2, [EvCall 0 exit Proceed]).
Proof. vm_compute. reflexivity. Qed.'''),
("C115","C115_exit_group_needs_stdio","c115_group",r'''Example C115_group_example :
  let t1 := mkThread 0 100 101 true false [built [StdIO] (Errno 1); built [StdIO; RPath] Trap] None in
  let t2 := mkThread 1 100 102 true false [built [RPath] (Errno 1); built [StdIO; RPath] Trap] None in
  let t3 := mkThread 2 200 200 true false [] None in
  let w := mkWorld [t1; t2; t3] 3 in
  let exit := call SYS_exit_group 0 0 0 0 0 in
  let o := mkOracle nobody [] false false 0 in
  stack_of Debug [mkInst 100 101 [StdIO] (Errno 1); mkInst 100 101 [StdIO; RPath] Trap] (t_filters t1) /\
  wstep Debug w (OSys 0 exit o) = (mkWorld [t3] 3, [EvCall 0 exit Proceed]) /\
  wstep Debug w (OSys 1 exit o) = (w, [EvCall 1 exit (Fake (-1))]).
Proof.
  cbv zeta. split; [repeat constructor; vm_compute; reflexivity|]. split; vm_compute; reflexivity.
Qed.'''),
("C115","C115_a_process_can_end_thread_by_thread","c115_all",r'''Example C115_all_example :
  let t1 := mkThread 0 100 101 true false [built [RPath] KillProcess] None in
  let t2 := mkThread 1 100 102 true false [built [] Trap] None in
  let t3 := mkThread 2 200 200 true false [] None in
  let exit := call SYS_exit 0 0 0 0 0 in
  let o := mkOracle nobody [] false false 0 in
  wrun Debug (mkWorld [t1; t2; t3] 3) [OSys 0 exit o; OSys 1 exit o] =
    (mkWorld [t3] 3, [EvCall 0 exit Proceed; EvCall 1 exit Proceed]).
Proof. vm_compute. reflexivity. Qed.'''),
("C115","C115_ended_threads_do_nothing","c115_after",r'''Example C115_after_example :
  let t2 := mkThread 1 100 102 false false [] None in
  let exit := call SYS_exit_group 0 0 0 0 0 in let fork := call SYS_fork 0 0 0 0 0 in
  let o := mkOracle nobody [] false false 300 in
  wrun Debug (mkWorld [thread0; t2] 2) [OSys 1 fork o; OSys 0 exit o; OSys 0 fork o; OSys 1 fork o; OPledge 1 [] Trap;
      OStep 1 (amb0 0%nat); OSys 2 exit o] =
    (mkWorld [] 3, [EvCall 1 fork Proceed; EvSpawn 1 2; EvCall 0 exit Proceed; EvCall 2 exit Proceed]).
Proof. vm_compute. reflexivity. Qed.'''),
]
ST_=f('PropsStrict','C116: seccomp strict mode.',['StrictFacts'],'')
ST_+=[
("C116","C116_what_strict_mode_allows","c116_mode",r'''Example C116_mode_example :
  map (supervised_entry nobody [strict_mode]) [call SYS_write 1 0 0 0 0; call SYS_exit 0 0 0 0 0; call SYS_exit_group 0 0 0 0 0;
    mkSD 4 0x40000003 0 0 0 0 0 0 0; mkSD 0x40000001 AUDIT_ARCH_X86_64 0 0 0 0 0 0 0] =
    [Proceed; Proceed; Kill DeathThread; Proceed; Kill DeathThread] /\
  strict_call (call SYS_write 1 0 0 0 0) /\ ~ strict_call (mkSD 0x40000001 AUDIT_ARCH_X86_64 0 0 0 0 0 0 0).
Proof.
  split; [vm_compute; reflexivity|]. split; [left; split; [reflexivity|right; left; reflexivity]|].
  unfold strict_call. cbn. intuition discriminate.
Qed.'''),
("C116","C116_strict_mode_excluded_by_pledges","c116_enter",r'''(** Asked for by a pledged thread, and by one that is not. *)
Example C116_enter_example :
  let t1 := mkThread 0 100 101 true false [built [StdIO] (Errno 1)] None in
  let t2 := mkThread 1 100 102 false false [] None in
  let w := mkWorld [t1; t2] 2 in
  let strict := call SYS_prctl 22 1 0 0 0 in
  let o := mkOracle nobody [] false false 0 in
  asks_for_strict_mode strict /\
  wstep Debug w (OSys 0 strict o) = (w, [EvCall 0 strict Proceed]) /\
  wstep Debug w (OSys 1 strict o) = (mkWorld [t1; set_filters t2 [strict_mode]] 2, [EvCall 1 strict Proceed]) /\
  wstep Debug w (OSys 1 (call SYS_seccomp 0 0 0 0 0) o) =
    (mkWorld [t1; set_filters t2 [strict_mode]] 2, [EvCall 1 (call SYS_seccomp 0 0 0 0 0) Proceed]).
Proof.
  cbv zeta. split; [left; repeat split|]. repeat split; vm_compute; reflexivity.
Qed.'''),
("C116","C116_pledge_dies_in_strict_mode","c116_dies",r'''Example C116_dies_example :
  pledge_override Debug amb0 (mkThread 0 100 100 false true [strict_mode] None) [StdIO; RPath] (Errno 1) =
    (Died DeathThread, mkThread 0 100 100 false true [strict_mode] None).
Proof. vm_compute. reflexivity. Qed.'''),
("C116","C116_ever_after_in_strict_mode","c116_after",r'''Example C116_after_example :
  let t1 := mkThread 0 100 101 false false [strict_mode] None in
  let t2 := mkThread 1 100 102 false false [] None in
  let o := mkOracle nobody [] false false 300 in
  let write := call SYS_write 1 0 0 0 0 in let fork := call SYS_fork 0 0 0 0 0 in
  wrun Debug (mkWorld [t1; t2] 2) [OSys 0 write o; OSys 1 fork o; OPledge 0 [] Trap; OStep 0 (amb0 0%nat); OSys 0 fork o;
      OStep 0 (amb0 0%nat)] =
    (mkWorld [mkThread 2 300 300 false false [] None; t2] 3,
     [EvCall 0 write Proceed; EvCall 1 fork Proceed; EvSpawn 1 2; EvCall 0 fork (Kill DeathThread)]).
Proof. vm_compute. reflexivity. Qed.'''),
]

CH_=f('PropsChange','C117: what changes a thread.',['ChangeFacts'],'')
CH_+=[
("C117","C117_filters_change_only_on_request","c117_filters",r'''(** A filter for all threads: both have it afterwards, below it the caller's filters. *)
Example C117_filters_example :
  let allow := [SockFilter 6 0 0 0x7fff0000] in
  let t1 := mkThread 0 100 101 true false [allow] None in
  let t2 := mkThread 1 100 102 false false [] None in
  let d := call SYS_seccomp 1 1 4096 0 0 in
  wstep Debug (mkWorld [t1; t2] 2) (OSys 0 d (mkOracle nobody allow false false 0)) =
    (mkWorld [mkThread 0 100 101 true false [allow; allow] None; mkThread 1 100 102 true false [allow; allow] None] 2,
     [EvCall 0 d Proceed]) /\
  asks_for_filter d /\ asks_for_all_threads d.
Proof. cbv zeta. split; [vm_compute; reflexivity|]. split; [right; split; reflexivity|split; reflexivity]. Qed.'''),
("C117","C117_no_new_privs_is_set_only_on_request","c117_nnp",r'''(** The first of a pledge's two prctls. *)
Example C117_nnp_example :
  let t := mkThread 0 100 100 false false [] (Some (PNnp [] Trap [])) in
  let d := call_set_nnp (amb0 0%nat) in
  wstep Debug (mkWorld [t] 1) (OStep 0 (amb0 0%nat)) =
    (mkWorld [mkThread 0 100 100 true false [] (Some (PLoad [] Trap []))] 1, [EvCall 0 d Proceed]) /\
  asks_for_no_new_privs d.
Proof. cbv zeta. split; [vm_compute; reflexivity|repeat split]. Qed.'''),
("C117","C117_ids_and_capabilities","c117_ids",r'''(** A second thread runs a program: it takes the id of the process. *)
Example C117_ids_example :
  let t1 := mkThread 0 100 100 false false [] None in
  let t2 := mkThread 1 100 102 false false [] None in
  let d := call SYS_execve 4096 0 0 0 0 in
  wstep Debug (mkWorld [t1; t2] 2) (OSys 1 d (mkOracle nobody [] false false 0)) =
    (mkWorld [mkThread 1 100 100 false false [] None] 2, [EvCall 1 d Proceed]) /\
  wstep Debug (mkWorld [t1; t2] 2) (OCap 0 true) = (mkWorld [mkThread 0 100 100 false true [] None; t2] 2, []).
Proof. split; vm_compute; reflexivity. Qed.'''),
]

AC_=f('PropsAccept','C118: exactly which filters the kernel accepts.',['AcceptFacts'],'AsmSpec ')
AC_+=[
("C118","C118_exactly_the_filters_the_kernel_accepts","c118_exact",r'''(** Both ways through the first program store to cell 3 before it is loaded; through the second
    only one does; the third stores to it, but behind a return. In the fourth the load cannot be
    reached other than past a return. *)
Example C118_exact_example :
  let load := SockFilter 0x20 0 0 0 in let store k := SockFilter 0x02 0 0 k in
  let get k := SockFilter 0x60 0 0 k in let ret := SockFilter 0x16 0 0 0 in
  kernel_accepts [load; SockFilter 0x15 0 2 59; store 3; SockFilter 0x05 0 0 1; store 3; get 3; ret] = true /\
  kernel_accepts [load; SockFilter 0x15 0 2 59; store 3; SockFilter 0x05 0 0 1; store 2; get 3; ret] = false /\
  kernel_accepts [load; SockFilter 0x15 0 1 59; ret; store 3; get 3; ret] = true /\
  kernel_accepts [load; ret; get 3; ret] = false /\
  kernel_accepts [load; store 15; get 15; ret] = true /\
  kernel_accepts [load; store 16; get 16; ret] = false /\
  kernel_accepts [load; SockFilter 0x15 0 1 59; ret] = false /\
  kernel_accepts (repeat ret 4096) = true /\
  kernel_accepts (repeat ret 4097) = false /\
  kernel_accepts [ret; load] = false.
Proof. repeat split; vm_compute; reflexivity. Qed.'''),
("C118","C118_stale_scratch_cells_do_not_matter","c118_scratch",r'''(** A load of a cell that was stored, and, refused, one of a cell that was not. *)
Example C118_scratch_example :
  let d := call 59 0 0 0 0 0 in
  let prog k := [SockFilter 0x20 0 0 0; SockFilter 0x02 0 0 3; SockFilter 0x60 0 0 k; SockFilter 0x16 0 0 0] in
  kernel_accepts (prog 3) = true /\
  kernel_eval_mem (repeat 7 16) (prog 3) d = 59 /\ kernel_eval_mem (repeat 0 16) (prog 3) d = 59 /\
  kernel_accepts (prog 4) = false /\
  kernel_eval_mem (repeat 7 16) (prog 4) d = 7 /\ kernel_eval_mem (repeat 0 16) (prog 4) d = 0.
Proof. repeat split; vm_compute; reflexivity. Qed.'''),
("C118","C118_accepted_filters_end","c118_ends",r'''(** A division by the index register, which is zero. *)
Example C118_ends_example :
  let prog := [SockFilter 0x20 0 0 0; SockFilter 0x3c 0 0 0; SockFilter 0x06 0 0 0x7fff0000] in
  kernel_accepts prog = true /\
  ktrace prog 0 0 0 (repeat 0 16) (sd_words (call 59 0 0 0 0 0)) = [SockFilter 0x20 0 0 0; SockFilter 0x3c 0 0 0] /\
  kernel_eval prog (call 59 0 0 0 0 0) = 0.
Proof. repeat split; vm_compute; reflexivity. Qed.'''),
("C118","C118_exactly_the_operations_the_kernel_loads","c118_operations",r'''(** A store with mode MEM, which the virtual machine runs like one with any mode, and with IMM; a
    product with the accumulator, which has the code of a division by a constant. *)
Example C118_operations_example :
  let code op := match to_sock_filter Debug 0 op [] with Ok f => sf_code f | _ => 0 end in
  code (Store MEM 3) = 0x62 /\ ~ loadable_op (Store MEM 3) /\ code (Store IMM 3) = 0x02 /\ loadable_op (Store IMM 3) /\
  code (Alu MUL Acc 0) = 0x34 /\ ~ loadable_op (Alu MUL Acc 0) /\ code (Alu DIV Const 0) = 0x34 /\
  code (Return Idx 0) = 0x0e /\ ~ loadable_op (Return Idx 0).
Proof. cbn -[N.lt]. repeat split; try reflexivity; try (intros []; fail). intros H. exact (H eq_refl). Qed.'''),
("C118","C118_exactly_the_programs_the_kernel_loads","c118_assembled",r'''(** A label behind the last return is no instruction: nothing may jump there. *)
Example C118_assembled_example :
  let accepts p := match compile Debug p with Ok c => kernel_accepts c | _ => false end in
  accepts [Load ABS 0; Jump JEQ 59 (Some "yes") None; Return Const 0; Label "yes"; Return Const 0x7fff0000; Label "end"]%string = true /\
  accepts [Load ABS 0; Jump JEQ 59 (Some "end") None; Return Const 0; Label "yes"; Return Const 0x7fff0000; Label "end"]%string = false /\
  accepts [Load ABS 60; Return Acc 0]%string = true /\ accepts [Load ABS 64; Return Acc 0]%string = false /\
  accepts [Load ABS 62; Return Acc 0]%string = false /\ accepts [Load IND 0; Return Acc 0]%string = false.
Proof. repeat split; vm_compute; reflexivity. Qed.'''),
]

UN_=f('PropsUnnoticed','C119: a pledge that is kept is not noticed.',['UnnoticedFacts'],'')
UN_+=[
("C119","C119_filters_act_only_by_what_they_answer","c119_answers",r'''(** A thread without filters and one with a filter that refuses open (with EPERM): a fork and an
    exit of the child come out the same. An open does not. *)
Example C119_answers_example :
  let no_open := [SockFilter 0x20 0 0 0; SockFilter 0x15 0 1 SYS_open; SockFilter 6 0 0 0x50001; SockFilter 6 0 0 0x7fff0000] in
  let w fs := mkWorld [mkThread 0 100 100 false false fs None] 1 in
  let o := mkOracle nobody [] false false 300 in
  let fork := call SYS_fork 0 0 0 0 0 in let exit := call SYS_exit 0 0 0 0 0 in let open := call SYS_open 4096 0 0 0 0 in
  alike_worlds (w []) (w [no_open]) /\
  wrun Debug (w []) [OSys 0 fork o; OSys 1 exit o] = (mkWorld [mkThread 0 100 100 false false [] None] 2,
    [EvCall 0 fork Proceed; EvSpawn 0 1; EvCall 1 exit Proceed]) /\
  wrun Debug (w [no_open]) [OSys 0 fork o; OSys 1 exit o] = (mkWorld [mkThread 0 100 100 false false [no_open] None] 2,
    [EvCall 0 fork Proceed; EvSpawn 0 1; EvCall 1 exit Proceed]) /\
  snd (wrun Debug (w []) [OSys 0 open o]) = [EvCall 0 open Proceed] /\
  snd (wrun Debug (w [no_open]) [OSys 0 open o]) = [EvCall 0 open (Fake (-1))].
Proof. cbv zeta. split; [split; [reflexivity|repeat constructor]|]. repeat split; vm_compute; reflexivity. Qed.'''),
("C119","C119_a_pledge_that_is_kept_is_not_noticed","c119_unnoticed",r'''(** Under a pledge of StdIO and Proc a fork, a write of the child and its exit come out as without
    it; under one of StdIO the fork ends the process. *)
Example C119_unnoticed_example :
  let filter ps := match promises_to_prog Debug (mkEnv (Ok 100) (Ok 100)) ps KillProcess with Ok p => p | _ => [] end in
  let w fs := mkWorld [mkThread 0 100 100 true false fs None] 1 in
  let o := mkOracle nobody [] false false 300 in
  let fork := call SYS_fork 0 0 0 0 0 in let write := call SYS_write 1 4096 5 0 0 in let exit := call SYS_exit 0 0 0 0 0 in
  let ops := [OSys 0 fork o; OSys 1 write o; OSys 1 exit o] in
  let evs := [EvCall 0 fork Proceed; EvSpawn 0 1; EvCall 1 write Proceed; EvCall 1 exit Proceed] in
  snd (wrun Debug (w []) ops) = evs /\ snd (wrun Debug (w [filter [StdIO; Proc]]) ops) = evs /\
  snd (wrun Debug (w [filter [StdIO]]) ops) = [EvCall 0 fork (Kill DeathProcess)].
Proof. repeat split; vm_compute; reflexivity. Qed.'''),
("C119","C119_refused_calls_leave_no_trace","c119_refused",r'''(** The open that is refused might as well not have been made. *)
Example C119_refused_example :
  let no_open := [SockFilter 0x20 0 0 0; SockFilter 0x15 0 1 SYS_open; SockFilter 6 0 0 0x50001; SockFilter 6 0 0 0x7fff0000] in
  let w := mkWorld [mkThread 0 100 100 false false [no_open] None] 1 in
  let o := mkOracle nobody [] false false 300 in
  let fork := call SYS_fork 0 0 0 0 0 in let exit := call SYS_exit 0 0 0 0 0 in let open := call SYS_open 4096 0 0 0 0 in
  wrun Debug w [OSys 0 fork o; OSys 1 open o; OSys 1 exit o] = (mkWorld [mkThread 0 100 100 false false [no_open] None] 2,
    [EvCall 0 fork Proceed; EvSpawn 0 1; EvCall 1 open (Fake (-1)); EvCall 1 exit Proceed]) /\
  wrun Debug w [OSys 0 fork o; OSys 1 exit o] = (mkWorld [mkThread 0 100 100 false false [no_open] None] 2,
    [EvCall 0 fork Proceed; EvSpawn 0 1; EvCall 1 exit Proceed]).
Proof. split; vm_compute; reflexivity. Qed.'''),
]

AP_=f('PropsApart','C120: processes do not influence each other.',['ApartFacts','RenameFacts'],'RenameSpec ')
AP_+=[
("C120","C120_other_processes_change_nothing","c120_others",r'''(** A process installs a filter for all its threads, and ends. *)
Example C120_others_example :
  let allow := [SockFilter 6 0 0 0x7fff0000] in
  let t1 := mkThread 0 100 100 false false [] None in let t2 := mkThread 1 100 101 false false [] None in
  let t3 := mkThread 2 200 200 true false [] None in
  let o := mkOracle nobody allow false false 300 in
  let w := mkWorld [t1; t2; t3] 3 in
  acts_in 100 w (OSys 2 (call SYS_seccomp 1 1 4096 0 0) o) = false /\
  fst (wstep Debug w (OSys 2 (call SYS_seccomp 1 1 4096 0 0) o)) = mkWorld [t1; t2; mkThread 2 200 200 true false [allow] None] 3 /\
  fst (wstep Debug w (OSys 2 (call SYS_exit_group 0 0 0 0 0) o)) = mkWorld [t1; t2] 3 /\
  fst (wstep Debug w (OSys 1 (call SYS_exit_group 0 0 0 0 0) o)) = mkWorld [t3] 3.
Proof. repeat split; vm_compute; reflexivity. Qed.'''),
("C120","C120_own_steps_depend_on_the_process_alone","c120_own",r'''(** A fork of the third thread, beside the two others and alone. *)
Example C120_own_example :
  let allow := [SockFilter 6 0 0 0x7fff0000] in
  let t1 := mkThread 0 100 100 false false [] None in let t2 := mkThread 1 100 101 false false [] None in
  let t3 := mkThread 2 200 200 true false [] None in
  let o := mkOracle nobody allow false false 300 in
  let fork := call SYS_fork 0 0 0 0 0 in
  let child := mkThread 3 300 300 true false [] None in
  threads_of 200 (mkWorld [t3] 3) = threads_of 200 (mkWorld [t1; t2; t3] 3) /\
  wstep Debug (mkWorld [t1; t2; t3] 3) (OSys 2 fork o) = (mkWorld [child; t1; t2; t3] 4, [EvCall 2 fork Proceed; EvSpawn 2 3]) /\
  wstep Debug (mkWorld [t3] 3) (OSys 2 fork o) = (mkWorld [child; t3] 4, [EvCall 2 fork Proceed; EvSpawn 2 3]).
Proof. repeat split; vm_compute; reflexivity. Qed.'''),
("C120","C120_a_process_runs_as_if_alone","c120_history",r'''(** While the first process creates a thread and one of its threads exits, the other makes a call and
    ends: alone the first does the same. *)
Example C120_history_example :
  let allow := [SockFilter 6 0 0 0x7fff0000] in
  let t1 := mkThread 0 100 100 false false [] None in let t2 := mkThread 1 100 101 false false [] None in
  let t3 := mkThread 2 200 200 true false [] None in
  let o := mkOracle nobody allow false false 300 in
  let thread := call SYS_clone CLONE_THREAD 0 0 0 0 in let exit := call SYS_exit 0 0 0 0 0 in
  let getpid := call SYS_getpid 0 0 0 0 0 in let leave := call SYS_exit_group 0 0 0 0 0 in
  let ops := [OSys 2 getpid o; OSys 0 thread o; OSys 2 leave o; OSys 1 exit o; OSys 2 getpid o] in
  let t4 := mkThread 3 100 300 false false [] None in
  choices_of Debug 100 (mkWorld [t1; t2; t3] 3) ops = [OSys 0 thread o; OSys 1 exit o] /\
  wrun Debug (mkWorld [t1; t2; t3] 3) ops = (mkWorld [t4; t1] 4,
    [EvCall 2 getpid Proceed; EvCall 0 thread Proceed; EvSpawn 0 3; EvCall 2 leave Proceed; EvCall 1 exit Proceed]) /\
  wrun Debug (mkWorld [t1; t2] 3) [OSys 0 thread o; OSys 1 exit o] = (mkWorld [t4; t1] 4,
    [EvCall 0 thread Proceed; EvSpawn 0 3; EvCall 1 exit Proceed]).
Proof. repeat split; vm_compute; reflexivity. Qed.'''),
("C120","C120_a_process_runs_as_if_alone_whatever_others_create","c120_renamed",r'''(** The other process forks first, so that the thread the first one creates is number 4 instead of 3. *)
Example C120_renamed_example :
  let t1 := mkThread 0 100 100 false false [] None in let t2 := mkThread 1 100 101 false false [] None in
  let t3 := mkThread 2 200 200 true false [] None in
  let o n := mkOracle nobody [] false false n in
  let thread := call SYS_clone CLONE_THREAD 0 0 0 0 in let fork := call SYS_fork 0 0 0 0 0 in
  let getpid := call SYS_getpid 0 0 0 0 0 in
  let ops := [OSys 2 fork (o 300); OSys 0 thread (o 102); OSys 3 getpid (o 0); OSys 4 getpid (o 0)] in
  let f n := if Nat.eqb n 4 then 3%nat else n in
  let own := [OSys 0 thread (o 102); OSys 4 getpid (o 0)] in
  choices_of Debug 100 (mkWorld [t1; t2; t3] 3) ops = own /\
  map (named_op f) own = [OSys 0 thread (o 102); OSys 3 getpid (o 0)] /\
  wrun Debug (mkWorld [t1; t2; t3] 3) ops =
    (mkWorld [mkThread 4 100 102 false false [] None; mkThread 3 300 300 true false [] None; t1; t2; t3] 5,
    [EvCall 2 fork Proceed; EvSpawn 2 3; EvCall 0 thread Proceed; EvSpawn 0 4; EvCall 3 getpid Proceed; EvCall 4 getpid Proceed]) /\
  wrun Debug (mkWorld [t1; t2] 3) (map (named_op f) own) = (mkWorld [mkThread 3 100 102 false false [] None; t1; t2] 4,
    [EvCall 0 thread Proceed; EvSpawn 0 3; EvCall 3 getpid Proceed]) /\
  map (named_event f) [EvCall 0 thread Proceed; EvSpawn 0 4; EvCall 4 getpid Proceed] =
    [EvCall 0 thread Proceed; EvSpawn 0 3; EvCall 3 getpid Proceed].
Proof. cbv zeta. repeat (apply conj); vm_compute; reflexivity. Qed.'''),
]

IN_=f('PropsInterleave','C121: the order in which processes take their steps does not matter.',['InterleaveFacts'],'')
IN_+=[
("C121","C121_steps_of_different_processes_commute","c121_commute",r'''(** One process runs a program, the other sets no_new_privs.  Steps of one process do not commute: a thread
    that another ended does nothing. *)
Example C121_commute_example :
  let allow := [SockFilter 6 0 0 0x7fff0000] in
  let t1 := mkThread 0 100 100 false false [] None in let t2 := mkThread 1 100 101 false false [] None in
  let t3 := mkThread 2 200 200 true false [] None in
  let o := mkOracle nobody allow false false 300 in
  let exec := call SYS_execve 0 0 0 0 0 in let nnp := call SYS_prctl 38 1 0 0 0 in let leave := call SYS_exit_group 0 0 0 0 0 in
  let w := mkWorld [t1; t2; t3] 3 in
  let w' := mkWorld [mkThread 1 100 100 false false [] None; t3] 3 in
  wrun Debug w [OSys 1 exec o; OSys 2 nnp o] = (w', [EvCall 1 exec Proceed; EvCall 2 nnp Proceed]) /\
  wrun Debug w [OSys 2 nnp o; OSys 1 exec o] = (w', [EvCall 2 nnp Proceed; EvCall 1 exec Proceed]) /\
  wrun Debug w [OSys 1 exec o; OSys 0 nnp o] = (w', [EvCall 1 exec Proceed]) /\
  wrun Debug w [OSys 0 nnp o; OSys 1 exec o] = (w', [EvCall 0 nnp Proceed; EvCall 1 exec Proceed]).
Proof. repeat split; vm_compute; reflexivity. Qed.'''),
("C121","C121_interleaving_does_not_matter","c121_histories",r'''(** Two interleavings of two calls each. *)
Example C121_histories_example :
  let allow := [SockFilter 6 0 0 0x7fff0000] in
  let t1 := mkThread 0 100 100 false false [] None in let t2 := mkThread 1 100 101 false false [] None in
  let t3 := mkThread 2 200 200 true false [] None in
  let o := mkOracle nobody allow false false 300 in
  let w := mkWorld [t1; t2; t3] 3 in
  let a := OSys 0 (call SYS_prctl 38 1 0 0 0) o in let b := OSys 1 (call SYS_exit 0 0 0 0 0) o in
  let c := OSys 2 (call SYS_seccomp 1 0 4096 0 0) o in let d := OSys 2 (call SYS_getpid 0 0 0 0 0) o in
  (forall p, choices_of Debug p w [c; a; d; b] = choices_of Debug p w [a; b; c; d]) /\
  fst (wrun Debug w [c; a; d; b]) = mkWorld [mkThread 0 100 100 true false [] None; mkThread 2 200 200 true false [allow] None] 3.
Proof.
  cbv zeta. split; [|vm_compute; reflexivity]. intros p. cbn [choices_of].
  repeat match goal with |- context [fst (wstep Debug ?w ?o)] =>
    let v := eval vm_compute in (fst (wstep Debug w o)) in
    replace (fst (wstep Debug w o)) with v by (vm_compute; reflexivity) end.
  unfold acts_in, threads_of. cbn [w_threads filter t_pid].
  destruct (N.eqb_spec 100 p); destruct (N.eqb_spec 200 p); subst; try discriminate; reflexivity.
Qed.'''),
]

CM_=f('PropsCommute','C122: steps of different threads commute.',['CommuteFacts'],'CommuteSpec ')
CM_+=[
("C122","C122_steps_of_threads_commute","c122_commute",r'''(** Two threads of one process install a filter and begin a pledge.  Running a program, or TSYNC, does not
    commute with what the other thread does. *)
Example C122_commute_example :
  let allow := [SockFilter 6 0 0 0x7fff0000] in
  let t1 := mkThread 0 100 100 true false [] None in let t2 := mkThread 1 100 101 true false [] None in
  let o := mkOracle nobody allow false false 300 in
  let w := mkWorld [t1; t2] 2 in
  let a := OSys 0 (call SYS_seccomp 1 0 4096 0 0) o in let b := OPledge 1 [StdIO] Trap in
  let w' := mkWorld [mkThread 0 100 100 true false [allow] None; mkThread 1 100 101 true false [] (Some (PStart [StdIO] Trap))] 2 in
  fst (wrun Debug w [a; b]) = w' /\ fst (wrun Debug w [b; a]) = w' /\
  let a' := OSys 0 (call SYS_seccomp 1 1 4096 0 0) o in let b' := OSys 1 (call SYS_seccomp 1 0 4096 0 0) o in
  length (t_filters (hd t1 (w_threads (fst (wrun Debug w [a'; b']))))) = 1%nat /\
  fst (wrun Debug w [b'; a']) = mkWorld [t1; mkThread 1 100 101 true false [allow] None] 2.
Proof. repeat split; vm_compute; reflexivity. Qed.'''),
("C122","C122_which_steps_keep_to_themselves","c122_keeps",r'''(** A call killing its thread, and one killing the process. *)
Example C122_keeps_example :
  let allow := [SockFilter 6 0 0 0x7fff0000] in
  let t1 := mkThread 0 100 100 true false [] None in let t2 := mkThread 1 100 101 true false [] None in
  let o := mkOracle nobody allow false false 300 in
  let w k := mkWorld [mkThread 0 100 100 true false [[SockFilter 6 0 0 k]] None; t2] 2 in
  let c := call SYS_getpid 0 0 0 0 0 in
  wstep Debug (w 0) (OSys 0 c o) = (mkWorld [t2] 2, [EvCall 0 c (Kill DeathThread)]) /\
  keeps_to_itself Debug (w 0) (OSys 0 c o) /\
  wstep Debug (w 0x80000000) (OSys 0 c o) = (mkWorld [] 2, [EvCall 0 c (Kill DeathProcess)]) /\
  ~ keeps_to_itself Debug (w 0x80000000) (OSys 0 c o).
Proof.
  cbv zeta. split; [vm_compute; reflexivity|]. split.
  { apply C122_which_steps_keep_to_themselves; [| |reflexivity|].
    - repeat constructor; cbn; intuition discriminate.
    - repeat constructor.
    - intros ev I. vm_compute in I. destruct I as [<-|[]]. exact I. }
  split; [vm_compute; reflexivity|]. intros K.
  apply (K (mkThread 1 100 101 true false [] None)); [discriminate|right; left; reflexivity].
Qed.'''),
]

WH_=f('PropsWhole','C123: a process all of whose threads have pledged.',['WholeFacts'],'')
WH_+=[
("C123","C123_process_of_pledged_threads_is_confined","c123",r'''(** Two threads of a process, pledging one after the other, no longer call ptrace. *)
Example C123_example :
  let amb := mkAmb 0 0 0 0 0 0 0 nobody false 0 in let o := mkOracle nobody [] false false 0 in
  let pledge u ps := OPledge u ps KillProcess :: repeat (OStep u amb) (pledge_length ps) in
  let w1 := fst (wrun Debug two_threads (pledge 0%nat [] ++ pledge 1%nat [RPath])) in
  let tr1 := snd (wrun Debug two_threads (pledge 0%nat [] ++ pledge 1%nat [RPath])) in
  filter (fun ev => match ev with EvInstalled _ _ _ _ _ => true | _ => false end) tr1 =
    [EvInstalled 0 100 100 [] KillProcess; EvInstalled 1 100 101 [RPath] KillProcess] /\
  map t_uid (w_threads w1) = [0; 1]%nat /\
  snd (wstep Debug w1 (OSys 0 ptrace_call o)) = [EvCall 0 ptrace_call (Kill DeathProcess)] /\
  snd (wstep Debug w1 (OSys 1 ptrace_call o)) = [EvCall 1 ptrace_call (Kill DeathProcess)] /\
  snd (wstep Debug w1 (OSys 1 (call SYS_access 0 0 0 0 0) o)) = [EvCall 1 (call SYS_access 0 0 0 0 0) Proceed].
Proof. cbv zeta. repeat (apply conj); vm_compute; reflexivity. Qed.'''),
]


TK_=f('PropsToken','C124: when two programs compile to the same code; C05.',['TokenFacts'],'AsmSpec TokenSpec ')
TK_+=[
("C124","C124_when_two_programs_compile_to_the_same_code","c124",r'''(** An addition of the accumulator is written like a subtraction, a jump by a number like one to a label;
    a conditional jump is not. *)
Example C124_example :
  let p1 := [Label "a"; Alu ADD Acc 3; Jump JA 1 None None; Load IMM 7; Return Acc 0]%string in
  let p2 := [Alu SUB Const 3; JumpTo "b"; Load IMM 7; Label "b"; Return Acc 0]%string in
  let p3 := [Alu SUB Const 3; Jump JEQ 1 None None; Load IMM 7; Return Acc 0]%string in
  (forall prof, compile prof p1 = compile prof p2) /\
  compile Debug p1 = Ok [SockFilter 0x14 0 0 3; SockFilter 0x05 0 0 1; SockFilter 0x00 0 0 7; SockFilter 0x16 0 0 0] /\
  compile Debug p3 = Ok [SockFilter 0x14 0 0 3; SockFilter 0x15 0 0 1; SockFilter 0x00 0 0 7; SockFilter 0x16 0 0 0] /\
  without_labels p2 = [Alu SUB Const 3; JumpTo "b"; Load IMM 7; Return Acc 0]%string /\
  written_alike Debug p1 p2 0 (Alu ADD Acc 3) (Alu SUB Const 3) /\
  written_alike Debug p1 p2 1 (Jump JA 1 None None) (JumpTo "b"%string) /\
  ~ written_alike Debug p3 p2 1 (Jump JEQ 1 None None) (JumpTo "b"%string) /\
  ~ written_alike Debug p1 p2 0 (Alu ADD Const 3) (Alu SUB Const 3).
Proof.
  cbv zeta. split; [intros []; reflexivity|]. split; [reflexivity|]. split; [reflexivity|]. split; [reflexivity|].
  split; [reflexivity|]. split; [|split; [intros [H _]; discriminate|discriminate]].
  repeat (split; [reflexivity|]). exists 3. split; [reflexivity|]. split; [reflexivity|]. intros _. reflexivity.
Qed.'''),
("C05","C05_jumps_keep_their_meaning","c05_jumps",r'''(** A comparison that jumps over one instruction if it holds, and over two if not. *)
Example C05_jumps_example :
  let prog := [Load ABS 0; Jump JGT 7 (Some "a") (Some "b"); Load IMM 1; Label "a"; Load IMM 2; Label "b"; Return Acc 0]%string in
  let f := SockFilter 0x25 1 2 7 in
  let vm acc := mkVM 2 acc 0 (repeat 0 16) [] in
  compile Debug prog = Ok [SockFilter 0x20 0 0 0; f; SockFilter 0x00 0 0 1; SockFilter 0x00 0 0 2; SockFilter 0x16 0 0 0] /\
  vm_pc (snd (exec_insn Debug f (vm 8) [])) = 3 /\ vm_pc (snd (exec_insn Debug f (vm 7) [])) = 4.
Proof. cbv zeta. repeat (apply conj); vm_compute; reflexivity. Qed.'''),
]

CH_=f('PropsCache','C125: pledges and the action cache of the kernel.',['CacheFacts'],'KernelCache CacheSpec ')
CH_+=[
("C125","C125_the_action_cache_changes_no_decision","c125",r'''(** exit is answered from the cache, a call that the filter refuses is not. *)
Example C125_example :
  let filter ps := match promises_to_prog Debug (mkEnv (Ok 100) (Ok 100)) ps KillProcess with Ok p => p | _ => [] end in
  let maps := [(X86_64, 440); (0x40000003, 440)] in
  let call nr a2 := mkSD nr X86_64 0 0 0 a2 0 0 0 in
  cached maps [filter [StdIO]] (call SYS_exit 5) = true /\
  cached maps [filter [StdIO]] (call SYS_mprotect 1) = false /\
  run_filters_cached maps [filter [StdIO]] (call SYS_exit 5) = 0x7fff0000 /\
  run_filters_cached maps [filter [StdIO]] (call SYS_mprotect 1) = 0x7fff0000 /\
  run_filters_cached maps [filter [StdIO]] (call SYS_mprotect 4) = 0x80000000 /\
  run_filters_cached maps [filter [StdIO]] (call SYS_ptrace 1) = 0x80000000.
Proof. cbv zeta. repeat (apply conj); vm_compute; reflexivity. Qed.'''),
("C125","C125_what_is_cached_under_a_pledge","c125_pledge",r'''(** With ProtExec before StdIO, mprotect is answered from the cache; with StdIO first it is not, though both
    orders grant it with any arguments. *)
Example C125_pledge_example :
  let filter ps := match promises_to_prog Debug (mkEnv (Ok 100) (Ok 100)) ps KillProcess with Ok p => p | _ => [] end in
  let any := mkSD SYS_mprotect X86_64 0 0 0 4 0 0 0 in
  cache_bit [filter [ProtExec; StdIO]] SYS_mprotect X86_64 = true /\
  cache_bit [filter [StdIO; ProtExec]] SYS_mprotect X86_64 = false /\
  cache_bit [filter [StdIO]; filter [ProtExec; StdIO]] SYS_mprotect X86_64 = false /\
  cache_bit [filter [ProtExec; StdIO]] SYS_mprotect 0x40000003 = false /\
  run_filters [filter [ProtExec; StdIO]] any = 0x7fff0000 /\
  run_filters [filter [StdIO; ProtExec]] any = 0x7fff0000.
Proof. cbv zeta. repeat (apply conj); vm_compute; reflexivity. Qed.'''),
("C125","C125_which_allowed_calls_are_cached","c125_which",r'''(** read is cached as soon as it is allowed; fcntl(F_GETFD), though allowed, is not; mprotect is neither kind. *)
Example C125_which_example :
  let f := built [StdIO] Trap in
  filter_for Debug 100 101 [StdIO] Trap f /\ native (call SYS_read 0 0x7000 10 0 0) /\
  proceeds f (call SYS_read 0 0x7000 10 0 0) /\ cache_bit [f] SYS_read X86_64 = true /\
  ~ proceeds f (call SYS_rename 0x7000 0x7100 0 0 0) /\ cache_bit [f] SYS_rename X86_64 = false /\
  proceeds f (call SYS_fcntl 0 1 0 0 0) /\ cache_bit [f] SYS_fcntl X86_64 = false /\
  proceeds f (call SYS_mprotect 0x7000 4096 1 0 0) /\ cache_bit [f] SYS_mprotect X86_64 = false.
Proof. cbv zeta. unfold proceeds. concrete. Qed.'''),
("C125","C125_StdIO_last_is_the_best_order","c125_best",r'''(** With StdIO last, mprotect, sendto and kill are all cached. *)
Example C125_best_example :
  let ps := [ProtExec; Inet; Proc; StdIO] in
  let f := built ps Trap in
  (forall before p after, ps = before ++ p :: after -> In StdIO before -> p = StdIO) /\
  map (fun nr => cache_bit [f] nr X86_64) [SYS_mprotect; SYS_sendto; SYS_kill; SYS_prlimit64; SYS_read; SYS_mmap; SYS_tkill] =
    [true; true; true; true; true; false; true] /\
  map (fun nr => cache_bit [built [StdIO; ProtExec; Inet; Proc] Trap] nr X86_64)
      [SYS_mprotect; SYS_sendto; SYS_kill; SYS_prlimit64; SYS_read; SYS_mmap; SYS_tkill] =
    [false; false; false; false; true; false; false].
Proof.
  cbv zeta. split; [|split; vm_compute; reflexivity].
  intros before p after E H.
  destruct before as [|? before]; [destruct H|]. injection E as <- E. destruct H as [H|H]; [discriminate|].
  destruct before as [|? before]; [destruct H|]. injection E as <- E. destruct H as [H|H]; [discriminate|].
  destruct before as [|? before]; [destruct H|]. injection E as <- E. destruct H as [H|H]; [discriminate|].
  destruct before as [|? before]; [destruct H|]. injection E as <- E. destruct before; discriminate.
Qed.'''),
("C125","C125_what_is_cached_is_granted","c125_granted",r'''(** exit is granted by any pledge. *)
Example C125_granted_example : forall ps pid tid, granted ps pid tid (mkSD SYS_exit X86_64 0 7 0 0 0 0 0).
Proof.
  intros ps pid tid. apply C125_what_is_cached_is_granted. exists [], Default, ps. split; [reflexivity|].
  split; [|intros q []]. exists [(AnyArgs, [Default])], [Default].
  split; [|split; left; reflexivity].
  change (In (SYS_exit, [(AnyArgs, [Default])]) policy). unfold policy. repeat (first [left; reflexivity | right]).
Qed.'''),
]

SK_=f('PropsSock','C126, C127: exactly which network, task and limit calls are allowed.',['SockFacts'],'')
SK_+=[
("C126","C126_exactly_which_network_calls_are_allowed","c126",r'''(** An Inet pledge can make a nonblocking TCP socket and read its error, but neither a raw one nor set an option. *)
Example C126_example :
  let f := built [Inet] Trap in
  filter_for Debug 100 101 [Inet] Trap f /\ native (call SYS_socket 2 0x801 6 0 0) /\
  proceeds f (call SYS_socket 2 0x801 6 0 0) /\ ~ proceeds f (call SYS_socket 2 3 1 0 0) /\
  ~ proceeds f (call SYS_socket 1 1 0 0 0) /\ ~ proceeds f (call SYS_socket 2 0x1801 6 0 0) /\
  proceeds f (call SYS_getsockopt 3 1 4 0x7000 0x7004) /\ ~ proceeds f (call SYS_getsockopt 3 1 7 0x7000 0x7004) /\
  ~ proceeds f (call SYS_setsockopt 3 1 2 0x7000 4).
Proof. cbv zeta. unfold proceeds. concrete. Qed.
Example C126_example_stdio :
  let f := built [StdIO] Trap in
  filter_for Debug 100 101 [StdIO] Trap f /\ proceeds f (call SYS_sendto 3 0x7000 10 0 0) /\
  ~ proceeds f (call SYS_sendto 3 0x7000 10 0 0x8000) /\ ~ proceeds f (call SYS_sendto 3 0x7000 10 0 (2 ^ 32)) /\
  proceeds f (call SYS_recvfrom 3 0x7000 10 0 0x8000) /\ ~ proceeds f (call SYS_recvmsg 3 0x7000 0 0 0).
Proof. cbv zeta. unfold proceeds. concrete. Qed.'''),
("C127","C127_exactly_which_task_and_limit_calls_are_allowed","c127",r'''(** Under StdIO, the flags with which threads are created (0x3d0f00) and reading limits, but not fork; the check of
    prlimit sees only the lower half of the pointer. *)
Example C127_example :
  let f := built [StdIO] Trap in
  filter_for Debug 100 101 [StdIO] Trap f /\ native (call SYS_clone 0x3d0f00 0x7000 0 0 0) /\
  proceeds f (call SYS_clone 0x3d0f00 0x7000 0 0 0) /\ ~ proceeds f (call SYS_clone 0x1200011 0 0 0 0) /\
  ~ proceeds f (call SYS_clone 0x3d2f00 0x7000 0 0 0) /\ ~ proceeds f (call SYS_fork 0 0 0 0 0) /\
  proceeds f (call SYS_prlimit64 0 7 0 0x7000 0) /\ ~ proceeds f (call SYS_prlimit64 0 7 0x7000 0 0) /\
  proceeds f (call SYS_prlimit64 0 7 (2 ^ 32) 0 0) /\ ~ proceeds f (call SYS_setrlimit 7 0x7000 0 0 0).
Proof. cbv zeta. unfold proceeds. concrete. Qed.
Example C127_example_proc :
  let f := built [Proc; Exec] Trap in
  filter_for Debug 100 101 [Proc; Exec] Trap f /\ proceeds f (call SYS_clone 0x1200011 0 0 0 0) /\
  ~ proceeds f (call SYS_clone 0x20011 0 0 0 0) /\ proceeds f (call SYS_clone 0x10000011 0 0 0 0) /\
  proceeds f (call SYS_vfork 0 0 0 0 0) /\ proceeds f (call SYS_execve 0x7000 0 0 0 0) /\
  proceeds f (call SYS_prlimit64 0 7 0x7000 0 0) /\ ~ proceeds f (call SYS_clone3 0x7000 88 0 0 0).
Proof. cbv zeta. unfold proceeds. concrete. Qed.'''),
]

SO_=f('PropsShort','C128: the shortest list of promises that allows the same calls.',['ShortFacts'],'ShortSpec ')
SO_+=[
("C128","C128_the_short_list_decides_the_same","c128",r'''(** Of eleven promises five are left. *)
Example C128_example :
  let ps := [Default; StdIO; VmInfo; Dns; Inet; RPath; SendFd; RecvFd; TmpPath; CPath; RPath] in
  shortest ps = [StdIO; RPath; CPath; Inet; RecvFd] /\
  filter_for Debug 100 101 ps Trap (built ps Trap) /\
  filter_for Debug 100 101 (shortest ps) Trap (built [StdIO; RPath; CPath; Inet; RecvFd] Trap) /\
  length (built ps Trap) = 591%nat /\ length (built (shortest ps) Trap) = 488%nat /\
  kernel_eval (built (shortest ps) Trap) (call SYS_lstat 0x7000 0x7100 0 0 0) = 0x7fff0000 /\
  kernel_eval (built (shortest ps) Trap) (call SYS_chown 0x7000 0 0 0 0) = 0x30000 /\
  (* without StdIO the others do not stand in for Dns and VmInfo *)
  shortest [VmInfo; Dns; Inet; RPath; SendFd; TmpPath; CPath] = [RPath; CPath; Inet; Dns; RecvFd; VmInfo].
Proof. cbv zeta. concrete. Qed.'''),
("C128","C128_no_list_is_shorter","c128_least",r'''(** Another list that allows the same: as long, being a rearrangement; and one that is longer. *)
Example C128_example_least :
  let ps := [StdIO; VmInfo; SendFd] in
  let same := [SendFd; StdIO] in let longer := [SendFd; StdIO; Default] in
  shortest ps = [StdIO; RecvFd] /\ Permutation (map recv_for_send same) (shortest ps) /\
  length (built same KillProcess) = length (built (shortest ps) Trap) /\
  (length (built (shortest ps) Trap) < length (built longer Trap))%nat.
Proof.
  cbv zeta. split; [reflexivity|]. split; [apply perm_swap|]. split; [vm_compute; reflexivity|]. vm_compute. repeat constructor.
Qed.'''),
("C128","C128_no_list_costs_less","c128_cost",r'''Example C128_example_cost :
  let ps := [StdIO; VmInfo; SendFd; Default; StdIO] in
  small_ids 100 101 /\ prog_cost (built (shortest ps) Trap) = 433 /\ prog_cost (built [SendFd; StdIO; Default] Trap) = 436 /\
  prog_cost (built ps Trap) = 852.
Proof. cbv zeta. split; [split; reflexivity|]. repeat (apply conj); vm_compute; reflexivity. Qed.'''),
("C128","C128_a_first_pledge_of_the_short_list_succeeds","c128_fits",r'''(** Fifteen times StdIO is too much, once is not. *)
Example C128_example_fits :
  let ps := repeat StdIO 15 in
  shortest ps = [StdIO] /\ fst (pledge_override Debug amb0 thread0 ps Trap) = Err (SysErr 22) /\
  fst (pledge_override Debug amb0 thread0 (shortest ps) Trap) = Ok tt.
Proof. cbv zeta. repeat (apply conj); vm_compute; reflexivity. Qed.'''),
]

NB_=f('PropsNumber','C129: who allows the calls decided by their number.',['NumberFacts'],'NumberSpec ')
NB_+=[
("C129","C129_who_allows_the_calls_decided_by_number","c129",r'''(** readlink and readlinkat differ; statx, getdents64 and sendmsg are in no group, so nobody may use them. *)
Example C129_example :
  let f := built [WPath; TmpPath] Trap in
  filter_for Debug 100 101 [WPath; TmpPath] Trap f /\ native (call SYS_readlinkat 3 0x7000 0x8000 64 0) /\
  proceeds f (call SYS_readlinkat 3 0x7000 0x8000 64 0) /\ ~ proceeds f (call SYS_readlink 0x7000 0x8000 64 0 0) /\
  proceeds f (call SYS_unlink 0x7000 0 0 0 0) /\ ~ proceeds f (call SYS_rmdir 0x7000 0 0 0 0) /\
  proceeds f (call SYS_exit 0 0 0 0 0) /\ ~ proceeds f (call SYS_exit_group 0 0 0 0 0).
Proof. cbv zeta. unfold proceeds. concrete. Qed.
Example C129_example_nobody :
  forallb (fun n => negb (existsb (N.eqb n) (by_arguments ++ List.concat (map fst by_number))))
    [SYS_statx; SYS_getdents64; SYS_sendmsg; SYS_setsockopt; SYS_openat2; SYS_clone3; SYS_ptrace; SYS_clock_settime] = true /\
  length (by_arguments ++ List.concat (map fst by_number)) = 200%nat.
Proof. split; vm_compute; reflexivity. Qed.'''),
]

MT_=f('PropsMeet','C130: exactly when two pledges leave more than exit.',['MeetFacts'],'MeetSpec ')
MT_+=[
("C130","C130_when_two_pledges_leave_more_than_exit","c130",r'''(** RPath and CPath have opening for reading in common; StdIO and Tty both allow ioctl, but of different kinds. *)
Example C130_example :
  let f := built [StdIO; RPath] Trap in let f' := built [Tty; CPath] (Errno 1) in
  filter_for Debug 100 101 [StdIO; RPath] Trap f /\ filter_for Debug 100 101 [Tty; CPath] (Errno 1) f' /\
  syscall_entry [f'; f] (call SYS_openat 0xffffff9c 0x7000 0 0 0) = Proceed /\
  syscall_entry [f'; f] (call SYS_openat 0xffffff9c 0x7000 0x41 0x1ff 0) = Kill DeathSigsys /\
  syscall_entry [f'; f] (call SYS_ioctl 0 0x541b 0x7000 0 0) = Fake (-1) /\
  meet RPath CPath /\ ~ meet StdIO Tty.
Proof.
  cbv zeta. repeat (apply conj); try (vm_compute; reflexivity).
  - right. left. cbn. tauto.
  - intros [[H _]|[H|H]]; [discriminate H| |]; cbn in H; intuition discriminate.
Qed.'''),
("C130","C130_after_pledging_stdio","c130_stdio",r'''Example C130_example_stdio :
  let f := built [StdIO] Trap in let f' := built [Tty; FLock; CPath; Exec] Trap in let g := built [Tty; Id] Trap in
  filter_for Debug 100 101 [StdIO] Trap f /\ filter_for Debug 100 101 [Tty; FLock; CPath; Exec] Trap f' /\
  syscall_entry [f'; f] (call SYS_fcntl 0 5 0x7000 0 0) <> Proceed /\ syscall_entry [f] (call SYS_fcntl 0 4 0x7000 0 0) = Proceed /\
  syscall_entry [f'; f] (call SYS_fcntl 0 4 0x7000 0 0) <> Proceed /\ syscall_entry [f'; f] (call SYS_exit 0 0 0 0 0) = Proceed /\
  syscall_entry [g; f] (call SYS_prlimit64 0 7 0 0x7000 0) = Proceed.
Proof. cbv zeta. repeat (apply conj); vm_compute; first [reflexivity|discriminate]. Qed.'''),
]

if __name__=='__main__':
    import re,json
    names=set()
    for fn,(title,mods,items) in files.items():
        out='(** Property theorems '+title+'\n    Generated statements; the proofs are in the files required below. *)\n'+HEAD%(SPEC[fn],' '.join(mods))
        for (pid,name,lem,ex) in items:
            st,path=S[lem]; mod=path.split('/')[-1][:-2]
            assert mod in mods,(lem,mod)
            assert name not in names; names.add(name)
            out+=f'\n(** {pid} *)\nTheorem {name} :\n  {st}.\nProof. exact {mod}.{lem}. Qed.\nPrint Assumptions {name}.\n'
            if ex: out+=ex+'\n'
        open(f'/verif/rocq/theories/{fn}.v','w').write(out)
