(** Property theorems C06-C13: the VM, its agreement with the kernel, field offsets and return codes.
    Generated statements; the proofs are in the files required below. *)
From Coq Require Import NArith ZArith String List Bool Lia.
From Verif Require Import Libc Machine Bpf SeccompRet Asm Vm Promises Filters Kernel World Testkit Spec Demo.
From Verif Require VmProofs KernelVmProofs CodeProofs.
Import ListNotations.
Local Open Scope N_scope.

(** C06 *)
Theorem C06_run_terminates :
  forall prof vm data,
  exists r, fst (vm_run prof vm data) = Finished r /\ forall fuel,
    (length (vm_prog vm) <= fuel)%nat -> fst (run_loop fuel prof (vm_reset vm) data) = Finished r.
Proof. exact VmProofs.c06_terminates. Qed.
Print Assumptions C06_run_terminates.
Example C06_example : forall vm, vm_prog vm = [SockFilter 0x05 0 0 0xffffffff; SockFilter 0xff 1 2 3] ->
  fst (vm_run Debug vm [1]) = Finished (Ok 0) /\ fst (run_loop 1 Debug (vm_reset vm) [1]) <> OutOfFuel.
Proof. intros [p a i m pr] H. cbn in H. subst. split; vm_compute; [reflexivity|discriminate]. Qed.

(** C06 *)
Theorem C06_at_most_length_steps :
  forall n prof vm data vm',
  executed n prof (vm_reset vm) data = Some vm' -> (n <= length (vm_prog vm))%nat.
Proof. exact VmProofs.c06_bound. Qed.
Print Assumptions C06_at_most_length_steps.
Example C06_bound_example :
  let prog := [SockFilter 0x00 0 0 1; SockFilter 0x00 0 0 2; SockFilter 0x06 0 0 0] in
  exists vm vm', vm_new prog = Ok vm /\ executed 2 Debug (vm_reset vm) [] = Some vm' /\
    vm_pc vm' = 2 /\ executed 3 Debug (vm_reset vm) [] = None.
Proof. eexists. eexists. repeat split; vm_compute; reflexivity. Qed.

(** C06 *)
Theorem C06_counter_increases :
  forall prof vm data vm',
  execute prof vm data = (Ok None, vm') -> vm_pc vm < vm_pc vm'.
Proof. exact VmProofs.c06_increases. Qed.
Print Assumptions C06_counter_increases.
Example C06_increases_example :
  exists vm vm', vm_new [SockFilter 0x05 0 0 7] = Ok vm /\ execute Debug vm [] = (Ok None, vm') /\
    vm_pc vm' = 8.
Proof. eexists. eexists. repeat split; vm_compute; reflexivity. Qed.

(** C07 *)
Theorem C07_runs_independent_of_history :
  forall prof ops vm data,
  vm_run prof (fold_left (vm_apply prof) ops vm) data = vm_run prof vm data /\
  vm_prog (fold_left (vm_apply prof) ops vm) = vm_prog vm.
Proof. exact VmProofs.c07. Qed.
Print Assumptions C07_runs_independent_of_history.
Example C07_example :
  let prog := [SockFilter 0x20 0 0 0; SockFilter 0x02 0 0 3; SockFilter 0x16 0 0 0] in
  exists vm, vm_new prog = Ok vm /\
    fold_left (vm_apply Debug) [VRun [5]; VStep [6]; VReset; VRun []] vm <> vm /\
    fst (vm_run Debug vm [9]) = Finished (Ok 9).
Proof. eexists. repeat split; vm_compute; try reflexivity; discriminate. Qed.

(** C08 *)
Theorem C08_new_iff_at_most_65535 :
  forall prog,
  (N.of_nat (length prog) <= 65535 ->
   exists vm, vm_new prog = Ok vm /\ vm_pc vm = 0 /\ vm_acc vm = 0 /\ vm_idx vm = 0 /\
     vm_mem vm = repeat 0 16 /\ vm_prog vm = prog) /\
  (65535 < N.of_nat (length prog) ->
   vm_new prog = Err (ProgramTooLong (N.of_nat (length prog)))).
Proof. exact VmProofs.c08. Qed.
Print Assumptions C08_new_iff_at_most_65535.
Example C08_example :
  (exists vm, vm_new [SockFilter 6 0 0 0] = Ok vm) /\
  forall n, n = 65536 -> vm_new (repeat (SockFilter 6 0 0 0) (N.to_nat n)) = Err (ProgramTooLong n).
Proof.
  split; [eexists; vm_compute; reflexivity|]. intros n H.
  destruct (C08_new_iff_at_most_65535 (repeat (SockFilter 6 0 0 0) (N.to_nat n))) as [_ E].
  rewrite repeat_length, N2Nat.id in E. apply E. rewrite H. reflexivity.
Qed.

(** C09 *)
Theorem C09_registers_stay_32_bit :
  forall prof ops prog vm0,
  Forall wf_insn prog -> vm_new prog = Ok vm0 -> (forall o, In o ops -> words (vm_op_data o)) ->
  let vm := fold_left (vm_apply prof) ops vm0 in
  vm_acc vm < 2 ^ 32 /\ vm_idx vm < 2 ^ 32 /\ length (vm_mem vm) = 16%nat /\
  Forall (fun c => c < 2 ^ 32) (vm_mem vm).
Proof. exact VmProofs.c09. Qed.
Print Assumptions C09_registers_stay_32_bit.
Example C09_example :
  let prog := [SockFilter 0x20 0 0 0; SockFilter 0x24 0 0 0xffffffff; SockFilter 0x02 0 0 15] in
  Forall wf_insn prog /\ words [0xffffffff] /\
  exists vm, vm_new prog = Ok vm /\
    vm_acc (fold_left (vm_apply Release) [VRun [0xffffffff]] vm) = 1.
Proof.
  split; [repeat constructor|]. split; [repeat constructor|]. eexists.
  split; [vm_compute; reflexivity|]. vm_compute. reflexivity.
Qed.

(** C10 *)
Theorem C10_vm_agrees_with_kernel :
  forall prof prog vm d beyond mem,
  kernel_accepts prog = true -> Forall wf_insn prog -> Forall vm_subset prog ->
  vm_prog vm = prog -> length beyond = 48%nat -> words beyond -> length mem = 16%nat ->
  exists r, fst (vm_run prof vm (any_to_data d beyond)) = Finished r /\
  match r with
  | Ok v => kernel_eval_mem mem prog d = v
  | Err _ | Died _ => False
  | Panic => prof = Debug \/ (kernel_eval_mem mem prog d = 0 /\ Exists divides_by_index prog)
  end.
Proof. exact KernelVmProofs.c10. Qed.
Print Assumptions C10_vm_agrees_with_kernel.
Example C10_example :
  let prog := [SockFilter 0x20 0 0 0; SockFilter 0x02 0 0 1; SockFilter 0x61 0 0 1;
               SockFilter 0x3c 0 0 0; SockFilter 0x15 0 1 1; SockFilter 0x06 0 0 7;
               SockFilter 0x16 0 0 0] in
  kernel_accepts prog = true /\ Forall wf_insn prog /\ Forall vm_subset prog /\
  Exists divides_by_index prog /\
  kernel_eval prog (call 59 0 0 0 0 0) = 7 /\ kernel_eval prog (call 0 0 0 0 0 0) = 0 /\
  (forall vm, vm_prog vm = prog ->
     fst (vm_run Release vm (any_to_data (call 59 0 0 0 0 0) (repeat 0 48))) = Finished (Ok 7) /\
     fst (vm_run Release vm (any_to_data (call 0 0 0 0 0 0) (repeat 0 48))) = Finished Panic).
Proof.
  split; [vm_compute; reflexivity|]. split; [repeat constructor|]. split; [repeat constructor|].
  split; [do 3 right; left; reflexivity|]. split; [vm_compute; reflexivity|].
  split; [vm_compute; reflexivity|].
  intros [p a i m pr] H. cbn in H. subst. split; vm_compute; reflexivity.
Qed.

(** C10 *)
Theorem C10_release_equality :
  forall prog vm d beyond mem,
  kernel_accepts prog = true -> Forall wf_insn prog -> Forall vm_subset prog ->
  ~ Exists divides_by_index prog ->
  vm_prog vm = prog -> length beyond = 48%nat -> words beyond -> length mem = 16%nat ->
  fst (vm_run Release vm (any_to_data d beyond)) = Finished (Ok (kernel_eval_mem mem prog d)).
Proof. exact KernelVmProofs.c10_release. Qed.
Print Assumptions C10_release_equality.
Example C10_release_example :
  kernel_accepts (built [StdIO; Inet] KillProcess) = true /\
  Forall wf_insn (built [RPath] KillProcess) /\ Forall vm_subset (built [RPath] KillProcess) /\
  ~ Exists divides_by_index (built [RPath] KillProcess).
Proof.
  split; [vm_compute; reflexivity|].
  assert (E : forallb (fun f => (sf_code f <? 2 ^ 16) && (sf_jt f <? 2 ^ 8) && (sf_jf f <? 2 ^ 8) &&
                       (sf_k f <? 2 ^ 32) && existsb (N.eqb (sf_code f)) simple_codes)
                      (built [RPath] KillProcess) = true) by (vm_compute; reflexivity).
  rewrite forallb_forall in E.
  assert (F : forall f, In f (built [RPath] KillProcess) ->
              wf_insn f /\ vm_subset f /\ ~ divides_by_index f).
  { intros f I. specialize (E f I). rewrite !andb_true_iff, !N.ltb_lt in E.
    destruct E as ((((E1 & E2) & E3) & E4) & E5).
    split; [repeat split; assumption|]. apply existsb_exists in E5.
    destruct E5 as (c & Ic & Ec). apply N.eqb_eq in Ec.
    unfold vm_subset, divides_by_index. rewrite Ec. unfold simple_codes in Ic. cbn [In] in Ic.
    repeat destruct Ic as [<-|Ic]; try contradiction; (split; [exact I|discriminate]) || auto.
    all: split; vm_compute; [exact Logic.I|discriminate]. }
  repeat split; try (apply Forall_forall; intros f I; apply F; exact I).
  intros X. apply Exists_exists in X. destruct X as (f & I & D). apply (F f I). exact D.
Qed.

(** C11 *)
Theorem C11_register_comparison_refuted :
  forall prof d beyond vm,
  vm_prog vm = jx_prog ->
  kernel_accepts jx_prog = true /\ kernel_eval jx_prog d = 0x7fff0000 /\
  fst (vm_run prof vm (any_to_data d beyond)) = Finished (Ok 0x80000000).
Proof. exact KernelVmProofs.c11_refuted. Qed.
Print Assumptions C11_register_comparison_refuted.

(** C11 *)
Theorem C11_agrees_without_register_comparisons_partial :
  forall prof prog vm d beyond mem,
  kernel_accepts prog = true -> Forall wf_insn prog -> Forall (fun f => ~ compares_index f) prog ->
  vm_prog vm = prog -> length beyond = 48%nat -> words beyond -> length mem = 16%nat ->
  exists r, fst (vm_run prof vm (any_to_data d beyond)) = Finished r /\
  match r with
  | Ok v => kernel_eval_mem mem prog d = v
  | Err e => Exists (vm_lacks e) prog
  | Panic => prof = Debug \/ (kernel_eval_mem mem prog d = 0 /\ Exists divides_by_index prog)
  | Died _ => False
  end.
Proof. exact KernelVmProofs.c11_partial. Qed.
Print Assumptions C11_agrees_without_register_comparisons_partial.
Example C11_partial_example :
  let prog := [SockFilter 0x20 0 0 0; SockFilter 0x15 0 1 59; SockFilter 0x84 0 0 0; SockFilter 0x16 0 0 0] in
  kernel_accepts prog = true /\ Forall wf_insn prog /\ Forall (fun f => ~ compares_index f) prog /\
  kernel_eval prog (call 59 0 0 0 0 0) = 2 ^ 32 - 59 /\ kernel_eval prog (call 60 0 0 0 0 0) = 60 /\
  (forall vm, vm_prog vm = prog ->
     fst (vm_run Debug vm (any_to_data (call 59 0 0 0 0 0) (repeat 0 48))) =
       Finished (Err (UnsupportedInstruction 0x80)) /\
     fst (vm_run Debug vm (any_to_data (call 60 0 0 0 0 0) (repeat 0 48))) = Finished (Ok 60)).
Proof.
  cbv zeta. split; [vm_compute; reflexivity|]. split; [repeat constructor|].
  split; [repeat constructor; intros [c H]; discriminate H|]. split; [vm_compute; reflexivity|].
  split; [vm_compute; reflexivity|].
  intros [p a i m pr] H. cbn in H. subst. split; vm_compute; reflexivity.
Qed.

(** C11 *)
Theorem C11_reads_register_comparisons_as_constants :
  forall prof prog vm d beyond mem,
  kernel_accepts prog = true -> Forall wf_insn prog ->
  vm_prog vm = prog -> length beyond = 48%nat -> words beyond -> length mem = 16%nat ->
  exists r, fst (vm_run prof vm (any_to_data d beyond)) = Finished r /\
  match r with
  | Ok v => kernel_eval_mem mem (map as_constant prog) d = v
  | Err e => Exists (vm_lacks e) prog
  | Panic => prof = Debug \/
             (kernel_eval_mem mem (map as_constant prog) d = 0 /\ Exists divides_by_index prog)
  | Died _ => False
  end.
Proof. exact KernelVmProofs.c11_exact. Qed.
Print Assumptions C11_reads_register_comparisons_as_constants.
Example C11_exact_example :
  map as_constant jx_prog =
    [SockFilter 0x01 0 0 5; SockFilter 0x00 0 0 5; SockFilter 0x15 0 1 0;
     SockFilter 0x06 0 0 0x7fff0000; SockFilter 0x06 0 0 0x80000000] /\
  kernel_accepts jx_prog = true /\
  kernel_eval jx_prog (call 0 0 0 0 0 0) = 0x7fff0000 /\
  kernel_eval (map as_constant jx_prog) (call 0 0 0 0 0 0) = 0x80000000 /\
  (forall vm, vm_prog vm = jx_prog ->
     fst (vm_run Debug vm (any_to_data (call 0 0 0 0 0 0) (repeat 0 48))) = Finished (Ok 0x80000000)).
Proof.
  repeat (split; [vm_compute; reflexivity|]).
  intros [p a i m pr] H. cbn in H. subst. vm_compute. reflexivity.
Qed.

(** C12 *)
Theorem C12_offset_loads_the_field :
  forall d f, wf_data d -> exists_field f ->
  (forall prof, offset_u32 (E := bpf_error) prof f = Ok (offset f)) /\
  offset f mod 4 = 0 /\ offset f < 64 /\
  (forall mem, kernel_eval_mem mem [bpf_ld ABS (offset f); bpf_ret Acc 0] d = field f d) /\
  (forall prof vm beyond, exec_insn prof (bpf_ld ABS (offset f)) vm (any_to_data d beyond) =
                          (Ok None, set_acc vm (field f d))).
Proof. exact CodeProofs.c12. Qed.
Print Assumptions C12_offset_loads_the_field.
Example C12_example :
  let d := call 59 0x1122334455667788 2 3 4 5 in
  wf_data d /\ exists_field (ArgUpper 0) /\ field (ArgUpper 0) d = 0x11223344 /\
  field (ArgLower 0) d = 0x55667788 /\ offset (ArgUpper 5) = 60.
Proof. repeat split; vm_compute; (reflexivity || discriminate). Qed.

(** C12 *)
Theorem C12_halves_make_the_whole :
  forall d i, wf_data d -> i <= 5 ->
  field (ArgLower i) d + 2 ^ 32 * field (ArgUpper i) d = arg d i /\
  field InstrPointerLower d + 2 ^ 32 * field InstrPointerUpper d = sd_ip d.
Proof. exact CodeProofs.c12_whole. Qed.
Print Assumptions C12_halves_make_the_whole.
Example C12_whole_example :
  let d := call 1 2 3 0x123456789abc 5 6 in
  wf_data d /\ field (ArgLower 2) d = 0x56789abc /\ field (ArgUpper 2) d = 0x1234.
Proof. cbv zeta. split; [repeat split; reflexivity|]. split; vm_compute; reflexivity. Qed.

(** C12 *)
Theorem C12_offsets_distinct :
  forall f g, exists_field f -> exists_field g -> offset f = offset g -> f = g.
Proof. exact CodeProofs.c12_distinct. Qed.
Print Assumptions C12_offsets_distinct.
Example C12_distinct_example :
  map offset [Syscall; Arch; InstrPointerLower; InstrPointerUpper; ArgLower 0; ArgUpper 5] = [0; 4; 8; 12; 16; 60].
Proof. vm_compute. reflexivity. Qed.

(** C13 *)
Theorem C13_action_round_trips :
  forall r, small_payload r -> ret_try_from (ret_into r) = Ok r.
Proof. exact CodeProofs.c13_forward. Qed.
Print Assumptions C13_action_round_trips.
Example C13_example :
  small_payload (Errno 13) /\ ret_into (Errno 13) = 0x5000d /\
  small_payload (Trace 0xffff) /\ ret_into (Trace 0xffff) = 0x7ff0ffff.
Proof. repeat split; vm_compute; reflexivity. Qed.

(** C13 *)
Theorem C13_round_trips_exactly_small_payloads :
  forall r, payload_u32 r ->
  (ret_try_from (ret_into r) = Ok r <-> small_payload r).
Proof. exact CodeProofs.c13_exact. Qed.
Print Assumptions C13_round_trips_exactly_small_payloads.
Example C13_exact_example :
  payload_u32 (Errno 0x10000) /\ ~ small_payload (Errno 0x10000) /\
  ret_try_from (ret_into (Errno 0x10000)) = Ok (Errno 0).
Proof. split; [|split]; vm_compute; try reflexivity; discriminate. Qed.

(** C13 *)
Theorem C13_code_round_trips :
  forall c r, word c -> ret_try_from c = Ok r ->
  N.land (ret_into r) 0xffff0000 = N.land c 0xffff0000 /\
  (carries_data r -> ret_into r = c) /\ (~ carries_data r -> N.land (ret_into r) 0xffff = 0).
Proof. exact CodeProofs.c13_back. Qed.
Print Assumptions C13_code_round_trips.
Example C13_back_example :
  word 0x5000d /\ ret_try_from 0x5000d = Ok (Errno 13) /\ carries_data (Errno 13) /\
  word 0x7fff1234 /\ ret_try_from 0x7fff1234 = Ok Allow /\ ~ carries_data Allow.
Proof. repeat split; vm_compute; try reflexivity. intros []. Qed.

(** C13 *)
Theorem C13_recognised_codes :
  forall c,
  (exists r, ret_try_from c = Ok r) <-> In (N.land c 0xffff0000) known_actions.
Proof. exact CodeProofs.c13_recognised. Qed.
Print Assumptions C13_recognised_codes.
Example C13_recognised_example :
  In (N.land 0x7ffc0001 0xffff0000) known_actions /\ ~ In (N.land 0x7fc00000 0xffff0000) known_actions /\
  ret_try_from 0x7fc00000 = Err (UnsupportedReturn 0x7fc00000).
Proof. vm_compute. intuition discriminate. Qed.

(** C13 *)
Theorem C13_large_payload_refuted :
  exists r, payload_u32 r /\ r <> Allow /\ ret_into r = ret_into Allow /\
  ret_try_from (ret_into r) = Ok Allow.
Proof. exact CodeProofs.c13_refuted. Qed.
Print Assumptions C13_large_payload_refuted.
