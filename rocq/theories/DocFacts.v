(** The rules against the comments above them. *)
From Coq Require Import NArith ZArith String List Bool Lia.
From Verif Require Import Libc Machine Bpf SeccompRet Asm Vm Promises Filters Kernel World Spec DocSpec
  FragProofs PolicyProofs Demo.
Import ListNotations.
Local Open Scope N_scope.

Lemma rule_filter_code : forall prof pid tid f v prog,
  rule_filter prof pid tid f v prog -> prog = fcode pid tid [f] v.
Proof.
  unfold rule_filter. intros prof pid tid f v prog H.
  fold (ids pid tid) in H. rewrite filters_to_prog_ok in H. congruence.
Qed.

Lemma rule_filter_exists : forall prof pid tid f v,
  rule_filter prof pid tid f v (fcode pid tid [f] v).
Proof. intros. apply filters_to_prog_ok. Qed.

Lemma fcode_run : forall pid tid fs v d,
  kernel_eval (fcode pid tid fs v) d =
  if lo32 (sd_arch d) =? X86_64
  then if existsb (ruleb pid tid d) fs then 0x7fff0000 else ret_into v
  else 0x80000000.
Proof.
  intros. unfold kernel_eval. rewrite fcode_gcode, gcode_run, existsb_same. reflexivity.
Qed.

Lemma rule_proceeds : forall prof pid tid f v prog d,
  rule_filter prof pid tid f v prog -> enforcing v -> native d ->
  proceeds prog d <->
  sd_nr d = as_u32 (fst (rule_of f)) /\ args_ok (snd (rule_of f)) pid tid d.
Proof.
  intros prof pid tid f v prog d H Hv [Hd Ha]. rewrite (rule_filter_code _ _ _ _ _ _ H).
  unfold proceeds. rewrite single_entry, fcode_run, Ha.
  change (lo32 X86_64 =? X86_64) with true. cbn iota. cbn [existsb]. rewrite orb_false_r.
  rewrite <- (argsb_spec _ pid tid d Hd). unfold ruleb.
  rewrite lo32_small by apply Hd.
  destruct (N.eqb_spec (sd_nr d) (as_u32 (fst (rule_of f)))) as [E|E]; cbn [andb].
  - destruct (argsb _ _ _ _).
    + split; [auto|reflexivity].
    + rewrite entry_of_ret by apply Hv. split; [|intros [_ B]; discriminate].
      intros F. exfalso. exact (fate_enforcing v Hv F).
  - rewrite entry_of_ret by apply Hv. split; [|tauto].
    intros F. exfalso. exact (fate_enforcing v Hv F).
Qed.

(** * Flags *)

Lemma none_clear : forall flags v, has_none flags v <-> N.land v (fold_right N.lor 0 flags) = 0.
Proof.
  intros flags v. unfold has_none. induction flags as [|f flags IH]; cbn [fold_right].
  - rewrite N.land_0_r. split; [reflexivity|constructor].
  - rewrite N.land_lor_distr_r, N.lor_eq_0_iff, <- IH. split.
    + intros H. inversion H. auto.
    + intros [A B]. constructor; assumption.
Qed.

Lemma all_has : forall flags v, has_all flags v <-> has (fold_right N.lor 0 flags) v.
Proof.
  intros flags v. unfold has_all. induction flags as [|f flags IH]; cbn [fold_right].
  - unfold has. rewrite N.land_0_r. split; [reflexivity|constructor].
  - rewrite has_lor, <- IH. split.
    + intros H. inversion H. auto.
    + intros [A B]. constructor; assumption.
Qed.

Lemma only_prot : forall v, v < 2 ^ 32 -> (only_has [0; 1; 2] v <-> v <= 3).
Proof.
  intros v H. unfold only_has. change (fold_right N.lor 0 [0; 1; 2]) with 3.
  rewrite <- land_not_u32 by exact H. change (N.lxor 3 4294967295) with 0xfffffffc.
  apply small_iff_high_clear. exact H.
Qed.

Lemma none_dec : forall flags v, {has_none flags v} + {~ has_none flags v}.
Proof. intros flags v. unfold has_none. apply Forall_dec. intros f. apply N.eq_dec. Qed.

Lemma clear_lo32 : forall m v, m < 2 ^ 32 -> (clear m (lo32 v) <-> clear m v).
Proof. intros m v H. unfold clear. rewrite lo32_land by exact H. reflexivity. Qed.

Lemma six : forall x, In x [0; 1; 2; 3; 4; 1030] <-> x <= 4 \/ x = 1030.
Proof. intros x. cbn [In]. lia. Qed.

Lemma documented_iff : forall f pid tid d, wf_data d -> tid < 2 ^ 32 -> ~ In f deviating ->
  documented_args f pid tid d <-> args_ok (snd (rule_of f)) pid tid d.
Proof.
  intros f pid tid d Hd Ht Hf. pose proof (lo32_lt (sd_a2 d)) as L2.
  destruct f; try (exfalso; apply Hf; cbn; tauto); clear Hf;
    cbn [documented_args rule_of snd args_ok].
  - reflexivity.
  - apply six.
  - apply only_prot. exact L2.
  - reflexivity.
  - unfold ioctl_file. cbn [In]. tauto.
  - reflexivity.
  - rewrite (lo32_small tid) by exact Ht. reflexivity.
  - reflexivity.
  - rewrite none_clear, all_has. cbn [fold_right].
    change (N.lor 131072 (N.lor 8192 (N.lor 8388608 0))) with
      (N.lor CLONE_NEWNS (N.lor CLONE_PTRACE CLONE_UNTRACED)).
    change (N.lor 256 (N.lor 512 (N.lor 1024 (N.lor 65536 (N.lor 2048 0))))) with
      (N.lor CLONE_VM (N.lor CLONE_FS (N.lor CLONE_FILES (N.lor CLONE_THREAD CLONE_SIGHAND)))).
    unfold has at 1. rewrite !lo32_land by reflexivity.
    fold (has (N.lor CLONE_VM (N.lor CLONE_FS (N.lor CLONE_FILES (N.lor CLONE_THREAD CLONE_SIGHAND))))
              (sd_a0 d)).
    fold (clear (N.lor CLONE_NEWNS (N.lor CLONE_PTRACE CLONE_UNTRACED)) (sd_a0 d)).
    rewrite !has_lor, !clear_lor. tauto.
  - unfold doc_readonly. rewrite none_clear. cbn [fold_right]. rewrite !lo32_land by reflexivity.
    change (N.lor creat_flag (N.lor trunc_flag (N.lor tmpfile_flag 0))) with
      (N.lor O_CREAT (N.lor O_TRUNC (2 ^ 22))).
    fold (clear (N.lor O_CREAT (N.lor O_TRUNC (2 ^ 22))) (sd_a2 d)). rewrite !clear_lor.
    unfold clear at 4. unfold O_ACCMODE. tauto.
  - unfold doc_writeonly. rewrite none_clear. cbn [fold_right]. rewrite !lo32_land by reflexivity.
    change (N.lor creat_flag (N.lor tmpfile_flag 0)) with (N.lor O_CREAT (2 ^ 22)).
    fold (clear (N.lor O_CREAT (2 ^ 22)) (sd_a2 d)). rewrite !clear_lor. unfold O_ACCMODE. tauto.
  - rewrite none_clear, lo32_land by reflexivity. reflexivity.
  - rewrite none_clear, lo32_land by reflexivity. reflexivity.
  - unfold doc_createonly. destruct (none_dec [creat_flag; tmpfile_flag] (lo32 (sd_a2 d))) as [D|D].
    + split; [|tauto]. intros _. left. rewrite none_clear in D. rewrite lo32_land in D by reflexivity.
      exact D.
    + rewrite (none_clear special_bits), lo32_land by reflexivity.
      split; [intros H; right; exact (H D)|].
      intros [C|C] _; [|exact C]. exfalso. apply D. rewrite none_clear, lo32_land by reflexivity.
      exact C.
  - rewrite none_clear, lo32_land by reflexivity. reflexivity.
  - reflexivity.
  - unfold doc_sock_type, sock_type. change (2 ^ 11 + 2 ^ 19) with (0x80000 + 0x800).
    cbn [In]. unfold AF_INET, AF_INET6, SOCK_STREAM, SOCK_DGRAM, IPPROTO_ICMP, IPPROTO_TCP, IPPROTO_UDP.
    intuition.
  - reflexivity.
  - reflexivity.
  - unfold doc_sock_type, sock_type. change (2 ^ 11 + 2 ^ 19) with (0x80000 + 0x800).
    cbn [In]. unfold AF_UNIX, SOCK_STREAM, SOCK_DGRAM. intuition.
  - reflexivity.
  - rewrite none_clear, lo32_land by reflexivity. cbn [fold_right].
    change (N.lor 131072 (N.lor 8192 (N.lor 8388608 0))) with
      (N.lor CLONE_NEWNS (N.lor CLONE_PTRACE CLONE_UNTRACED)).
    fold (clear (N.lor CLONE_NEWNS (N.lor CLONE_PTRACE CLONE_UNTRACED)) (sd_a0 d)).
    rewrite !clear_lor. tauto.
  - rewrite none_clear, lo32_land by reflexivity. reflexivity.
Qed.

(** * C78 *)

Lemma rule_number : forall f, ~ In f deviating -> fst (rule_of f) = documented_call f.
Proof. intros f H. destruct f; try reflexivity. exfalso. apply H. cbn. tauto. Qed.

Lemma c78_follows : forall prof pid tid f v prog d,
  ~ In f deviating -> documented_call f < 2 ^ 32 -> tid < 2 ^ 32 ->
  rule_filter prof pid tid f v prog -> enforcing v -> native d ->
  (proceeds prog d <-> documented f pid tid d).
Proof.
  intros prof pid tid f v prog d Hf Hn Ht H Hv Hd.
  rewrite (rule_proceeds _ _ _ _ _ _ _ H Hv Hd), (rule_number f Hf).
  unfold as_u32. rewrite N.mod_small by exact Hn.
  unfold documented. rewrite (documented_iff f pid tid d (proj1 Hd) Ht Hf). reflexivity.
Qed.

Lemma c78_mmap : forall prof pid tid v prog d,
  rule_filter prof pid tid MmapNoexec v prog -> enforcing v -> native d ->
  (proceeds prog d <-> documented MmapNoexec pid tid d /\ sd_a2 d mod 2 ^ 32 <> 3).
Proof.
  intros prof pid tid v prog d H Hv Hd.
  rewrite (rule_proceeds _ _ _ _ _ _ _ H Hv Hd). unfold documented.
  cbn [rule_of fst snd documented_args documented_call args_ok].
  change (as_u32 SYS_mmap) with SYS_mmap.
  rewrite only_prot by apply lo32_lt. rewrite none_clear, lo32_land by reflexivity. cbn [fold_right].
  change (N.lor 8192 (N.lor 32768 (N.lor 65536 (N.lor 262144 0)))) with
    (MAP_LOCKED + MAP_POPULATE + MAP_NONBLOCK + MAP_HUGETLB).
  unfold clear. change (sd_a2 d mod 2 ^ 32) with (lo32 (sd_a2 d)).
  generalize (lo32 (sd_a2 d)). intros a. intuition lia.
Qed.

Lemma c78_prlimit : forall prof pid tid v prog d,
  rule_filter prof pid tid Prlimit64Stdio v prog -> enforcing v -> native d ->
  (documented Prlimit64Stdio pid tid d -> proceeds prog d) /\
  (proceeds prog d <-> sd_nr d = SYS_prlimit64 /\ sd_a2 d mod 2 ^ 32 = 0).
Proof.
  intros prof pid tid v prog d H Hv Hd.
  rewrite (rule_proceeds _ _ _ _ _ _ _ H Hv Hd). unfold documented.
  cbn [rule_of fst snd documented_args documented_call args_ok].
  change (as_u32 SYS_prlimit64) with SYS_prlimit64.
  split; [|reflexivity]. intros [E ->]. split; [exact E|reflexivity].
Qed.

Ltac wf_call := repeat split; vm_compute; reflexivity.
Ltac too_much H Hv c :=
  exists c; split; [wf_call|]; split;
  [ apply (rule_proceeds _ _ _ _ _ _ _ H Hv); [wf_call|]; vm_compute; intuition (reflexivity || discriminate)
  | idtac ].
Ltac too_little H Hv c :=
  exists c; split; [wf_call|]; split;
  [ idtac
  | rewrite (rule_proceeds _ _ _ _ _ _ _ H Hv); [|wf_call];
    vm_compute; intuition discriminate ].

(** Rules that allow a call their comment forbids. *)
Lemma c78_too_much : forall f prof pid tid v prog, enforcing v ->
  In f [Prlimit64Stdio; OpenReadonly; OpenWriteonly; OpenCreateonly; FchmodatNobits;
        SetsockoptRestrict] ->
  rule_filter prof pid tid f v prog ->
  exists d, native d /\ proceeds prog d /\ ~ documented f pid tid d.
Proof.
  intros f prof pid tid v prog Hv Hf H. cbn [In] in Hf.
  destruct Hf as [<-|[<-|[<-|[<-|[<-|[<-|[]]]]]]].
  - too_much H Hv (call SYS_prlimit64 0 0 (2 ^ 32) 0 0). intros [_ E]. discriminate E.
  - too_much H Hv (call SYS_open 0 1 0 0 0). intros [_ [E _]]. discriminate E.
  - too_much H Hv (call SYS_open 0 0x40 1 0 0). intros [_ [[E|E] _]]; discriminate E.
  - too_much H Hv (call SYS_open 0 0x40 0x800 0 0). intros [_ E].
    assert (B : has_none special_bits (lo32 0x800)).
    { apply E. intros F. inversion F. discriminate. }
    rewrite none_clear in B. discriminate B.
  - too_much H Hv (call SYS_fchmodat 0 0 0x800 0 0). intros [_ E].
    cbn [documented_args] in E. rewrite none_clear in E. discriminate E.
  - too_much H Hv (call SYS_getsockopt 0 1 2 0 0). intros [E _]. discriminate E.
Qed.

(** Rules that refuse a call their comment permits. *)
Lemma c78_too_little : forall f prof pid tid v prog, enforcing v ->
  In f [MmapNoexec; OpenReadonly; OpenWriteonly; OpenCreateonly; FchmodatNobits;
        SetsockoptRestrict] ->
  rule_filter prof pid tid f v prog ->
  exists d, native d /\ documented f pid tid d /\ ~ proceeds prog d.
Proof.
  intros f prof pid tid v prog Hv Hf H. cbn [In] in Hf.
  destruct Hf as [<-|[<-|[<-|[<-|[<-|[<-|[]]]]]]].
  - too_little H Hv (call SYS_mmap 0 0x1000 3 0x22 0). split; [reflexivity|].
    split; [reflexivity|]. apply none_clear. reflexivity.
  - too_little H Hv (call SYS_open 0 0 1 0 0). split; [reflexivity|]. split; [reflexivity|].
    apply none_clear. reflexivity.
  - too_little H Hv (call SYS_open 0 1 0 0 0). split; [reflexivity|]. split; [left; reflexivity|].
    apply none_clear. reflexivity.
  - too_little H Hv (call SYS_open 0 0x40 0x1ff 0x800 0).
    split; [reflexivity|]. intros _. apply none_clear. reflexivity.
  - too_little H Hv (call SYS_fchmodat 0 0x800 0 0 0). split; [reflexivity|].
    apply none_clear. reflexivity.
  - too_little H Hv (call SYS_setsockopt 0 1 2 0 0). split; [reflexivity|].
    split; cbn; tauto.
Qed.
