(** Exact conditions where a property that one would expect is false (C05, C68, C78), and for the
    calls whose arguments the filters inspect (C93-C97). *)
From Coq Require Import NArith ZArith List Bool Lia.
From Verif Require Import Libc Machine Bpf SeccompRet Asm Vm Promises Filters Kernel World Spec DocSpec
  AsmProofs FragProofs PolicyProofs PolicyFacts PledgeProofs NeedFacts DocFacts.
Import ListNotations.
Local Open Scope N_scope.

(** * C05 *)
Lemma c05_accumulator : forall prof n o k labels f vm data,
  to_sock_filter prof n (Alu o Acc k) labels = Ok f -> length (vm_mem vm) = 16%nat ->
  exec_insn prof f vm data =
  match with_bit4 o with
  | Some o' => exec_token prof (Alu o' Const k) f vm data
  | None => (Err (UnknownInstruction 4), vm)
  end.
Proof.
  intros prof n o k labels f vm data Hf Hm. injection Hf as <-.
  assert (A : forall o', bpf_alu o Acc k = bpf_alu o' Const k ->
    exec_insn prof (bpf_alu o Acc k) vm data = exec_token prof (Alu o' Const k) (bpf_alu o Acc k) vm data).
  { intros o' E. rewrite E. apply (c05_partial prof n (Alu o' Const k) labels); [exact I|reflexivity|exact Hm]. }
  destruct o; cbn [with_bit4]; try (apply A; reflexivity).
  destruct vm. reflexivity.
Qed.
Lemma c05_ja : forall prof n k lt lf labels f vm data,
  to_sock_filter prof n (Jump JA k lt lf) labels = Ok f ->
  exec_insn prof f vm data = (Ok None, set_pc vm (vm_pc vm + k)).
Proof.
  intros prof n k lt lf labels f vm data Hf. cbn [to_sock_filter] in Hf.
  destruct (jmp_calc prof labels lt n); cbn [bind] in Hf; try discriminate.
  destruct (jmp_calc prof labels lf n); cbn [bind] in Hf; try discriminate.
  injection Hf as <-. destruct vm. reflexivity.
Qed.

(** * Bits *)
Lemma land_pow2 : forall x n, N.land x (2 ^ n) = 0 <-> N.testbit x n = false.
Proof.
  intros x n. split; intros H.
  - assert (E : N.testbit (N.land x (2 ^ n)) n = false) by (rewrite H; apply N.bits_0).
    rewrite N.land_spec, N.pow2_bits_true, andb_true_r in E. exact E.
  - apply N.bits_inj_0. intros m. rewrite N.land_spec, N.pow2_bits_eqb.
    destruct (N.eqb_spec n m) as [<-|]; [rewrite H|rewrite andb_false_r]; reflexivity.
Qed.
Lemma bits_off_clear : forall l x,
  bits_off l x <-> clear (fold_right (fun n s => N.lor (2 ^ n) s) 0 l) x.
Proof.
  intros l x. unfold bits_off, clear. induction l as [|n l IH]; cbn [fold_right].
  - rewrite N.land_0_r. split; [reflexivity|constructor].
  - rewrite N.land_lor_distr_r, N.lor_eq_0_iff, land_pow2, <- IH. split.
    + intros H. inversion H. auto.
    + intros [A B]. constructor; assumption.
Qed.
Lemma access_mode : forall x,
  (N.land x O_ACCMODE = 1 \/ N.land x O_ACCMODE = 2) <-> N.testbit x 0 <> N.testbit x 1.
Proof.
  intros x. change O_ACCMODE with (N.ones 2).
  assert (A : N.land x (N.ones 2) = N.b2n (N.testbit x 0) + 2 * N.b2n (N.testbit x 1)).
  { rewrite N.land_ones. rewrite (N.div_mod (x mod 2 ^ 2) 2) by discriminate.
    change (2 ^ 2) with (2 * 2).
    rewrite N.mod_mul_r by discriminate. rewrite N.testbit_spec' . rewrite N.testbit_spec'.
    change (2 ^ 0) with 1. change (2 ^ 1) with 2. rewrite N.div_1_r.
    replace ((x mod 2 + 2 * ((x / 2) mod 2)) / 2) with ((x / 2) mod 2).
    - replace ((x mod 2 + 2 * ((x / 2) mod 2)) mod 2) with (x mod 2); [lia|].
      rewrite (N.mul_comm 2), N.mod_add by discriminate. rewrite N.mod_mod by discriminate. reflexivity.
    - rewrite (N.mul_comm 2 ((x / 2) mod 2)), N.div_add by discriminate.
      rewrite (N.div_small (x mod 2)) by (apply N.mod_lt; discriminate). reflexivity. }
  rewrite A. destruct (N.testbit x 0), (N.testbit x 1); cbn; intuition (try discriminate; congruence).
Qed.

Lemma open_read_bits : forall x,
  clear O_ACCMODE x /\ clear O_CREAT x /\ clear O_TRUNC x /\ clear (2 ^ 22) x <->
  bits_off [0; 1; 6; 9; 22] x.
Proof.
  intros x. rewrite bits_off_clear.
  change (fold_right _ 0 [0; 1; 6; 9; 22]) with
    (N.lor O_ACCMODE (N.lor O_CREAT (N.lor O_TRUNC (2 ^ 22)))).
  rewrite !clear_lor. reflexivity.
Qed.
Lemma open_write_bits : forall x,
  (N.land x O_ACCMODE = 1 \/ N.land x O_ACCMODE = 2) /\ clear O_CREAT x /\ clear (2 ^ 22) x <->
  N.testbit x 0 <> N.testbit x 1 /\ bits_off [6; 22] x.
Proof.
  intros x. rewrite access_mode, bits_off_clear.
  change (fold_right _ 0 [6; 22]) with (N.lor O_CREAT (2 ^ 22)). rewrite clear_lor. reflexivity.
Qed.
Lemma creating_bits : forall x, clear (O_CREAT + 2 ^ 22) x <-> bits_off [6; 22] x.
Proof. intros x. rewrite bits_off_clear. reflexivity. Qed.
Lemma special_mode_bits : forall x, clear suid_bits x <-> bits_off [9; 10; 11] x.
Proof. intros x. rewrite bits_off_clear. reflexivity. Qed.

(** * C93 *)
Lemma c93 : forall prof pid tid ps v prog d,
  filter_for prof pid tid ps v prog -> enforcing v -> native d ->
  (sd_nr d = SYS_open ->
   (proceeds prog d <->
    In RPath ps /\ bits_off [0; 1; 6; 9; 22] (sd_a2 d) \/
    In WPath ps /\ N.testbit (sd_a2 d) 0 <> N.testbit (sd_a2 d) 1 /\ bits_off [6; 22] (sd_a2 d) \/
    In CPath ps /\ (bits_off [6; 22] (sd_a2 d) \/ bits_off [9; 10; 11] (sd_a3 d)))) /\
  (sd_nr d = SYS_openat ->
   (proceeds prog d <->
    (In RPath ps \/ In Dns ps) /\ bits_off [0; 1; 6; 9; 22] (sd_a2 d) \/
    In WPath ps /\ N.testbit (sd_a2 d) 0 <> N.testbit (sd_a2 d) 1 /\ bits_off [6; 22] (sd_a2 d) \/
    In CPath ps /\ (bits_off [6; 22] (sd_a2 d) \/ bits_off [9; 10; 11] (sd_a3 d)))) /\
  (sd_nr d = SYS_creat -> (proceeds prog d <-> In CPath ps /\ bits_off [9; 10; 11] (sd_a1 d))) /\
  (sd_nr d = SYS_openat2 -> ~ proceeds prog d).
Proof.
  intros prof pid tid ps v prog d H Hv Hd. rewrite (proceeds_iff _ _ _ _ _ _ _ H Hv Hd).
  rewrite <- open_read_bits, <- open_write_bits, <- creating_bits, <- !special_mode_bits.
  split; [|split; [|split]]; intros Hn.
  - row SYS_open R. rewrite (R _ _ _ _ Hn). unpromise. tauto.
  - row SYS_openat R. rewrite (R _ _ _ _ Hn). unpromise. tauto.
  - row SYS_creat R. rewrite (R _ _ _ _ Hn). unpromise. tauto.
  - row SYS_openat2 R. rewrite (R _ _ _ _ Hn). tauto.
Qed.
Lemma c93_open_flags : forall prof pid tid ps v prog d d',
  filter_for prof pid tid ps v prog -> enforcing v -> native d -> native d' ->
  sd_nr d = SYS_open -> same_but_arg1 d d' -> (proceeds prog d <-> proceeds prog d').
Proof.
  intros prof pid tid ps v prog d d' H Hv Hd Hd' Hn (S1 & S2 & S3 & S4 & S5 & S6 & S7).
  rewrite (proj1 (c93 _ _ _ _ _ _ d H Hv Hd) Hn).
  rewrite (proj1 (c93 _ _ _ _ _ _ d' H Hv Hd') (eq_trans (eq_sym S1) Hn)).
  rewrite S4, S5. reflexivity.
Qed.

(** * C94 *)
Lemma c94 : forall prof pid tid ps v prog d,
  filter_for prof pid tid ps v prog -> enforcing v -> native d ->
  (sd_nr d = SYS_chmod \/ sd_nr d = SYS_fchmod \/ sd_nr d = SYS_fchmodat ->
   (proceeds prog d <-> (In WPath ps \/ In FAttr ps) /\ bits_off [9; 10; 11] (sd_a1 d))) /\
  (sd_nr d = SYS_mknod \/ sd_nr d = SYS_mknodat -> (proceeds prog d <-> In DPath ps)) /\
  (sd_nr d = SYS_mkdir \/ sd_nr d = SYS_mkdirat -> (proceeds prog d <-> In CPath ps)).
Proof.
  intros prof pid tid ps v prog d H Hv Hd. rewrite (proceeds_iff _ _ _ _ _ _ _ H Hv Hd).
  rewrite <- special_mode_bits. split; [|split].
  - intros [Hn|[Hn|Hn]].
    + row SYS_chmod R. rewrite (R _ _ _ _ Hn). unpromise. tauto.
    + row SYS_fchmod R. rewrite (R _ _ _ _ Hn). unpromise. tauto.
    + row SYS_fchmodat R. rewrite (R _ _ _ _ Hn). unpromise. tauto.
  - intros [Hn|Hn].
    + row SYS_mknod R. rewrite (R _ _ _ _ Hn). unpromise. tauto.
    + row SYS_mknodat R. rewrite (R _ _ _ _ Hn). unpromise. tauto.
  - intros [Hn|Hn].
    + row SYS_mkdir R. rewrite (R _ _ _ _ Hn). unpromise. tauto.
    + row SYS_mkdirat R. rewrite (R _ _ _ _ Hn). unpromise. tauto.
Qed.
Lemma c94_fchmodat_mode : forall prof pid tid ps v prog d d',
  filter_for prof pid tid ps v prog -> enforcing v -> native d -> native d' ->
  sd_nr d = SYS_fchmodat -> same_but_arg2 d d' -> (proceeds prog d <-> proceeds prog d').
Proof.
  intros prof pid tid ps v prog d d' H Hv Hd Hd' Hn (S1 & S2 & S3 & S4 & S5 & S6 & S7).
  rewrite (proj1 (c94 _ _ _ _ _ _ d H Hv Hd)) by auto.
  rewrite (proj1 (c94 _ _ _ _ _ _ d' H Hv Hd')) by (rewrite <- S1; auto).
  rewrite S4. reflexivity.
Qed.

(** * C95 *)
Lemma c95 : forall prof pid tid ps v prog d,
  filter_for prof pid tid ps v prog -> enforcing v -> native d ->
  (sd_nr d = SYS_mmap ->
   (proceeds prog d <->
    In StdIO ps /\ sd_a2 d mod 2 ^ 32 < 3 /\ bits_off [13; 15; 16; 18] (sd_a3 d) \/
    In ProtExec ps /\ bits_off [13; 16; 18] (sd_a3 d))) /\
  (sd_nr d = SYS_mprotect ->
   (proceeds prog d <-> In StdIO ps /\ sd_a2 d mod 2 ^ 32 < 4 \/ In ProtExec ps)) /\
  (sd_nr d = SYS_munmap \/ sd_nr d = SYS_brk -> (proceeds prog d <-> In StdIO ps)).
Proof.
  intros prof pid tid ps v prog d H Hv Hd. rewrite (proceeds_iff _ _ _ _ _ _ _ H Hv Hd).
  rewrite !bits_off_clear.
  change (fold_right _ 0 [13; 15; 16; 18]) with (MAP_LOCKED + MAP_POPULATE + MAP_NONBLOCK + MAP_HUGETLB).
  change (fold_right _ 0 [13; 16; 18]) with (MAP_LOCKED + MAP_NONBLOCK + MAP_HUGETLB).
  change (sd_a2 d mod 2 ^ 32) with (lo32 (sd_a2 d)).
  split; [|split].
  - intros Hn. row SYS_mmap R. rewrite (R _ _ _ _ Hn). unpromise.
    assert (A : lo32 (sd_a2 d) <= 2 <-> lo32 (sd_a2 d) < 3) by lia. tauto.
  - intros Hn. row SYS_mprotect R. rewrite (R _ _ _ _ Hn). unpromise.
    assert (A : lo32 (sd_a2 d) <= 3 <-> lo32 (sd_a2 d) < 4) by lia. tauto.
  - intros [Hn|Hn].
    + row SYS_munmap R. rewrite (R _ _ _ _ Hn). unpromise. tauto.
    + row SYS_brk R. rewrite (R _ _ _ _ Hn). unpromise. tauto.
Qed.

(** * C96 *)
Lemma c96 : forall prof pid tid ps v prog d,
  filter_for prof pid tid ps v prog -> enforcing v -> native d ->
  (sd_nr d = SYS_kill -> (proceeds prog d <-> In StdIO ps /\ sd_a0 d mod 2 ^ 32 = pid \/ In Proc ps)) /\
  (sd_nr d = SYS_tkill ->
   (proceeds prog d <-> In StdIO ps /\ sd_a0 d mod 2 ^ 32 = tid mod 2 ^ 32 \/ In Proc ps)) /\
  (sd_nr d = SYS_tgkill -> (proceeds prog d <-> In Proc ps)) /\
  ~ (In (sd_nr d) [SYS_rt_sigqueueinfo; SYS_rt_tgsigqueueinfo; SYS_pidfd_send_signal] /\ proceeds prog d).
Proof.
  intros prof pid tid ps v prog d H Hv Hd. rewrite (proceeds_iff _ _ _ _ _ _ _ H Hv Hd).
  change (sd_a0 d mod 2 ^ 32) with (lo32 (sd_a0 d)). change (tid mod 2 ^ 32) with (lo32 tid).
  split; [|split; [|split]].
  - intros Hn. row SYS_kill R. rewrite (R _ _ _ _ Hn). unpromise. tauto.
  - intros Hn. row SYS_tkill R. rewrite (R _ _ _ _ Hn). unpromise. tauto.
  - intros Hn. row SYS_tgkill R. rewrite (R _ _ _ _ Hn). unpromise. tauto.
  - intros [[Hn|[Hn|[Hn|[]]]] G]; symmetry in Hn.
    + row SYS_rt_sigqueueinfo R. apply (R _ _ _ _ Hn) in G. exact G.
    + row SYS_rt_tgsigqueueinfo R. apply (R _ _ _ _ Hn) in G. exact G.
    + row SYS_pidfd_send_signal R. apply (R _ _ _ _ Hn) in G. exact G.
Qed.

(** * C97 *)
Lemma c97 : forall prof pledges fs d,
  stack_of prof pledges fs -> Forall (fun i => enforcing (i_v i)) pledges -> native d ->
  (syscall_entry fs d = Proceed <->
   Forall (fun i => granted (i_ps i) (i_pid i) (i_tid i) d) pledges).
Proof.
  intros prof pledges fs d St Hv Hd.
  rewrite (c43_proceeds prof pledges fs d St).
  - unfold stack_of in St. induction St as [|i f pledges fs F St IH].
    + split; constructor.
    + inversion Hv as [|? ? V1 V2]. subst. specialize (IH V2).
      split; intros A; inversion A as [|? ? A1 A2]; subst; constructor.
      * apply (proceeds_iff _ _ _ _ _ _ _ F V1 Hd). exact A1.
      * apply IH. exact A2.
      * apply (proceeds_iff _ _ _ _ _ _ _ F V1 Hd). exact A1.
      * apply IH. exact A2.
  - eapply Forall_impl; [|exact Hv]. intros i V. apply V.
  - exact Hd.
Qed.

Lemma c97_no_list : forall prof pid tid f f',
  filter_for prof pid tid [RPath] KillProcess f -> filter_for prof pid tid [WPath] KillProcess f' ->
  forall ps v prog, filter_for prof pid tid ps v prog -> enforcing v ->
  exists d, native d /\ ~ (syscall_entry [f'; f] d = Proceed <-> proceeds prog d).
Proof.
  intros prof pid tid f f' F F' ps v prog H Hv.
  assert (K : enforcing KillProcess) by (split; [exact I|split; discriminate]).
  assert (B : forall d, native d ->
    (syscall_entry [f'; f] d = Proceed <-> granted [RPath] pid tid d /\ granted [WPath] pid tid d)).
  { intros d Hd.
    rewrite (c97 prof [mkInst pid tid [WPath] KillProcess; mkInst pid tid [RPath] KillProcess] [f'; f] d).
    - split.
      + intros A. inversion A as [|? ? A1 A2]. inversion A2 as [|? ? A3 A4]. split; assumption.
      + intros [A1 A2]. repeat constructor; assumption.
    - repeat constructor; assumption.
    - repeat (constructor; [exact K|]). constructor.
    - exact Hd. }
  destruct (in_dec promise_eq_dec RPath ps) as [Ir|Nr].
  - set (d := call6 SYS_chdir 1 0 0 0 0 0). assert (W : native d) by wf.
    exists d. split; [exact W|]. rewrite (B d W), (proceeds_iff _ _ _ _ _ _ _ H Hv W).
    row SYS_chdir R. rewrite !(R _ _ _ d eq_refl). unpromise. clear - Ir.
    intros [_ A]. destruct A as [_ A]; [tauto|]. cbn [In] in A. clear - A. intuition discriminate.
  - destruct (in_dec promise_eq_dec WPath ps) as [Iw|Nw].
    + set (d := call6 SYS_truncate 1 0 0 0 0 0). assert (W : native d) by wf.
      exists d. split; [exact W|]. rewrite (B d W), (proceeds_iff _ _ _ _ _ _ _ H Hv W).
      row SYS_truncate R. rewrite !(R _ _ _ d eq_refl). unpromise. clear - Iw.
      intros [_ A]. destruct A as [A _]; [tauto|]. cbn [In] in A. clear - A. intuition discriminate.
    + set (d := call6 SYS_stat 1 2 0 0 0 0). assert (W : native d) by wf.
      exists d. split; [exact W|]. rewrite (B d W), (proceeds_iff _ _ _ _ _ _ _ H Hv W).
      row SYS_stat R. rewrite !(R _ _ _ d eq_refl). unpromise. clear - Nr Nw.
      intros [A _]. cbn [In] in A.
      destruct A as [[[A|[A|[]]] _]|[]]; [|exact (Nr A)|exact (Nw A)].
      split; left; (split; [|exact I]); [left|right; left]; left; reflexivity.
Qed.

(** * C78 *)
Lemma c78_mistaken : forall prof pid tid f v prog d,
  In f [OpenReadonly; OpenWriteonly; OpenCreateonly; FchmodatNobits; SetsockoptRestrict] ->
  rule_filter prof pid tid f v prog -> enforcing v -> native d ->
  (proceeds prog d <-> documented f pid tid (mistaken f d)).
Proof.
  intros prof pid tid f v prog d Hf H Hv Hd.
  rewrite (rule_proceeds _ _ _ _ _ _ _ H Hv Hd). unfold documented.
  destruct Hf as [<-|[<-|[<-|[<-|[<-|[]]]]]]; cbn [rule_of fst snd args_ok documented_call documented_args
    mistaken sd_nr sd_a0 sd_a1 sd_a2 sd_a3].
  - change (as_u32 SYS_open) with SYS_open.
    unfold doc_readonly. rewrite none_clear. cbn [fold_right]. rewrite !lo32_land by reflexivity.
    change (N.lor creat_flag (N.lor trunc_flag (N.lor tmpfile_flag 0))) with
      (N.lor O_CREAT (N.lor O_TRUNC (2 ^ 22))).
    fold (clear (N.lor O_CREAT (N.lor O_TRUNC (2 ^ 22))) (sd_a2 d)). rewrite !clear_lor.
    unfold clear at 4. unfold O_ACCMODE. tauto.
  - change (as_u32 SYS_open) with SYS_open.
    unfold doc_writeonly. rewrite none_clear. cbn [fold_right]. rewrite !lo32_land by reflexivity.
    change (N.lor creat_flag (N.lor tmpfile_flag 0)) with (N.lor O_CREAT (2 ^ 22)).
    fold (clear (N.lor O_CREAT (2 ^ 22)) (sd_a2 d)). rewrite !clear_lor. unfold O_ACCMODE. tauto.
  - change (as_u32 SYS_open) with SYS_open.
    unfold doc_createonly. destruct (none_dec [creat_flag; tmpfile_flag] (lo32 (sd_a2 d))) as [D|D].
    + assert (C : clear (O_CREAT + 2 ^ 22) (sd_a2 d))
        by (rewrite none_clear, lo32_land in D by reflexivity; exact D). tauto.
    + assert (C : ~ clear (O_CREAT + 2 ^ 22) (sd_a2 d))
        by (intros C; apply D; rewrite none_clear, lo32_land by reflexivity; exact C).
      rewrite (none_clear special_bits), lo32_land by reflexivity.
      change (N.land (sd_a3 d) (fold_right N.lor 0 special_bits) = 0) with (clear suid_bits (sd_a3 d)).
      tauto.
  - change (as_u32 SYS_fchmodat) with SYS_fchmodat.
    rewrite none_clear, lo32_land by reflexivity. reflexivity.
  - change (as_u32 SYS_getsockopt) with SYS_getsockopt.
    destruct (N.eqb_spec (sd_nr d) SYS_getsockopt) as [E|E].
    + split; [intros [_ A]; split; [reflexivity|exact A]|intros [_ A]; split; [exact E|exact A]].
    + split; [tauto|]. intros [A _]. discriminate A.
Qed.
