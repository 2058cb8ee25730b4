(** Properties C14-C35 as lemmas. *)
From Coq Require Import NArith ZArith String List Bool Lia.
From Verif Require Import Libc Machine Bpf SeccompRet Asm Vm Promises Filters Kernel World Spec
  FragProofs PolicyProofs.
Import ListNotations.
Local Open Scope N_scope.

Ltac use H Hv Hd P :=
  apply (proj1 (proceeds_iff _ _ _ _ _ _ _ H Hv Hd)) in P.

Lemma promised_not_default : forall p ps, p <> Default -> (promised p ps <-> In p ps).
Proof. unfold promised. intros. intuition. Qed.

Ltac unpromise :=
  repeat match goal with
  | H : context [promised ?p ?ps] |- _ =>
      rewrite (promised_not_default p ps) in H by discriminate
  | |- context [promised ?p ?ps] => rewrite (promised_not_default p ps) by discriminate
  end.

(** * C14 *)
Lemma c14_build : forall prof pid tid ps v,
  exists prog, promises_to_prog prof (mkEnv (Ok pid) (Ok tid)) ps v = Ok prog.
Proof. intros. eexists. apply promises_to_prog_ok. Qed.

(** * C15 *)
Lemma c15 : forall prof pid tid ps v prog d,
  filter_for prof pid tid ps v prog -> native d ->
  (granted ps pid tid d -> kernel_eval prog d = SECCOMP_RET_ALLOW) /\
  (~ granted ps pid tid d -> kernel_eval prog d = ret_into v).
Proof. exact verdict. Qed.

(** * C17 *)
Lemma c17 : forall prof pid tid ps v prog d,
  filter_for prof pid tid ps v prog -> native d ->
  N.testbit (sd_nr d) 30 = true \/ 512 <= sd_nr d ->
  kernel_eval prog d = ret_into v.
Proof.
  intros prof pid tid ps v prog d H Hd Hn. apply (verdict _ _ _ _ _ _ _ H Hd).
  intros G. apply granted_lt_512 in G. destruct Hn as [Hn|Hn]; [apply x32_ge in Hn|]; lia.
Qed.

(** * C18 *)
Lemma c18 : forall prof prof' pid tid ps ps' v prog prog' d,
  (forall p, In p ps <-> In p ps') ->
  filter_for prof pid tid ps v prog -> filter_for prof' pid tid ps' v prog' ->
  kernel_eval prog d = kernel_eval prog' d.
Proof.
  intros prof prof' pid tid ps ps' v prog prog' d Hp H H'.
  rewrite (filter_for_pcode _ _ _ _ _ _ H), (filter_for_pcode _ _ _ _ _ _ H').
  unfold kernel_eval. rewrite !pcode_run. destruct (lo32 (sd_arch d) =? X86_64); [|reflexivity].
  destruct (existsb (ruleb pid tid d) (all_filters ps)) eqn:E1;
    destruct (existsb (ruleb pid tid d) (all_filters ps')) eqn:E2; try reflexivity; exfalso.
  - apply (existsb_filters_incl _ ps ps') in E1; [congruence|apply Hp].
  - apply (existsb_filters_incl _ ps' ps) in E2; [congruence|apply Hp].
Qed.

(** * C19 *)
Lemma c19 : forall prof prof' pid tid ps ps' v prog prog' d,
  (forall p, In p ps -> In p ps') ->
  filter_for prof pid tid ps v prog -> filter_for prof' pid tid ps' v prog' ->
  (kernel_eval prog d = SECCOMP_RET_ALLOW -> kernel_eval prog' d = SECCOMP_RET_ALLOW) /\
  (proceeds prog d -> proceeds prog' d).
Proof.
  intros prof prof' pid tid ps ps' v prog prog' d Hp H H'. unfold proceeds.
  rewrite !single_entry.
  rewrite (filter_for_pcode _ _ _ _ _ _ H), (filter_for_pcode _ _ _ _ _ _ H').
  unfold kernel_eval. rewrite !pcode_run. destruct (lo32 (sd_arch d) =? X86_64); [|split; auto].
  destruct (existsb (ruleb pid tid d) (all_filters ps)) eqn:E1.
  - rewrite (existsb_filters_incl _ ps ps' Hp E1). split; auto.
  - destruct (existsb (ruleb pid tid d) (all_filters ps')) eqn:E2; split; reflexivity || auto.
Qed.

(** * C20 *)
Lemma c20 : forall prof pid tid ps v prog d d',
  filter_for prof pid tid ps v prog -> wf_data d -> wf_data d' ->
  sd_nr d = sd_nr d' -> sd_arch d = sd_arch d' ->
  lo32 (sd_a0 d) = lo32 (sd_a0 d') -> lo32 (sd_a1 d) = lo32 (sd_a1 d') ->
  lo32 (sd_a2 d) = lo32 (sd_a2 d') -> lo32 (sd_a3 d) = lo32 (sd_a3 d') ->
  lo32 (sd_a4 d) = lo32 (sd_a4 d') ->
  (sd_nr d = SYS_sendto -> hi32 (sd_a4 d) = hi32 (sd_a4 d')) ->
  kernel_eval prog d = kernel_eval prog d'.
Proof.
  intros prof pid tid ps v prog d d' H (Hn & _) _. intros.
  rewrite (filter_for_pcode _ _ _ _ _ _ H). apply verdict_agree; assumption.
Qed.

(** * C21 *)
Lemma c21_exit : forall prof pid tid ps v prog d,
  filter_for prof pid tid ps v prog -> native d -> sd_nr d = SYS_exit -> proceeds prog d.
Proof.
  intros prof pid tid ps v prog d H Hd Hn. unfold proceeds. rewrite single_entry.
  rewrite (proj1 (verdict _ _ _ _ _ _ _ H Hd)); [reflexivity|].
  row SYS_exit R. apply (R ps pid tid d Hn). unfold promised. tauto.
Qed.

Lemma c21_empty : forall prof pid tid v prog d,
  filter_for prof pid tid [] v prog -> enforcing v -> native d ->
  (proceeds prog d <-> sd_nr d = SYS_exit).
Proof.
  intros prof pid tid v prog d H Hv Hd. split; [|apply (c21_exit _ _ _ _ _ _ _ H Hd)].
  intros P. use H Hv Hd P. apply fgrant in P; [|apply Hd]. apply existsb_exists in P.
  destruct P as [f [Hf P]]. unfold all_filters in Hf. cbn in Hf.
  destruct Hf as [<-|[]]. unfold ruleb in P. apply andb_true_iff in P. destruct P as [P _].
  apply N.eqb_eq in P. rewrite lo32_small in P by apply Hd. exact P.
Qed.

(** * C22 *)
Lemma dangerous_unlisted :
  forallb (fun nr => match row_of nr with None => true | Some _ => false end) dangerous = true.
Proof. vm_compute. reflexivity. Qed.

Lemma c22 : forall prof pid tid ps v prog d,
  filter_for prof pid tid ps v prog -> native d -> In (sd_nr d) dangerous ->
  kernel_eval prog d = ret_into v /\ (enforcing v -> ~ proceeds prog d).
Proof.
  intros prof pid tid ps v prog d H Hd Hn.
  assert (G : ~ granted ps pid tid d).
  { rewrite granted_row. pose proof dangerous_unlisted as F. rewrite forallb_forall in F.
    specialize (F _ Hn). destruct (row_of (sd_nr d)); [discriminate|tauto]. }
  split; [apply (verdict _ _ _ _ _ _ _ H Hd); exact G|].
  intros Hv P. use H Hv Hd P. contradiction.
Qed.

(** * C23 *)
Lemma le3_no_exec : forall x, lo32 x <= 3 -> clear PROT_EXEC x.
Proof.
  intros x H. unfold clear. rewrite <- lo32_land by reflexivity.
  assert (L : lo32 x = 0 \/ lo32 x = 1 \/ lo32 x = 2 \/ lo32 x = 3) by lia.
  destruct L as [->|[->|[->| ->]]]; reflexivity.
Qed.

Lemma c23 : forall prof pid tid ps v prog d,
  filter_for prof pid tid ps v prog -> enforcing v -> native d -> ~ In ProtExec ps ->
  proceeds prog d ->
  (sd_nr d = SYS_mmap -> clear PROT_EXEC (sd_a2 d)) /\
  (sd_nr d = SYS_mprotect -> clear PROT_EXEC (sd_a2 d)) /\
  sd_nr d <> SYS_pkey_mprotect.
Proof.
  intros prof pid tid ps v prog d H Hv Hd Hp P. use H Hv Hd P.
  repeat split; intros Hn.
  - row SYS_mmap R. apply (R _ _ _ _ Hn) in P. unpromise. apply le3_no_exec.
    destruct P as [[_ [P _]]|[[[P|[]] _]|[]]]; [lia|contradiction].
  - row SYS_mprotect R. apply (R _ _ _ _ Hn) in P. unpromise. apply le3_no_exec.
    destruct P as [[_ P]|[[[P|[]] _]|[]]]; [lia|contradiction].
  - row SYS_pkey_mprotect R. apply (R _ _ _ _ Hn) in P. exact P.
Qed.

(** * C24 *)
Lemma c24 : forall prof pid tid ps v prog d,
  filter_for prof pid tid ps v prog -> enforcing v -> native d ->
  sd_nr d = SYS_execve \/ sd_nr d = SYS_execveat ->
  (proceeds prog d <-> In Exec ps).
Proof.
  intros prof pid tid ps v prog d H Hv Hd Hn. rewrite (proceeds_iff _ _ _ _ _ _ _ H Hv Hd).
  destruct Hn as [Hn|Hn].
  - row SYS_execve R. rewrite (R _ _ _ _ Hn). unpromise. tauto.
  - row SYS_execveat R. rewrite (R _ _ _ _ Hn). unpromise. tauto.
Qed.

(** * C25 *)
Lemma c25 : forall prof pid tid ps v prog d,
  filter_for prof pid tid ps v prog -> enforcing v -> native d -> proceeds prog d ->
  (~ In Proc ps ->
     sd_nr d <> SYS_fork /\ sd_nr d <> SYS_vfork /\
     (sd_nr d = SYS_clone ->
      has CLONE_VM (sd_a0 d) /\ has CLONE_FS (sd_a0 d) /\ has CLONE_FILES (sd_a0 d) /\
      has CLONE_THREAD (sd_a0 d) /\ has CLONE_SIGHAND (sd_a0 d))) /\
  sd_nr d <> SYS_clone3 /\
  (sd_nr d = SYS_clone ->
   clear CLONE_NEWNS (sd_a0 d) /\ clear CLONE_PTRACE (sd_a0 d) /\ clear CLONE_UNTRACED (sd_a0 d)).
Proof.
  intros prof pid tid ps v prog d H Hv Hd P. use H Hv Hd P. repeat split; intros.
  - intros Hn. row SYS_fork R. apply (R _ _ _ _ Hn) in P. unpromise. tauto.
  - intros Hn. row SYS_vfork R. apply (R _ _ _ _ Hn) in P. unpromise. tauto.
  - row SYS_clone R. apply (R _ _ _ _ H1) in P. unpromise. tauto.
  - row SYS_clone R. apply (R _ _ _ _ H1) in P. unpromise. tauto.
  - row SYS_clone R. apply (R _ _ _ _ H1) in P. unpromise. tauto.
  - row SYS_clone R. apply (R _ _ _ _ H1) in P. unpromise. tauto.
  - row SYS_clone R. apply (R _ _ _ _ H1) in P. unpromise. tauto.
  - intros Hn. row SYS_clone3 R. apply (R _ _ _ _ Hn) in P. exact P.
  - row SYS_clone R. apply (R _ _ _ _ H0) in P. tauto.
  - row SYS_clone R. apply (R _ _ _ _ H0) in P. tauto.
  - row SYS_clone R. apply (R _ _ _ _ H0) in P. tauto.
Qed.

(** With StdIO the documented thread-creating clone is allowed, with Proc every clone without
    the three flags. *)
Lemma c25_allows : forall prof pid tid ps v prog d,
  filter_for prof pid tid ps v prog -> native d ->
  (In Proc ps -> sd_nr d = SYS_fork \/ sd_nr d = SYS_vfork -> proceeds prog d) /\
  (sd_nr d = SYS_clone ->
   clear CLONE_NEWNS (sd_a0 d) /\ clear CLONE_PTRACE (sd_a0 d) /\ clear CLONE_UNTRACED (sd_a0 d) ->
   (In Proc ps \/
    In StdIO ps /\
    (has CLONE_VM (sd_a0 d) /\ has CLONE_FS (sd_a0 d) /\ has CLONE_FILES (sd_a0 d) /\
     has CLONE_THREAD (sd_a0 d) /\ has CLONE_SIGHAND (sd_a0 d))) ->
   proceeds prog d).
Proof.
  intros prof pid tid ps v prog d H Hd. unfold proceeds. rewrite single_entry.
  split; intros; rewrite (proj1 (verdict _ _ _ _ _ _ _ H Hd)); try reflexivity.
  - destruct H1 as [Hn|Hn].
    + row SYS_fork R. apply (R _ _ _ _ Hn). unpromise. tauto.
    + row SYS_vfork R. apply (R _ _ _ _ Hn). unpromise. tauto.
  - row SYS_clone R. apply (R _ _ _ _ H0). unpromise. tauto.
Qed.

(** * C26 *)
Lemma c26 : forall prof pid tid ps v prog d,
  tid < 2 ^ 32 ->
  filter_for prof pid tid ps v prog -> enforcing v -> native d -> ~ In Proc ps ->
  proceeds prog d ->
  (sd_nr d = SYS_kill -> lo32 (sd_a0 d) = pid) /\
  (sd_nr d = SYS_tkill -> lo32 (sd_a0 d) = tid) /\
  sd_nr d <> SYS_tgkill.
Proof.
  intros prof pid tid ps v prog d Ht H Hv Hd Hp P. use H Hv Hd P. repeat split; intros Hn.
  - row SYS_kill R. apply (R _ _ _ _ Hn) in P. unpromise. tauto.
  - row SYS_tkill R. apply (R _ _ _ _ Hn) in P. unpromise.
    rewrite (lo32_small tid Ht) in P. tauto.
  - row SYS_tgkill R. apply (R _ _ _ _ Hn) in P. unpromise. tauto.
Qed.

(** * C27 *)
(** Only these promises grant calls of these rows. *)
Definition row_needs (needs : list Promise) (nr : N) : bool :=
  match row_of nr with
  | None => true
  | Some alts => forallb (fun alt => forallb (fun p => existsb (promise_eqb p) needs) (snd alt)) alts
  end.

Lemma row_needs_sound : forall needs ps pid tid d,
  row_needs needs (sd_nr d) = true -> granted ps pid tid d ->
  exists p, In p needs /\ (p = Default \/ In p ps).
Proof.
  intros needs ps pid tid d R G. apply granted_row in G. unfold row_needs in R.
  destruct (row_of (sd_nr d)) as [alts|]; [|contradiction].
  apply alts_ok_iff in G. destruct G as (r & who & p & Ha & Hp & Hps & _).
  rewrite forallb_forall in R. specialize (R _ Ha). cbn [snd] in R.
  rewrite forallb_forall in R. specialize (R _ Hp). apply existsb_exists in R.
  destruct R as [q [Hq R]]. apply promise_eqb_eq in R. subst q. eauto.
Qed.

Lemma rows_need : forall needs l ps pid tid d,
  forallb (row_needs needs) l = true -> In (sd_nr d) l -> granted ps pid tid d ->
  exists p, In p needs /\ (p = Default \/ In p ps).
Proof.
  intros needs l ps pid tid d F Hi G. rewrite forallb_forall in F.
  exact (row_needs_sound _ _ _ _ _ (F _ Hi) G).
Qed.

Lemma c27_partial : forall prof pid tid ps v prog d,
  filter_for prof pid tid ps v prog -> enforcing v -> native d ->
  ~ In WPath ps -> ~ In CPath ps -> proceeds prog d ->
  (sd_nr d = SYS_openat -> read_only (sd_a2 d)) /\
  ~ In (sd_nr d) tree_changing /\
  (sd_nr d = SYS_unlink \/ sd_nr d = SYS_unlinkat -> In TmpPath ps) /\
  (sd_nr d = SYS_mknod \/ sd_nr d = SYS_mknodat -> In DPath ps).
Proof.
  intros prof pid tid ps v prog d H Hv Hd Hw Hc P. use H Hv Hd P.
  split; [|split; [|split]].
  - intros Hn. row SYS_openat R. apply (R _ _ _ _ Hn) in P. unpromise. unfold read_only. tauto.
  - intros Hi. destruct (rows_need [WPath; CPath] tree_changing ps pid tid d eq_refl Hi P) as [p [Hp Hps]].
    cbn [In] in Hp. destruct Hp as [<-|[<-|[]]]; destruct Hps as [E|Hps]; try discriminate; auto.
  - intros [Hn|Hn].
    + row SYS_unlink R. apply (R _ _ _ _ Hn) in P. unpromise. tauto.
    + row SYS_unlinkat R. apply (R _ _ _ _ Hn) in P. unpromise. tauto.
  - intros [Hn|Hn].
    + row SYS_mknod R. apply (R _ _ _ _ Hn) in P. unpromise. tauto.
    + row SYS_mknodat R. apply (R _ _ _ _ Hn) in P. unpromise. tauto.
Qed.

(** A record with the given number and arguments. *)
Definition call6 (nr a0 a1 a2 a3 a4 a5 : N) : seccomp_data := mkSD nr X86_64 0 a0 a1 a2 a3 a4 a5.

Lemma by_eval : forall prog d, entry_of (kernel_eval prog d) = Proceed -> proceeds prog d.
Proof. intros prog d H. unfold proceeds. rewrite single_entry. exact H. Qed.

Lemma by_grant : forall prof pid tid ps v prog d,
  filter_for prof pid tid ps v prog -> native d -> granted ps pid tid d -> proceeds prog d.
Proof.
  intros prof pid tid ps v prog d H Hd G. unfold proceeds. rewrite single_entry.
  rewrite (proj1 (verdict _ _ _ _ _ _ _ H Hd) G). reflexivity.
Qed.

Ltac wf := split; [repeat split; reflexivity|reflexivity].

(** open(path, O_WRONLY|O_CREAT|O_TRUNC, 0) under [RPath] alone. *)
Lemma c27_refuted : forall prof pid tid,
  exists prog d,
    filter_for prof pid tid [RPath] KillProcess prog /\ native d /\ proceeds prog d /\
    sd_nr d = SYS_open /\ has O_WRONLY (sd_a1 d) /\ has O_CREAT (sd_a1 d) /\
    has O_TRUNC (sd_a1 d) /\ ~ read_only (sd_a1 d).
Proof.
  intros prof pid tid. exists (pcode pid tid [RPath] KillProcess).
  exists (call6 SYS_open 0 (O_WRONLY + O_CREAT + O_TRUNC) 0 0 0 0).
  pose proof (filter_for_exists prof pid tid [RPath] KillProcess) as F.
  assert (W : native (call6 SYS_open 0 (O_WRONLY + O_CREAT + O_TRUNC) 0 0 0 0)) by wf.
  split; [exact F|]. split; [exact W|]. split.
  - apply (by_grant _ _ _ _ _ _ _ F W). row SYS_open R. apply R; [reflexivity|].
    left. unfold promised. cbn. repeat split; auto.
  - repeat split. unfold read_only. intros (A & _). vm_compute in A. discriminate.
Qed.

(** * C28 *)
Lemma c28_partial : forall prof pid tid ps v prog d,
  filter_for prof pid tid ps v prog -> enforcing v -> native d -> ~ In CPath ps ->
  proceeds prog d -> sd_nr d = SYS_openat -> ~ creates (sd_a2 d).
Proof.
  intros prof pid tid ps v prog d H Hv Hd Hc P Hn. use H Hv Hd P.
  row SYS_openat R. apply (R _ _ _ _ Hn) in P. unpromise. unfold creates. tauto.
Qed.

Lemma c28_refuted : forall prof pid tid,
  exists prog d,
    filter_for prof pid tid [StdIO; WPath] KillProcess prog /\ native d /\ proceeds prog d /\
    sd_nr d = SYS_open /\ creates (sd_a1 d).
Proof.
  intros prof pid tid. exists (pcode pid tid [StdIO; WPath] KillProcess).
  set (d := call6 SYS_open 0 (O_WRONLY + O_CREAT) 1 0 0 0). exists d.
  pose proof (filter_for_exists prof pid tid [StdIO; WPath] KillProcess) as F.
  assert (W : native d) by wf.
  split; [exact F|]. split; [exact W|]. split; [|split].
  - apply (by_grant _ _ _ _ _ _ _ F W). row SYS_open R. apply R; [reflexivity|].
    right. left. unfold promised. cbn. repeat split; auto.
  - reflexivity.
  - unfold creates. intros (A & _). vm_compute in A. discriminate.
Qed.

(** * C29 *)
Lemma c29_partial : forall prof pid tid ps v prog d,
  filter_for prof pid tid ps v prog -> enforcing v -> native d -> proceeds prog d ->
  (sd_nr d = SYS_chmod \/ sd_nr d = SYS_fchmod \/ sd_nr d = SYS_creat -> clear suid_bits (sd_a1 d)) /\
  (sd_nr d = SYS_openat -> creates (sd_a2 d) -> clear suid_bits (sd_a3 d)).
Proof.
  intros prof pid tid ps v prog d H Hv Hd P. use H Hv Hd P. split.
  - intros [Hn|[Hn|Hn]].
    + row SYS_chmod R. apply (R _ _ _ _ Hn) in P. tauto.
    + row SYS_fchmod R. apply (R _ _ _ _ Hn) in P. tauto.
    + row SYS_creat R. apply (R _ _ _ _ Hn) in P. tauto.
  - intros Hn C. row SYS_openat R. apply (R _ _ _ _ Hn) in P. unfold creates in C.
    change (O_CREAT + 2 ^ 22) with (N.lor O_CREAT (2 ^ 22)) in P. rewrite clear_lor in P. tauto.
Qed.

(** fchmodat(dir, path, 04755) under [FAttr]; the path pointer is 4096-aligned. *)
Lemma c29_refuted_fchmodat : forall prof pid tid,
  exists prog d,
    filter_for prof pid tid [FAttr] KillProcess prog /\ native d /\ proceeds prog d /\
    sd_nr d = SYS_fchmodat /\ has S_ISUID (sd_a2 d).
Proof.
  intros prof pid tid. exists (pcode pid tid [FAttr] KillProcess).
  set (d := call6 SYS_fchmodat 3 4096 2541 0 0 0). exists d.
  pose proof (filter_for_exists prof pid tid [FAttr] KillProcess) as F.
  assert (W : native d) by wf.
  split; [exact F|]. split; [exact W|]. split; [|split].
  - apply (by_grant _ _ _ _ _ _ _ F W). row SYS_fchmodat R. apply R; [reflexivity|].
    left. split; [|reflexivity]. right. left. right. left. reflexivity.
  - reflexivity.
  - reflexivity.
Qed.

(** open(path, O_WRONLY|O_CREAT, 04755) under [CPath]. *)
Lemma c29_refuted_open : forall prof pid tid,
  exists prog d,
    filter_for prof pid tid [CPath] KillProcess prog /\ native d /\ proceeds prog d /\
    sd_nr d = SYS_open /\ creates (sd_a1 d) /\ has S_ISUID (sd_a2 d).
Proof.
  intros prof pid tid. exists (pcode pid tid [CPath] KillProcess).
  set (d := call6 SYS_open 4096 (O_WRONLY + O_CREAT) 2541 0 0 0). exists d.
  pose proof (filter_for_exists prof pid tid [CPath] KillProcess) as F.
  assert (W : native d) by wf.
  split; [exact F|]. split; [exact W|]. split; [|split; [|split]].
  - apply (by_grant _ _ _ _ _ _ _ F W). row SYS_open R. apply R; [reflexivity|].
    right. right. left. split; [|right; reflexivity]. left. right. left. reflexivity.
  - reflexivity.
  - unfold creates. intros (A & _). vm_compute in A. discriminate.
  - reflexivity.
Qed.

(** * C30 *)
Lemma c30 : forall prof pid tid ps v prog d,
  filter_for prof pid tid ps v prog -> enforcing v -> native d ->
  (sd_nr d = SYS_socket ->
   (proceeds prog d <->
    ((In Inet ps \/ In Dns ps) /\ (lo32 (sd_a0 d) = AF_INET \/ lo32 (sd_a0 d) = AF_INET6) /\
     (sock_type (sd_a1 d) SOCK_STREAM \/ sock_type (sd_a1 d) SOCK_DGRAM) /\
     In (lo32 (sd_a2 d)) [0; IPPROTO_ICMP; IPPROTO_TCP; IPPROTO_UDP])
    \/ (In Unix ps /\ lo32 (sd_a0 d) = AF_UNIX /\
        (sock_type (sd_a1 d) SOCK_STREAM \/ sock_type (sd_a1 d) SOCK_DGRAM) /\
        lo32 (sd_a2 d) = 0))) /\
  (sd_nr d = SYS_bind \/ sd_nr d = SYS_connect ->
   (proceeds prog d <-> In Inet ps \/ In Unix ps \/ In Dns ps)) /\
  (sd_nr d = SYS_listen \/ sd_nr d = SYS_accept \/ sd_nr d = SYS_accept4 ->
   (proceeds prog d <-> In Inet ps \/ In Unix ps)) /\
  (sd_nr d = SYS_sendto ->
   (proceeds prog d <->
    In Inet ps \/ In Unix ps \/ In Dns ps \/ (In StdIO ps /\ sd_a4 d = 0))).
Proof.
  intros prof pid tid ps v prog d H Hv Hd. rewrite (proceeds_iff _ _ _ _ _ _ _ H Hv Hd).
  split; [|split; [|split]].
  - intros Hn. row SYS_socket R. rewrite (R _ _ _ _ Hn). unpromise. tauto.
  - intros [Hn|Hn].
    + row SYS_bind R. rewrite (R _ _ _ _ Hn). unpromise. tauto.
    + row SYS_connect R. rewrite (R _ _ _ _ Hn). unpromise. tauto.
  - intros [Hn|[Hn|Hn]].
    + row SYS_listen R. rewrite (R _ _ _ _ Hn). unpromise. tauto.
    + row SYS_accept R. rewrite (R _ _ _ _ Hn). unpromise. tauto.
    + row SYS_accept4 R. rewrite (R _ _ _ _ Hn). unpromise. tauto.
  - intros Hn. row SYS_sendto R. rewrite (R _ _ _ _ Hn). unpromise. tauto.
Qed.

(** * C31 *)
Lemma c31_partial : forall prof pid tid ps v prog d,
  filter_for prof pid tid ps v prog -> enforcing v -> native d ->
  ~ In Proc ps -> ~ In Id ps ->
  (sd_nr d = SYS_prlimit64 ->
   (proceeds prog d <-> In StdIO ps /\ sd_a2 d mod 2 ^ 32 = 0)) /\
  (sd_nr d = SYS_setrlimit -> ~ proceeds prog d).
Proof.
  intros prof pid tid ps v prog d H Hv Hd Hp Hi. rewrite (proceeds_iff _ _ _ _ _ _ _ H Hv Hd).
  split; intros Hn.
  - row SYS_prlimit64 R. rewrite (R _ _ _ _ Hn). unpromise. unfold lo32. rewrite u32_mod_val. tauto.
  - row SYS_setrlimit R. rewrite (R _ _ _ _ Hn). unpromise. tauto.
Qed.

Lemma c31_refuted : forall prof pid tid,
  exists prog d,
    filter_for prof pid tid [StdIO] KillProcess prog /\ native d /\ proceeds prog d /\
    sd_nr d = SYS_prlimit64 /\ sd_a2 d <> 0.
Proof.
  intros prof pid tid. exists (pcode pid tid [StdIO] KillProcess).
  set (d := call6 SYS_prlimit64 0 7 (0x7f12 * 2 ^ 32) 0 0 0). exists d.
  pose proof (filter_for_exists prof pid tid [StdIO] KillProcess) as F.
  assert (W : native d) by wf.
  split; [exact F|]. split; [exact W|]. split; [|split].
  - apply (by_grant _ _ _ _ _ _ _ F W). row SYS_prlimit64 R. apply R; [reflexivity|].
    unpromise. cbn [In]. left. split; [tauto|reflexivity].
  - reflexivity.
  - discriminate.
Qed.

(** * C32 *)
Lemma c32_partial : forall prof pid tid ps v prog d,
  filter_for prof pid tid ps v prog -> enforcing v -> native d ->
  (sd_nr d = SYS_setsockopt -> ~ proceeds prog d) /\
  (sd_nr d = SYS_getsockopt ->
   (proceeds prog d <->
    (In Inet ps \/ In Unix ps) /\
    ((In (lo32 (sd_a1 d)) getsockopt_levels /\ In (lo32 (sd_a2 d)) getsockopt_options) \/
     (In (lo32 (sd_a1 d)) setsockopt_levels /\ In (lo32 (sd_a2 d)) setsockopt_options)))).
Proof.
  intros prof pid tid ps v prog d H Hv Hd. rewrite (proceeds_iff _ _ _ _ _ _ _ H Hv Hd).
  split; intros Hn.
  - row SYS_setsockopt R. rewrite (R _ _ _ _ Hn). tauto.
  - row SYS_getsockopt R. rewrite (R _ _ _ _ Hn). unpromise. tauto.
Qed.

(** setsockopt(fd, SOL_SOCKET, SO_REUSEADDR) refused under every list containing Inet and Unix;
    getsockopt(fd, SOL_IP, IP_RECVTTL) granted. *)
Lemma c32_refuted : forall prof pid tid ps v prog,
  filter_for prof pid tid ps v prog -> enforcing v -> In Inet ps -> In Unix ps ->
  (exists d, native d /\ sd_nr d = SYS_setsockopt /\ In (lo32 (sd_a1 d)) setsockopt_levels /\
             In (lo32 (sd_a2 d)) setsockopt_options /\ ~ proceeds prog d) /\
  (exists d, native d /\ sd_nr d = SYS_getsockopt /\ ~ In (lo32 (sd_a1 d)) getsockopt_levels /\
             ~ In (lo32 (sd_a2 d)) getsockopt_options /\ proceeds prog d).
Proof.
  intros prof pid tid ps v prog H Hv Hi Hu. split.
  - exists (call6 SYS_setsockopt 3 SOL_SOCKET SO_REUSEADDR 0 4 0).
    assert (W : native (call6 SYS_setsockopt 3 SOL_SOCKET SO_REUSEADDR 0 4 0)) by wf.
    split; [exact W|]. split; [reflexivity|].
    split; [right; left; reflexivity|]. split.
    + apply memb_In. vm_compute. reflexivity.
    + apply (c32_partial _ _ _ _ _ _ _ H Hv W). reflexivity.
  - exists (call6 SYS_getsockopt 3 SOL_IP IP_RECVTTL 0 4 0).
    assert (W : native (call6 SYS_getsockopt 3 SOL_IP IP_RECVTTL 0 4 0)) by wf.
    split; [exact W|]. split; [reflexivity|]. split; [|split].
    + rewrite <- memb_In. vm_compute. discriminate.
    + rewrite <- memb_In. vm_compute. discriminate.
    + apply (c32_partial _ _ _ _ _ _ _ H Hv W); [reflexivity|].
      split; [auto|]. right. rewrite <- !memb_In. vm_compute. auto.
Qed.

(** * C33 *)
Lemma c33_partial : forall prof pid tid ps v prog d,
  filter_for prof pid tid ps v prog -> enforcing v -> native d ->
  (sd_nr d = SYS_sendmsg \/ sd_nr d = SYS_sendmmsg -> ~ proceeds prog d) /\
  (sd_nr d = SYS_recvmsg \/ sd_nr d = SYS_recvmmsg ->
   (proceeds prog d <-> In RecvFd ps \/ In SendFd ps)).
Proof.
  intros prof pid tid ps v prog d H Hv Hd. rewrite (proceeds_iff _ _ _ _ _ _ _ H Hv Hd).
  split; intros [Hn|Hn].
  - row SYS_sendmsg R. rewrite (R _ _ _ _ Hn). tauto.
  - row SYS_sendmmsg R. rewrite (R _ _ _ _ Hn). tauto.
  - row SYS_recvmsg R. rewrite (R _ _ _ _ Hn). unpromise. tauto.
  - row SYS_recvmmsg R. rewrite (R _ _ _ _ Hn). unpromise. tauto.
Qed.

Lemma c33_refuted : forall prof pid tid ps v prog,
  filter_for prof pid tid ps v prog -> enforcing v -> In SendFd ps ->
  exists d, native d /\ sd_nr d = SYS_sendmsg /\ ~ proceeds prog d.
Proof.
  intros prof pid tid ps v prog H Hv _. exists (call6 SYS_sendmsg 3 4096 0 0 0 0).
  assert (W : native (call6 SYS_sendmsg 3 4096 0 0 0 0)) by wf.
  split; [exact W|]. split; [reflexivity|].
  apply (c33_partial _ _ _ _ _ _ _ H Hv W). left. reflexivity.
Qed.

(** * C34 *)
Lemma c34_partial : forall prof pid tid ps v prog d,
  filter_for prof pid tid ps v prog -> native d -> In StdIO ps -> sd_nr d = SYS_mmap ->
  clear (MAP_LOCKED + MAP_POPULATE + MAP_NONBLOCK + MAP_HUGETLB) (sd_a3 d) ->
  sd_a2 d = PROT_NONE \/ sd_a2 d = PROT_READ \/ sd_a2 d = PROT_WRITE ->
  proceeds prog d.
Proof.
  intros prof pid tid ps v prog d H Hd Hs Hn Hf Hp. apply (by_grant _ _ _ _ _ _ _ H Hd).
  row SYS_mmap R. apply (R _ _ _ _ Hn). unpromise. left. split; [tauto|]. split; [|exact Hf].
  destruct Hp as [->|[->| ->]]; vm_compute; discriminate.
Qed.

Lemma c34_refuted : forall prof pid tid ps v prog,
  filter_for prof pid tid ps v prog -> enforcing v -> In StdIO ps -> ~ In ProtExec ps ->
  exists d, native d /\ sd_nr d = SYS_mmap /\
    clear (MAP_LOCKED + MAP_POPULATE + MAP_NONBLOCK + MAP_HUGETLB) (sd_a3 d) /\
    sd_a2 d = PROT_READ + PROT_WRITE /\ ~ proceeds prog d.
Proof.
  intros prof pid tid ps v prog H Hv _ Hx.
  set (d := call6 SYS_mmap 0 4096 3 0x22 0xffffffff 0). exists d.
  assert (W : native d) by wf.
  split; [exact W|]. split; [reflexivity|]. split; [reflexivity|]. split; [reflexivity|].
  intros P. use H Hv W P. row SYS_mmap R. apply R in P; [|reflexivity]. unpromise.
  destruct P as [[_ [P _]]|[[[P|[]] _]|[]]]; [vm_compute in P; congruence|contradiction].
Qed.

(** * C35 *)
Lemma c35 : forall prof pid tid ps v prog d,
  filter_for prof pid tid ps v prog -> enforcing v -> native d ->
  (sd_nr d = SYS_fcntl ->
   (proceeds prog d <->
    In StdIO ps /\ In (lo32 (sd_a1 d)) [0; 1; 2; 3; 4; 1030] \/
    In FLock ps /\ In (lo32 (sd_a1 d)) [F_GETLK; F_SETLK; F_SETLKW])) /\
  (sd_nr d = SYS_ioctl ->
   (proceeds prog d <->
    In StdIO ps /\ In (lo32 (sd_a1 d)) [FIONREAD; FIONBIO; FIOCLEX; FIONCLEX] \/
    In Inet ps /\ lo32 (sd_a1 d) = 0x8905 \/
    In Tty ps /\ In (lo32 (sd_a1 d))
      [TCGETS; TCSETS; TCSETSW; TCSETSF; TIOCGWINSZ; TIOCSPGRP; TIOCGPGRP; TIOCSWINSZ;
       TCFLSH; TCXONC; TCSBRK; TIOCSBRK])) /\
  (sd_nr d = SYS_prctl ->
   (proceeds prog d <->
    In StdIO ps /\ In (lo32 (sd_a0 d))
      [PR_SET_NAME; PR_GET_NAME; PR_GET_SECCOMP; PR_SET_SECCOMP; PR_SET_NO_NEW_PRIVS;
       PR_CAPBSET_READ; PR_CAPBSET_DROP])).
Proof.
  intros prof pid tid ps v prog d H Hv Hd. rewrite (proceeds_iff _ _ _ _ _ _ _ H Hv Hd).
  split; [|split]; intros Hn.
  - row SYS_fcntl R. rewrite (R _ _ _ _ Hn). unpromise. unfold fcntl_locks. cbn [In].
    unfold F_GETLK, F_SETLK, F_SETLKW.
    assert (L : lo32 (sd_a1 d) <= 4 <->
                (0 = lo32 (sd_a1 d) \/ 1 = lo32 (sd_a1 d) \/ 2 = lo32 (sd_a1 d) \/
                 3 = lo32 (sd_a1 d) \/ 4 = lo32 (sd_a1 d))) by lia.
    rewrite L. split; intros; intuition.
  - row SYS_ioctl R. rewrite (R _ _ _ _ Hn). unpromise. unfold ioctl_file, ioctl_term, ioctl_sock.
    cbv [FIONREAD FIONBIO FIOCLEX FIONCLEX TCGETS TCSETS TCSETSW TCSETSF TIOCGWINSZ TIOCSPGRP
         TIOCGPGRP TIOCSWINSZ TCFLSH TCXONC TCSBRK TIOCSBRK].
    cbn [In]. split; intros; intuition.
  - row SYS_prctl R. rewrite (R _ _ _ _ Hn). unpromise. unfold prctl_basic.
    cbv [PR_SET_NAME PR_GET_NAME PR_GET_SECCOMP PR_SET_SECCOMP PR_SET_NO_NEW_PRIVS
         PR_CAPBSET_READ PR_CAPBSET_DROP]. tauto.
Qed.
