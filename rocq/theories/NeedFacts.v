(** Further consequences of the policy (C53-C64): which promise a capability needs, and which
    capabilities a promise is expected to give but does not. *)
From Coq Require Import NArith ZArith List Bool Lia.
From Verif Require Import Libc Machine Bpf SeccompRet Vm Promises Filters Kernel World Spec
  FragProofs PolicyProofs PolicyFacts.
Import ListNotations.
Local Open Scope N_scope.

(** * C53 *)
Definition sole (p : Promise) (nr : N) : bool :=
  match row_of nr with Some [(AnyArgs, [q])] => promise_eqb p q | _ => false end.
Lemma sole_sound : forall p nr ps pid tid d,
  sole p nr = true -> sd_nr d = nr -> (granted ps pid tid d <-> p = Default \/ In p ps).
Proof.
  intros p nr ps pid tid d S <-. rewrite granted_row. unfold sole in S.
  destruct (row_of (sd_nr d)) as [[|[[] [|q [|]]] [|]]|]; try discriminate.
  apply promise_eqb_eq in S. subst q. rewrite alts_ok_iff. split.
  - intros (r & who & p' & [E|[]] & Hp & Hps & _). injection E as <- <-.
    destruct Hp as [->|[]]. exact Hps.
  - intros H. exists AnyArgs, [p], p. repeat split; auto; left; reflexivity.
Qed.
Lemma exclusive_sole :
  forallb (fun row => forallb (sole (fst row)) (snd row)) exclusive = true.
Proof. vm_compute. reflexivity. Qed.
Lemma exclusive_not_default : forallb (fun row => negb (promise_eqb (fst row) Default)) exclusive = true.
Proof. vm_compute. reflexivity. Qed.

Lemma c53 : forall prof pid tid ps v prog d p calls,
  filter_for prof pid tid ps v prog -> enforcing v -> native d ->
  In (p, calls) exclusive -> In (sd_nr d) calls ->
  proceeds prog d <-> In p ps.
Proof.
  intros prof pid tid ps v prog d p calls H Hv Hd Hx Hn.
  rewrite (proceeds_iff _ _ _ _ _ _ _ H Hv Hd).
  pose proof exclusive_sole as S. rewrite forallb_forall in S. specialize (S _ Hx).
  cbn [fst snd] in S. rewrite forallb_forall in S. specialize (S _ Hn).
  rewrite (sole_sound p (sd_nr d) ps pid tid d S eq_refl).
  pose proof exclusive_not_default as D. rewrite forallb_forall in D. specialize (D _ Hx).
  cbn [fst] in D. split; [|right; assumption].
  intros [->|I]; [discriminate D|exact I].
Qed.

(** * C55 *)
Lemma c55 : forall prof pid tid ps v prog d,
  filter_for prof pid tid ps v prog -> enforcing v -> native d -> proceeds prog d ->
  In (sd_nr d) path_calls -> exists p, In p path_promises /\ In p ps.
Proof.
  intros prof pid tid ps v prog d H Hv Hd P Hi. use H Hv Hd P.
  destruct (rows_need path_promises path_calls ps pid tid d eq_refl Hi P) as [p [Hp [->|Hps]]].
  - exfalso. cbn in Hp. repeat (destruct Hp as [Hp|Hp]; [discriminate Hp|]). exact Hp.
  - eauto.
Qed.

(** * C56 *)
Lemma c56 : forall prof pid tid ps v prog d,
  filter_for prof pid tid ps v prog -> enforcing v -> native d -> proceeds prog d ->
  ~ In Inet ps -> ~ In Unix ps -> ~ In Dns ps ->
  ~ In (sd_nr d) socket_calls /\ (sd_nr d = SYS_sendto -> sd_a4 d = 0).
Proof.
  intros prof pid tid ps v prog d H Hv Hd P Ni Nu Nd. use H Hv Hd P. split.
  - intros Hi.
    destruct (rows_need [Inet; Unix; Dns] socket_calls ps pid tid d eq_refl Hi P) as [p [Hp [->|Hps]]];
      cbn in Hp; intuition (subst; try discriminate; contradiction).
  - intros Hn. row SYS_sendto R. apply (R _ _ _ _ Hn) in P. unpromise. tauto.
Qed.

(** * C54 *)
Definition argrule_eq_dec (r s : argrule) : {r = s} + {r <> s}.
Proof. decide equality. Defined.
Definition covered_by (p : Promise) (rule : argrule) (alt : argrule * list Promise) : bool :=
  (if argrule_eq_dec (fst alt) rule then true
   else if argrule_eq_dec (fst alt) AnyArgs then true else false)
  && (existsb (promise_eqb p) (snd alt) || existsb (promise_eqb Default) (snd alt)).
Definition covers (p q : Promise) : bool :=
  forallb (fun row => forallb (fun alt =>
      negb (existsb (promise_eqb q) (snd alt) || existsb (promise_eqb Default) (snd alt))
      || existsb (covered_by p (fst alt)) (snd row)) (snd row)) policy.

Lemma mem_promise : forall p l, existsb (promise_eqb p) l = true <-> In p l.
Proof.
  intros p l. rewrite existsb_exists. split.
  - intros [q [Hq E]]. apply promise_eqb_eq in E. subst. exact Hq.
  - intros H. exists p. split; [exact H|apply promise_eqb_eq; reflexivity].
Qed.
Lemma covers_sound : forall p q, covers p q = true -> grants_at_least p q.
Proof.
  intros p q C pid tid d _ (alts & r & who & x & Hrow & Halt & Hx & Hq & Ha).
  unfold covers in C. rewrite forallb_forall in C. specialize (C _ Hrow). cbn [snd] in C.
  rewrite forallb_forall in C. specialize (C _ Halt). cbn [fst snd] in C.
  apply orb_true_iff in C. destruct C as [C|C].
  - exfalso. apply negb_true_iff, orb_false_iff in C. destruct C as [C1 C2].
    destruct Hq as [->|[->|[]]]; [assert (existsb (promise_eqb Default) who = true)
      by (apply mem_promise; exact Hx)|assert (existsb (promise_eqb x) who = true)
      by (apply mem_promise; exact Hx)]; congruence.
  - apply existsb_exists in C. destruct C as [[r' who'] [Hi C]]. unfold covered_by in C.
    cbn [fst snd] in C. apply andb_true_iff in C. destruct C as [C1 C2].
    assert (Ha' : args_ok r' pid tid d).
    { destruct (argrule_eq_dec r' r) as [->|]; [exact Ha|].
      destruct (argrule_eq_dec r' AnyArgs) as [->|]; [exact I|discriminate C1]. }
    apply orb_true_iff in C2. destruct C2 as [C2|C2]; apply mem_promise in C2.
    + exists alts, r', who', p. repeat split; auto. right. left. reflexivity.
    + exists alts, r', who', Default. repeat split; auto.
Qed.

(** Calls that tell the promises apart. *)
Definition telling : list seccomp_data :=
  map (fun nr => call6 nr 0 0 0 0 0 0)
    [SYS_write; SYS_read; SYS_chdir; SYS_truncate; SYS_mkdir; SYS_mknod; SYS_flock; SYS_utime;
     SYS_bind; SYS_listen; SYS_lstat; SYS_unlink; SYS_recvmsg; SYS_fork; SYS_setuid; SYS_chown;
     SYS_settimeofday; SYS_execve; SYS_sched_yield; SYS_landlock_restrict_self; SYS_openat]
  ++ [call6 SYS_socket AF_INET SOCK_STREAM 0 0 0 0; call6 SYS_socket AF_UNIX SOCK_STREAM 0 0 0 0;
      call6 SYS_ioctl 0 0x5401 0 0 0 0; call6 SYS_mmap 0 0 4 0 0 0].
Definition all_promises : list Promise :=
  [Default; StdIO; RPath; WPath; CPath; DPath; FLock; FAttr; Inet; Unix; Dns; Tty; RecvFd; SendFd;
   Proc; Id; Chown; SetTime; ProtExec; Exec; VmInfo; TmpPath; Unveil].
Definition allowsb (p : Promise) (d : seccomp_data) : bool :=
  existsb (ruleb 1 1 d) (all_filters [p]).
Definition told_apart (p q : Promise) : bool :=
  existsb (fun d => allowsb q d && negb (allowsb p d)) telling.
Definition related (p q : Promise) : bool :=
  promise_eqb p q || promise_eqb q Default ||
  match p, q with SendFd, RecvFd | RecvFd, SendFd | StdIO, VmInfo => true | _, _ => false end.

Lemma order_table :
  forallb (fun p => forallb (fun q => if related p q then covers p q else told_apart p q)
                            all_promises) all_promises = true.
Proof. vm_compute. reflexivity. Qed.
Lemma all_promises_all : forall p, In p all_promises.
Proof. intros p. apply mem_promise. destruct p; reflexivity. Qed.

Lemma telling_wf : Forall (fun d => wf_data d) telling.
Proof. repeat (constructor; [repeat split; reflexivity|]). constructor. Qed.

Lemma c54 : forall p q,
  grants_at_least p q <->
  p = q \/ q = Default \/ (p = SendFd /\ q = RecvFd) \/ (p = RecvFd /\ q = SendFd) \/
  (p = StdIO /\ q = VmInfo).
Proof.
  intros p q. pose proof order_table as T. rewrite forallb_forall in T.
  specialize (T p (all_promises_all p)). rewrite forallb_forall in T.
  specialize (T q (all_promises_all q)).
  assert (R : related p q = true <->
    p = q \/ q = Default \/ (p = SendFd /\ q = RecvFd) \/ (p = RecvFd /\ q = SendFd) \/
    (p = StdIO /\ q = VmInfo)).
  { unfold related. rewrite !orb_true_iff, !promise_eqb_eq.
    destruct p, q; intuition (congruence || auto). }
  rewrite <- R. destruct (related p q) eqn:E.
  - split; [reflexivity|]. intros _. exact (covers_sound p q T).
  - split; [|discriminate]. intros G. exfalso. apply existsb_exists in T.
    destruct T as [d [Hd T]]. apply andb_true_iff in T. destruct T as [T1 T2].
    pose proof telling_wf as W. rewrite Forall_forall in W. specialize (W d Hd).
    apply (fgrant [q] 1 1 d W) in T1. apply (G 1 1 d W) in T1. apply (fgrant [p] 1 1 d W) in T1.
    fold (allowsb p d) in T1. rewrite T1 in T2. discriminate.
Qed.

(** * C57 *)
Lemma c57_refuted : forall prof pid tid ps v prog d,
  filter_for prof pid tid ps v prog -> enforcing v -> native d -> sd_nr d = SYS_exit_group ->
  ~ In StdIO ps -> ~ proceeds prog d.
Proof.
  intros prof pid tid ps v prog d H Hv Hd Hn Ns P. use H Hv Hd P.
  row SYS_exit_group R. apply (R _ _ _ _ Hn) in P. unpromise. tauto.
Qed.

Lemma c57_partial : forall prof pid tid ps v prog d,
  filter_for prof pid tid ps v prog -> enforcing v -> native d ->
  (sd_nr d = SYS_exit_group -> (proceeds prog d <-> In StdIO ps)) /\ (sd_nr d = SYS_exit -> proceeds prog d).
Proof.
  intros prof pid tid ps v prog d H Hv Hd. rewrite (proceeds_iff _ _ _ _ _ _ _ H Hv Hd). split; intros Hn.
  - row SYS_exit_group R. rewrite (R _ _ _ _ Hn). unpromise. tauto.
  - row SYS_exit R. rewrite (R _ _ _ _ Hn). unfold promised. tauto.
Qed.

(** * C58 *)
Lemma c58_refuted : forall prof pid tid ps v prog d,
  filter_for prof pid tid ps v prog -> enforcing v -> native d -> sd_nr d = SYS_getdents64 ->
  ~ proceeds prog d.
Proof.
  intros prof pid tid ps v prog d H Hv Hd Hn P. use H Hv Hd P.
  row SYS_getdents64 R. apply (R _ _ _ _ Hn) in P. exact P.
Qed.

Lemma c58_partial : forall prof pid tid ps v prog d,
  filter_for prof pid tid ps v prog -> enforcing v -> native d -> sd_nr d = SYS_getdents ->
  (proceeds prog d <-> In RPath ps).
Proof.
  intros prof pid tid ps v prog d H Hv Hd Hn. rewrite (proceeds_iff _ _ _ _ _ _ _ H Hv Hd).
  row SYS_getdents R. rewrite (R _ _ _ _ Hn). unpromise. tauto.
Qed.

(** * C59, C60 *)
Lemma clear_sum : forall x, clear (O_CREAT + 2 ^ 22) x <-> clear O_CREAT x /\ clear (2 ^ 22) x.
Proof.
  intros x. unfold clear. change (O_CREAT + 2 ^ 22) with (N.lor O_CREAT (2 ^ 22)).
  rewrite N.land_lor_distr_r. apply N.lor_eq_0_iff.
Qed.

Lemma c59_partial : forall prof pid tid ps v prog d,
  filter_for prof pid tid ps v prog -> enforcing v -> native d -> sd_nr d = SYS_openat ->
  clear O_CREAT (sd_a2 d) -> clear (2 ^ 22) (sd_a2 d) ->
  (N.land (sd_a2 d) O_ACCMODE = 1 \/ N.land (sd_a2 d) O_ACCMODE = 2) ->
  (proceeds prog d <-> In WPath ps \/ In CPath ps).
Proof.
  intros prof pid tid ps v prog d H Hv Hd Hn Hc Ht Hw.
  rewrite (proceeds_iff _ _ _ _ _ _ _ H Hv Hd).
  assert (Na : ~ clear O_ACCMODE (sd_a2 d))
    by (unfold clear; intros A; rewrite A in Hw; destruct Hw as [Hw|Hw]; discriminate Hw).
  row SYS_openat R. rewrite (R _ _ _ _ Hn). unpromise. rewrite clear_sum. tauto.
Qed.

Lemma c59_refuted : forall prof pid tid ps v prog d,
  filter_for prof pid tid ps v prog -> native d -> sd_nr d = SYS_openat ->
  clear O_CREAT (sd_a2 d) -> clear (2 ^ 22) (sd_a2 d) -> In CPath ps -> proceeds prog d.
Proof.
  intros prof pid tid ps v prog d H Hd Hn Hc Ht Hp. apply (by_grant _ _ _ _ _ _ _ H Hd).
  row SYS_openat R. rewrite (R _ _ _ _ Hn). unpromise. rewrite clear_sum. tauto.
Qed.

Lemma c60_partial : forall prof pid tid ps v prog d,
  filter_for prof pid tid ps v prog -> enforcing v -> native d -> sd_nr d = SYS_openat ->
  read_only (sd_a2 d) ->
  (proceeds prog d <-> In RPath ps \/ In Dns ps \/ In CPath ps).
Proof.
  intros prof pid tid ps v prog d H Hv Hd Hn Hr.
  rewrite (proceeds_iff _ _ _ _ _ _ _ H Hv Hd).
  row SYS_openat R. rewrite (R _ _ _ _ Hn). unpromise. rewrite clear_sum.
  unfold read_only in Hr. destruct Hr as (A & B & C & D).
  assert (Na : ~ (N.land (sd_a2 d) O_ACCMODE = 1 \/ N.land (sd_a2 d) O_ACCMODE = 2))
    by (unfold clear in A; rewrite A; intros [W|W]; discriminate W).
  tauto.
Qed.

(** Files read by a process that has promised only name resolution. *)
Lemma c60_refuted : forall prof pid tid ps v prog d,
  filter_for prof pid tid ps v prog -> native d -> In Dns ps ->
  (sd_nr d = SYS_openat /\ read_only (sd_a2 d)) \/ sd_nr d = SYS_read -> proceeds prog d.
Proof.
  intros prof pid tid ps v prog d H Hd Hp [[Hn Hr]|Hn]; apply (by_grant _ _ _ _ _ _ _ H Hd).
  - row SYS_openat R. rewrite (R _ _ _ _ Hn). unpromise. rewrite clear_sum.
    unfold read_only in Hr. destruct Hr as (A & B & C & D). tauto.
  - row SYS_read R. rewrite (R _ _ _ _ Hn). unpromise. tauto.
Qed.

(** * C61 *)
Lemma c61_refuted : forall prof pid tid ps v prog d self,
  filter_for prof pid tid ps v prog -> enforcing v -> native d -> ~ In Proc ps ->
  word self -> self <> lo32 tid -> sd_nr d = SYS_tkill -> sd_a0 d = self -> ~ proceeds prog d.
Proof.
  intros prof pid tid ps v prog d self H Hv Hd Np Hw Hne Hn Ha P. use H Hv Hd P.
  row SYS_tkill R. apply (R _ _ _ _ Hn) in P. unpromise. rewrite Ha in P.
  assert (E : lo32 self = self) by (unfold lo32; rewrite u32_mod_val; apply N.mod_small; exact Hw).
  rewrite E in P. tauto.
Qed.
Lemma c61_partial : forall prof pid tid ps v prog d,
  filter_for prof pid tid ps v prog -> native d -> In StdIO ps ->
  sd_nr d = SYS_tkill -> sd_a0 d = tid -> proceeds prog d.
Proof.
  intros prof pid tid ps v prog d H Hd Hp Hn Ha.
  apply (by_grant _ _ _ _ _ _ _ H Hd). row SYS_tkill R. rewrite (R _ _ _ _ Hn).
  unpromise. rewrite Ha. tauto.
Qed.

(** * C62 *)
Lemma c62_refuted : forall prof pid tid ps v prog d,
  filter_for prof pid tid ps v prog -> enforcing v -> native d -> sd_nr d = SYS_clock_settime ->
  ~ proceeds prog d.
Proof.
  intros prof pid tid ps v prog d H Hv Hd Hn P. use H Hv Hd P.
  row SYS_clock_settime R. apply (R _ _ _ _ Hn) in P. exact P.
Qed.

Lemma c62_partial : forall prof pid tid ps v prog d,
  filter_for prof pid tid ps v prog -> enforcing v -> native d ->
  sd_nr d = SYS_settimeofday \/ sd_nr d = SYS_clock_adjtime ->
  (proceeds prog d <-> In SetTime ps).
Proof.
  intros prof pid tid ps v prog d H Hv Hd Hn. rewrite (proceeds_iff _ _ _ _ _ _ _ H Hv Hd).
  destruct Hn as [Hn|Hn].
  - row SYS_settimeofday R. rewrite (R _ _ _ _ Hn). unpromise. tauto.
  - row SYS_clock_adjtime R. rewrite (R _ _ _ _ Hn). unpromise. tauto.
Qed.

(** * C63 *)
Lemma c63_refuted : forall prof pid tid ps v prog d,
  filter_for prof pid tid ps v prog -> native d -> In DPath ps ->
  sd_nr d = SYS_mknod \/ sd_nr d = SYS_mknodat -> proceeds prog d.
Proof.
  intros prof pid tid ps v prog d H Hd Hp [Hn|Hn]; apply (by_grant _ _ _ _ _ _ _ H Hd).
  - row SYS_mknod R. rewrite (R _ _ _ _ Hn). unpromise. tauto.
  - row SYS_mknodat R. rewrite (R _ _ _ _ Hn). unpromise. tauto.
Qed.
Lemma c63_partial : forall prof pid tid ps v prog d,
  filter_for prof pid tid ps v prog -> enforcing v -> native d -> ~ In DPath ps ->
  proceeds prog d -> sd_nr d <> SYS_mknod /\ sd_nr d <> SYS_mknodat.
Proof.
  intros prof pid tid ps v prog d H Hv Hd Np P. use H Hv Hd P. split; intros Hn.
  - row SYS_mknod R. apply (R _ _ _ _ Hn) in P. unpromise. tauto.
  - row SYS_mknodat R. apply (R _ _ _ _ Hn) in P. unpromise. tauto.
Qed.

(** * C64 *)
Lemma c64_refuted : forall prof pid tid ps v prog d,
  filter_for prof pid tid ps v prog -> enforcing v -> native d ->
  (forall p, In p ps -> p = TmpPath \/ p = StdIO) ->
  In (sd_nr d) file_making ->
  ~ proceeds prog d.
Proof.
  intros prof pid tid ps v prog d H Hv Hd Hps Hi P. use H Hv Hd P.
  destruct (rows_need [RPath; WPath; CPath; DPath; Dns] file_making ps pid tid d eq_refl Hi P)
    as [p [Hp [->|Hin]]].
  - cbn in Hp. intuition discriminate.
  - specialize (Hps p Hin). cbn in Hp. intuition congruence.
Qed.

(** What TmpPath adds to a list. *)
Lemma tmppath_rows :
  forallb (fun row => forallb (fun alt =>
      negb (existsb (promise_eqb TmpPath) (snd alt)) || existsb (N.eqb (fst row)) [6; 87; 263]) (snd row)) policy = true.
Proof. vm_compute. reflexivity. Qed.
Lemma c64_partial : forall prof pid tid ps v prog prog' d,
  filter_for prof pid tid ps v prog -> filter_for prof pid tid (TmpPath :: ps) v prog' -> enforcing v -> native d ->
  (proceeds prog' d <-> proceeds prog d \/ In (sd_nr d) [6; 87; 263]).
Proof.
  intros prof pid tid ps v prog prog' d H H' Hv Hd.
  rewrite (proceeds_iff _ _ _ _ _ _ _ H Hv Hd), (proceeds_iff _ _ _ _ _ _ _ H' Hv Hd). split.
  - intros (alts & r & who & x & Hrow & Halt & Hx & [->|[<-|Hp]] & Ha).
    + left. exists alts, r, who, Default. auto 10.
    + right. pose proof tmppath_rows as T. rewrite forallb_forall in T. specialize (T _ Hrow). cbn [fst snd] in T.
      rewrite forallb_forall in T. specialize (T _ Halt). cbn [fst snd] in T.
      rewrite (proj2 (mem_promise TmpPath who) Hx) in T. apply existsb_exists in T.
      destruct T as (n & I & E). apply N.eqb_eq in E. rewrite E. exact I.
    + left. exists alts, r, who, x. auto 10.
  - intros [(alts & r & who & x & Hrow & Halt & Hx & Hp & Ha)|I].
    + exists alts, r, who, x. repeat (split; [assumption|]). split; [|exact Ha].
      destruct Hp; [left|right; right]; assumption.
    + destruct I as [Hn|[Hn|[Hn|[]]]]; symmetry in Hn.
      * row SYS_lstat R. rewrite (R _ _ _ _ Hn). unpromise. cbn [In]. tauto.
      * row SYS_unlink R. rewrite (R _ _ _ _ Hn). unpromise. cbn [In]. tauto.
      * row SYS_unlinkat R. rewrite (R _ _ _ _ Hn). unpromise. cbn [In]. tauto.
Qed.
