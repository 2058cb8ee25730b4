(** Exactly when two pledges leave more than exit (C130). *)
From Coq Require Import NArith ZArith List Bool Lia.
From Verif Require Import Libc Machine Bpf SeccompRet Vm Promises Filters Kernel World Spec
  FragProofs PolicyProofs PolicyFacts ReachFacts ExactFacts NumberFacts MeetSpec.
Import ListNotations.
Local Open Scope N_scope.

(** * No call in common *)

(** Rules that no call satisfies at once. *)
Definition conflict (r r' : argrule) : bool :=
  match r, r' with
  | FcntlBasic, FcntlLocks | FcntlLocks, FcntlBasic
  | IoctlFile, IoctlTerm | IoctlTerm, IoctlFile
  | IoctlFile, IoctlSock | IoctlSock, IoctlFile
  | IoctlSock, IoctlTerm | IoctlTerm, IoctlSock => true
  | _, _ => false
  end.
Lemma conflict_sound : forall r r' pid tid pid' tid' d, conflict r r' = true ->
  args_ok r pid tid d -> args_ok r' pid' tid' d -> False.
Proof.
  assert (A : forall x, (x <= 4 \/ x = 1030) -> In x fcntl_locks -> False).
  { intros x H K. cbn in K. intuition subst; lia. }
  assert (B : forall x l l', forallb (fun a => forallb (fun b => negb (a =? b)) l') l = true -> In x l -> In x l' -> False).
  { intros x l l' H I J. rewrite forallb_forall in H. specialize (H x I). rewrite forallb_forall in H. specialize (H x J).
    rewrite N.eqb_refl in H. discriminate H. }
  intros r r' pid tid pid' tid' d C H K. destruct r; try discriminate C; destruct r'; try discriminate C;
    cbn [args_ok] in H, K;
    first [exact (A _ H K)|exact (A _ K H)|refine (B _ _ _ _ H K); reflexivity].
Qed.

Definition meetb (p q : Promise) : bool :=
  promise_eqb p q && negb (promise_eqb p Default) ||
  existsb (fun pq => promise_eqb (fst pq) p && promise_eqb (snd pq) q || promise_eqb (fst pq) q && promise_eqb (snd pq) p) shared.
Lemma meetb_meet : forall p q, meetb p q = true -> meet p q.
Proof.
  intros p q H. unfold meetb in H. apply orb_true_iff in H. destruct H as [H|H].
  - left. apply andb_true_iff in H. destruct H as [H N]. apply promise_eqb_eq in H. split; [exact H|].
    intros ->. discriminate N.
  - right. apply existsb_exists in H. destruct H as ([a b] & I & H). cbn [fst snd] in H.
    rewrite orb_true_iff, !andb_true_iff, !promise_eqb_eq in H. destruct H as [[-> ->]|[-> ->]]; tauto.
Qed.

Lemma rows_meet : forallb (fun row => (fst row =? SYS_exit) || forallb (fun row' => negb (fst row =? fst row') ||
  forallb (fun alt => forallb (fun alt' => conflict (fst alt) (fst alt') ||
    forallb (fun p => forallb (fun q => meetb p q) (snd alt')) (snd alt)) (snd row')) (snd row)) policy) policy = true.
Proof. vm_compute. reflexivity. Qed.
Lemma default_rows : forallb (fun row => (fst row =? SYS_exit) ||
  forallb (fun alt => forallb (fun p => negb (promise_eqb p Default)) (snd alt)) (snd row)) policy = true.
Proof. vm_compute. reflexivity. Qed.

Lemma granted_promise : forall ps pid tid d, sd_nr d <> SYS_exit -> granted ps pid tid d ->
  exists alts rule who p, In (sd_nr d, alts) policy /\ In (rule, who) alts /\ In p who /\ In p ps /\ args_ok rule pid tid d.
Proof.
  intros ps pid tid d Hn (alts & rule & who & p & I & J & K & L & A). exists alts, rule, who, p.
  repeat (apply conj); try assumption. destruct L as [->|L]; [exfalso|exact L].
  pose proof default_rows as T. rewrite forallb_forall in T. specialize (T _ I). cbn [fst snd] in T.
  apply orb_true_iff in T. destruct T as [T|T]; [apply N.eqb_eq in T; contradiction|].
  rewrite forallb_forall in T. specialize (T _ J). cbn [snd] in T. rewrite forallb_forall in T. specialize (T _ K). discriminate T.
Qed.

Lemma both_meet : forall ps qs pid tid pid' tid' d, sd_nr d <> SYS_exit ->
  granted ps pid tid d -> granted qs pid' tid' d -> exists p q, In p ps /\ In q qs /\ meet p q.
Proof.
  intros ps qs pid tid pid' tid' d Hn G G'.
  destruct (granted_promise _ _ _ _ Hn G) as (alts & r & who & p & I & J & K & L & A).
  destruct (granted_promise _ _ _ _ Hn G') as (alts' & r' & who' & q & I' & J' & K' & L' & A').
  exists p, q. split; [exact L|]. split; [exact L'|]. apply meetb_meet.
  pose proof rows_meet as T. rewrite forallb_forall in T. specialize (T _ I). cbn [fst snd] in T.
  apply orb_true_iff in T. destruct T as [T|T]; [apply N.eqb_eq in T; contradiction|].
  rewrite forallb_forall in T. specialize (T _ I'). cbn [fst snd] in T. rewrite N.eqb_refl in T. cbn [negb orb] in T.
  rewrite forallb_forall in T. specialize (T _ J). rewrite forallb_forall in T. specialize (T _ J'). cbn [fst snd] in T.
  apply orb_true_iff in T. destruct T as [T|T]; [destruct (conflict_sound _ _ _ _ _ _ _ T A A')|].
  rewrite forallb_forall in T. specialize (T _ K). rewrite forallb_forall in T. exact (T _ K').
Qed.

(** * A call in common *)

Definition witness (nr a1 a2 : N) : seccomp_data := mkSD nr X86_64 0 0 a1 a2 0 0 0.
Definition in_common (p q : Promise) : Prop :=
  exists nr a1 a2, native (witness nr a1 a2) /\ nr <> SYS_exit /\
    forall ps qs pid tid pid' tid', In p ps -> In q qs ->
      granted ps pid tid (witness nr a1 a2) /\ granted qs pid' tid' (witness nr a1 a2).
Lemma common_sym : forall p q, in_common p q -> in_common q p.
Proof.
  intros p q (nr & a1 & a2 & N & X & H). exists nr, a1, a2. split; [exact N|]. split; [exact X|].
  intros ps qs pid tid pid' tid' I J. destruct (H qs ps pid' tid' pid tid J I). tauto.
Qed.

Ltac args := first [exact I | reflexivity | vm_compute; tauto | vm_compute; intuition discriminate | repeat split; vm_compute; tauto ].
Ltac pick := first [ solve [split; [tauto|args]] | left; pick | right; pick ].
Ltac common nr a1 a2 :=
  exists nr, a1, a2; split; [split; [repeat split; reflexivity|reflexivity]|]; split; [discriminate|];
  intros ps qs pid tid pid' tid' Hp Hq; let R := fresh "R" in row nr R;
  match goal with |- granted ?a ?b ?c ?d /\ granted ?e ?f ?g ?d =>
    rewrite (R a b c d eq_refl), (R e f g d eq_refl) end; clear R; unpromise; split; pick.

Lemma alike_common : forall p, p <> Default -> in_common p p.
Proof.
  intros p N. destruct p; try congruence; clear N.
  - common SYS_write 0 0.
  - common SYS_stat 0 0.
  - common SYS_truncate 0 0.
  - common SYS_mkdir 0 0.
  - common SYS_mknod 0 0.
  - common SYS_flock 0 0.
  - common SYS_utime 0 0.
  - common SYS_bind 0 0.
  - common SYS_bind 0 0.
  - common SYS_bind 0 0.
  - common SYS_ioctl 0x5401 0.
  - common SYS_recvmsg 0 0.
  - common SYS_recvmsg 0 0.
  - common SYS_fork 0 0.
  - common SYS_setuid 0 0.
  - common SYS_chown 0 0.
  - common SYS_settimeofday 0 0.
  - common SYS_mprotect 0 0.
  - common SYS_execve 0 0.
  - common SYS_sched_yield 0 0.
  - common SYS_lstat 0 0.
  - common SYS_landlock_add_rule 0 0.
Qed.
Lemma shared_common : forall p q, In (p, q) shared -> in_common p q.
Proof.
  intros p q H. unfold shared in H. cbn [In] in H.
  repeat (destruct H as [H|H]; [injection H as <- <-|]); [..|destruct H].
  - common SYS_fstat 0 0.
  - common SYS_fstat 0 0.
  - common SYS_sendto 0 0.
  - common SYS_sendto 0 0.
  - common SYS_read 0 0.
  - common SYS_sched_getaffinity 0 0.
  - common SYS_prlimit64 0 0.
  - common SYS_mprotect 0 0.
  - common SYS_sched_yield 0 0.
  - common SYS_stat 0 0.
  - common SYS_openat 0 0.
  - common SYS_newfstatat 0 0.
  - common SYS_lstat 0 0.
  - common SYS_openat 0 1.
  - common SYS_chmod 0 0.
  - common SYS_newfstatat 0 0.
  - common SYS_lstat 0 0.
  - common SYS_openat 0 0.
  - common SYS_unlink 0 0.
  - common SYS_bind 0 0.
  - common SYS_bind 0 0.
  - common SYS_bind 0 0.
  - common SYS_recvmsg 0 0.
  - common SYS_getpriority 0 0.
Qed.
Lemma meet_common : forall p q, meet p q -> in_common p q.
Proof.
  intros p q [[<- N]|[H|H]]; [apply alike_common; exact N|apply shared_common; exact H|].
  apply common_sym, shared_common. exact H.
Qed.

(** * C130 *)

Lemma two_proceed : forall prof prof' pid tid pid' tid' ps qs v v' f f' d,
  filter_for prof pid tid ps v f -> filter_for prof' pid' tid' qs v' f' -> enforcing v -> enforcing v' -> native d ->
  (syscall_entry [f'; f] d = Proceed <-> granted ps pid tid d /\ granted qs pid' tid' d).
Proof.
  intros prof prof' pid tid pid' tid' ps qs v v' f f' d H H' Hv Hv' Hd.
  assert (St : stack_of Release [mkInst pid' tid' qs v'; mkInst pid tid ps v] [f'; f]).
  { unfold stack_of. constructor; [|constructor; [|constructor]]; cbn.
    - rewrite (filter_for_pcode _ _ _ _ _ _ H'). apply filter_for_exists.
    - rewrite (filter_for_pcode _ _ _ _ _ _ H). apply filter_for_exists. }
  rewrite (c97 _ _ _ _ St) by (first [exact Hd|repeat constructor; cbn; first [apply Hv|apply Hv']]).
  rewrite !Forall_cons_iff. cbn [i_ps i_pid i_tid]. intuition.
Qed.

Lemma c130 : forall prof prof' pid tid pid' tid' ps qs v v' f f',
  filter_for prof pid tid ps v f -> filter_for prof' pid' tid' qs v' f' -> enforcing v -> enforcing v' ->
  ((exists d, native d /\ sd_nr d <> SYS_exit /\ syscall_entry [f'; f] d = Proceed) <->
   exists p q, In p ps /\ In q qs /\ meet p q).
Proof.
  intros prof prof' pid tid pid' tid' ps qs v v' f f' H H' Hv Hv'. split.
  - intros (d & Hd & Hn & P). apply (two_proceed _ _ _ _ _ _ _ _ _ _ _ _ _ H H' Hv Hv' Hd) in P.
    destruct P as [G G']. exact (both_meet _ _ _ _ _ _ _ Hn G G').
  - intros (p & q & I & J & M). destruct (meet_common _ _ M) as (nr & a1 & a2 & N & X & C).
    exists (witness nr a1 a2). split; [exact N|]. split; [exact X|].
    apply (two_proceed _ _ _ _ _ _ _ _ _ _ _ _ _ H H' Hv Hv' N). exact (C ps qs pid tid pid' tid' I J).
Qed.

Lemma c130_stdio : forall prof prof' pid tid pid' tid' qs v v' f f',
  filter_for prof pid tid [StdIO] v f -> filter_for prof' pid' tid' qs v' f' -> enforcing v -> enforcing v' ->
  ((exists d, native d /\ sd_nr d <> SYS_exit /\ syscall_entry [f'; f] d = Proceed) <->
   exists q, In q qs /\ In q [StdIO; RPath; WPath; Inet; Unix; Dns; Proc; Id; ProtExec; VmInfo]).
Proof.
  intros prof prof' pid tid pid' tid' qs v v' f f' H H' Hv Hv'.
  rewrite (c130 _ _ _ _ _ _ _ _ _ _ _ _ H H' Hv Hv'). split.
  - intros (p & q & [<-|[]] & J & M). exists q. split; [exact J|].
    unfold meet, shared in M. cbn in M. destruct q; cbn; intuition discriminate.
  - intros (q & J & M). exists StdIO, q. split; [left; reflexivity|]. split; [exact J|].
    unfold meet, shared. cbn in M. repeat (destruct M as [<-|M]; [first [left; split; [reflexivity|discriminate]|right; left; cbn; tauto]|]).
    destruct M.
Qed.
