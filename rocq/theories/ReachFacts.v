(** What lies within reach of some pledge: namespaces (C98), other processes (C99), the calls no
    other promise gives (C100), all calls (C101). *)
From Coq Require Import NArith ZArith List Bool Lia.
From Verif Require Import Libc Machine Bpf SeccompRet Vm Promises Filters Kernel World Spec
  FragProofs PolicyProofs PolicyFacts NeedFacts ExactFacts.
Import ListNotations.
Local Open Scope N_scope.

(** * C98 *)
Lemma c98_refuted : forall prof pid tid ps v prog flag,
  filter_for prof pid tid ps v prog -> In Proc ps ->
  In flag namespace_flags -> flag <> CLONE_NEWNS ->
  exists d, native d /\ sd_nr d = SYS_clone /\ has flag (sd_a0 d) /\ proceeds prog d.
Proof.
  intros prof pid tid ps v prog flag H Hp Hf Hn.
  assert (K : forall n, n < 2 ^ 64 -> clear CLONE_NEWNS n -> clear CLONE_PTRACE n ->
    clear CLONE_UNTRACED n -> has flag n ->
    exists d, native d /\ sd_nr d = SYS_clone /\ has flag (sd_a0 d) /\ proceeds prog d).
  { intros n L A B C D. exists (call6 SYS_clone n 0 0 0 0 0).
    assert (W : native (call6 SYS_clone n 0 0 0 0 0)).
    { split; [|reflexivity]. unfold call6, wf_data; cbn. repeat split; try reflexivity. exact L. }
    split; [exact W|]. split; [reflexivity|]. split; [exact D|].
    apply (proj2 (c25_allows _ _ _ _ _ _ _ H W) eq_refl (conj A (conj B C)) (or_introl Hp)). }
  apply (K flag); clear K; cbn [namespace_flags In] in Hf;
    (repeat (destruct Hf as [<-|Hf]; [try reflexivity; now elim Hn|])); destruct Hf.
Qed.
Lemma c98_partial : forall prof pid tid ps v prog d,
  filter_for prof pid tid ps v prog -> enforcing v -> native d -> proceeds prog d ->
  sd_nr d <> SYS_unshare /\ sd_nr d <> SYS_setns /\ sd_nr d <> SYS_clone3 /\
  (sd_nr d = SYS_clone -> clear CLONE_NEWNS (sd_a0 d) /\ (has CLONE_THREAD (sd_a0 d) \/ In Proc ps)).
Proof.
  intros prof pid tid ps v prog d H Hv Hd P. use H Hv Hd P.
  split; [|split; [|split]]; intros Hn.
  - row SYS_unshare R. exact (proj1 (R _ _ _ _ Hn) P).
  - row SYS_setns R. exact (proj1 (R _ _ _ _ Hn) P).
  - row SYS_clone3 R. exact (proj1 (R _ _ _ _ Hn) P).
  - row SYS_clone R. apply (R _ _ _ _ Hn) in P. unpromise. clear - P. tauto.
Qed.

(** * C99 *)
Lemma c99_refuted : forall prof pid tid ps v prog other,
  filter_for prof pid tid ps v prog -> In StdIO ps -> other < 2 ^ 64 ->
  exists d, native d /\ sd_nr d = SYS_migrate_pages /\ sd_a0 d = other /\ proceeds prog d.
Proof.
  intros prof pid tid ps v prog other H Hs L. exists (call6 SYS_migrate_pages other 0 0 0 0 0).
  assert (W : native (call6 SYS_migrate_pages other 0 0 0 0 0)).
  { split; [|reflexivity]. unfold call6, wf_data; cbn. repeat split; try reflexivity. exact L. }
  split; [exact W|]. split; [reflexivity|]. split; [reflexivity|].
  apply (by_grant _ _ _ _ _ _ _ H W).
  row SYS_migrate_pages R. apply R; [reflexivity|]. unpromise. clear - Hs. tauto.
Qed.
Lemma c99_partial : forall prof pid tid ps v prog d,
  filter_for prof pid tid ps v prog -> enforcing v -> native d -> ~ In Proc ps ->
  In (sd_nr d) target_calls ->
  (proceeds prog d <->
   In StdIO ps /\
     (sd_nr d = SYS_kill /\ sd_a0 d mod 2 ^ 32 = pid \/
      sd_nr d = SYS_tkill /\ sd_a0 d mod 2 ^ 32 = tid mod 2 ^ 32 \/
      sd_nr d = SYS_prlimit64 /\ sd_a2 d mod 2 ^ 32 = 0 \/
      In (sd_nr d) [SYS_migrate_pages; SYS_get_robust_list; SYS_getpgid; SYS_getsid;
                    SYS_sched_getaffinity]) \/
   In Id ps /\ In (sd_nr d) [SYS_prlimit64; SYS_getpriority; SYS_setpriority]).
Proof.
  intros prof pid tid ps v prog d H Hv Hd Np Hi.
  rewrite (proceeds_iff _ _ _ _ _ _ _ H Hv Hd). clear - Np Hi. unfold target_calls in Hi.
  cbn [In] in Hi.
  repeat match type of Hi with
  | ?n = sd_nr d \/ _ => destruct Hi as [Hi|Hi]; [symmetry in Hi;
      row n R; rewrite (R _ _ _ _ Hi); clear R; unpromise; rewrite Hi; cbn [In];
      unfold lo32;
      repeat match goal with
      | |- context [?a = ?b] =>
          let x := eval vm_compute in (a =? b) in
          match x with
          | true => let E := fresh in assert (E : (a = b) <-> True) by (split; [constructor|reflexivity]);
                    rewrite E; clear E
          | false => let E := fresh in assert (E : (a = b) <-> False) by (split; [discriminate|contradiction]);
                    rewrite E; clear E
          end
      end; clear Hi; tauto|]
  | False => destruct Hi
  end.
Qed.

(** * C100 *)
(** [covers] with several promises on the left. *)
Definition covered_by_list (ps : list Promise) (rule : argrule) (alt : argrule * list Promise) : bool :=
  (if argrule_eq_dec (fst alt) rule then true
   else if argrule_eq_dec (fst alt) AnyArgs then true else false)
  && existsb (fun p => existsb (promise_eqb p) (snd alt)) (Default :: ps).
Definition covers_list (ps : list Promise) (q : Promise) : bool :=
  forallb (fun row => forallb (fun alt =>
      negb (existsb (promise_eqb q) (snd alt))
      || existsb (covered_by_list ps (fst alt)) (snd row)) (snd row)) policy.
Lemma covers_list_sound : forall qs q, covers_list qs q = true ->
  forall ps pid tid d, granted (q :: ps) pid tid d -> granted (qs ++ ps) pid tid d.
Proof.
  intros qs q C ps pid tid d (alts & r & who & x & Hrow & Halt & Hx & Hq & Ha).
  destruct Hq as [Hq|[Hq|Hq]].
  - exists alts, r, who, x. repeat split; auto.
  - subst x. unfold covers_list in C. rewrite forallb_forall in C. specialize (C _ Hrow). cbn [snd] in C.
    rewrite forallb_forall in C. specialize (C _ Halt). cbn [fst snd] in C.
    apply orb_true_iff in C. destruct C as [C|C].
    + exfalso. apply negb_true_iff in C. apply (proj2 (mem_promise _ _)) in Hx. congruence.
    + apply existsb_exists in C. destruct C as [[r' who'] [Hi C]]. unfold covered_by_list in C.
      cbn [fst snd] in C. apply andb_true_iff in C. destruct C as [C1 C2].
      assert (Ha' : args_ok r' pid tid d).
      { destruct (argrule_eq_dec r' r) as [->|]; [exact Ha|].
        destruct (argrule_eq_dec r' AnyArgs) as [->|]; [exact I|discriminate C1]. }
      apply existsb_exists in C2. destruct C2 as [y [Hy C2]]. apply mem_promise in C2.
      exists alts, r', who', y. repeat split; auto.
      destruct Hy as [<-|Hy]; [left; reflexivity|right; apply in_or_app; left; exact Hy].
  - exists alts, r, who, x. repeat split; auto. right. apply in_or_app. right. exact Hq.
Qed.
Lemma replacements_cover :
  forallb (fun row => covers_list (snd row) (fst row)) replacements = true.
Proof. vm_compute. reflexivity. Qed.
Lemma c100_replace : forall prof pid tid p qs ps v prog prog' d,
  In (p, qs) replacements ->
  filter_for prof pid tid (p :: ps) v prog -> filter_for prof pid tid (qs ++ ps) v prog' ->
  enforcing v -> native d -> proceeds prog d -> proceeds prog' d.
Proof.
  intros prof pid tid p qs ps v prog prog' d Hr H H' Hv Hd P.
  apply (proceeds_iff _ _ _ _ _ _ _ H Hv Hd) in P. apply (proceeds_iff _ _ _ _ _ _ _ H' Hv Hd).
  pose proof replacements_cover as C. rewrite forallb_forall in C. specialize (C _ Hr).
  exact (covers_list_sound _ _ C _ _ _ _ P).
Qed.

(** A call for every promise that some call needs. *)
Definition own_call (p : Promise) : seccomp_data :=
  match p with
  | StdIO => call6 SYS_write 0 0 0 0 0 0 | RPath => call6 SYS_chdir 0 0 0 0 0 0
  | WPath => call6 SYS_truncate 0 0 0 0 0 0 | CPath => call6 SYS_mkdir 0 0 0 0 0 0
  | DPath => call6 SYS_mknod 0 0 0 0 0 0 | FLock => call6 SYS_flock 0 0 0 0 0 0
  | FAttr => call6 SYS_utime 0 0 0 0 0 0 | Inet => call6 SYS_ioctl 0 0x8905 0 0 0 0
  | Unix => call6 SYS_socket AF_UNIX SOCK_STREAM 0 0 0 0 | Tty => call6 SYS_ioctl 0 0x5401 0 0 0 0
  | Proc => call6 SYS_fork 0 0 0 0 0 0 | Id => call6 SYS_setuid 0 0 0 0 0 0
  | Chown => call6 SYS_chown 0 0 0 0 0 0 | SetTime => call6 SYS_settimeofday 0 0 0 0 0 0
  | ProtExec => call6 SYS_mmap 0 0 7 0 0 0 | Exec => call6 SYS_execve 0 0 0 0 0 0
  | Unveil => call6 SYS_landlock_restrict_self 0 0 0 0 0 0
  | Default | Dns | RecvFd | SendFd | VmInfo | TmpPath => call6 0 0 0 0 0 0 0
  end.
Definition superfluous : list Promise := [Default; Dns; RecvFd; SendFd; VmInfo; TmpPath].
Lemma own_call_wf : forall p, native (own_call p).
Proof. intros p. destruct p; repeat split; reflexivity. Qed.
Lemma own_call_granted : forall p ps pid tid, ~ In p superfluous ->
  (granted ps pid tid (own_call p) <-> In p ps).
Proof.
  intros p ps pid tid Hp.
  destruct p; try (exfalso; apply Hp; cbn; tauto); clear Hp;
    (match goal with |- granted _ _ _ (own_call ?q) <-> _ =>
       let n := eval vm_compute in (sd_nr (own_call q)) in
       row n R; rewrite (R ps pid tid (own_call q) eq_refl) end; clear R; unpromise);
    try tauto.
  - assert (A : ~ In (lo32 (sd_a1 (own_call Inet))) ioctl_file) by (vm_compute; intuition discriminate).
    assert (B : In (lo32 (sd_a1 (own_call Inet))) ioctl_sock) by (vm_compute; auto).
    assert (C : ~ In (lo32 (sd_a1 (own_call Inet))) ioctl_term) by (vm_compute; intuition discriminate).
    tauto.
  - assert (A : ~ (lo32 (sd_a0 (own_call Unix)) = AF_INET \/ lo32 (sd_a0 (own_call Unix)) = AF_INET6))
      by (vm_compute; intuition discriminate).
    assert (B : sock_type (sd_a1 (own_call Unix)) SOCK_STREAM) by reflexivity.
    assert (C : lo32 (sd_a0 (own_call Unix)) = AF_UNIX) by reflexivity.
    assert (D : lo32 (sd_a2 (own_call Unix)) = 0) by reflexivity.
    tauto.
  - assert (A : ~ In (lo32 (sd_a1 (own_call Tty))) ioctl_file) by (vm_compute; intuition discriminate).
    assert (B : ~ In (lo32 (sd_a1 (own_call Tty))) ioctl_sock) by (vm_compute; intuition discriminate).
    assert (C : In (lo32 (sd_a1 (own_call Tty))) ioctl_term) by (vm_compute; auto).
    tauto.
  - assert (A : ~ lo32 (sd_a2 (own_call ProtExec)) <= 2) by (intros L; apply L; reflexivity).
    assert (B : clear (MAP_LOCKED + MAP_NONBLOCK + MAP_HUGETLB) (sd_a3 (own_call ProtExec))) by reflexivity.
    tauto.
Qed.

Lemma superfluous_replaceable : forall p, In p superfluous ->
  exists qs, In (p, qs) replacements /\ ~ In p qs.
Proof.
  intros p H. cbn in H.
  repeat (destruct H as [<-|H];
    [eexists; split; [cbn; eauto 10|cbn; intuition discriminate]|]). destruct H.
Qed.
Lemma enforcing_kill : enforcing KillProcess.
Proof. split; [exact I|split; discriminate]. Qed.

Lemma c100 : forall p,
  (exists d, native d /\ forall prof pid tid ps v prog,
     filter_for prof pid tid ps v prog -> enforcing v -> (proceeds prog d <-> In p ps)) <->
  ~ In p [Default; Dns; RecvFd; SendFd; VmInfo; TmpPath].
Proof.
  intros p. fold superfluous. split.
  - intros (d & Hd & N) Hs. destruct (superfluous_replaceable p Hs) as (qs & Hr & Hq).
    destruct (c14_build Debug 0 0 [p] KillProcess) as [f Hf].
    destruct (c14_build Debug 0 0 (qs ++ []) KillProcess) as [g Hg].
    apply Hq. rewrite <- (app_nil_r qs).
    apply (N _ _ _ _ _ _ Hg enforcing_kill).
    apply (c100_replace _ _ _ _ _ _ _ _ _ _ Hr Hf Hg enforcing_kill Hd).
    apply (N _ _ _ _ _ _ Hf enforcing_kill). left. reflexivity.
  - intros Hs. exists (own_call p). split; [apply own_call_wf|].
    intros prof pid tid ps v prog H Hv.
    rewrite (proceeds_iff _ _ _ _ _ _ _ H Hv (own_call_wf p)). apply own_call_granted. exact Hs.
Qed.

(** * C101 *)
Definition in_ranges (l : list (N * N)) (n : N) : bool :=
  existsb (fun r => (fst r <=? n) && (n <=? snd r)) l.
Definition first_call (n : N) : seccomp_data :=
  if n =? SYS_socket then call6 n AF_INET SOCK_STREAM 0 0 0 0
  else if n =? SYS_ioctl then call6 n 0 0x5401 0 0 0 0
  else if n =? SYS_prctl then call6 n 15 0 0 0 0 0
  else if n =? SYS_getsockopt then call6 n 0 1 3 0 0 0
  else call6 n 0 0 0 0 0 0.
Definition below_512 : list N := map N.of_nat (seq 0 512).
Lemma reach_table : forallb (fun n =>
  Bool.eqb (in_ranges reachable_calls n)
    (match row_of n with Some _ => existsb (ruleb 0 0 (first_call n)) (all_filters NeedFacts.all_promises) | None => false end))
  below_512 = true.
Proof. vm_compute. reflexivity. Qed.
Lemma reach_rows : forallb (fun n => Bool.eqb (in_ranges reachable_calls n)
    (match row_of n with Some _ => true | None => false end)) below_512 = true.
Proof. vm_compute. reflexivity. Qed.
Lemma below_512_all : forall n, n < 512 -> In n below_512.
Proof.
  intros n L. unfold below_512. apply in_map_iff. exists (N.to_nat n). split; [apply N2Nat.id|].
  apply in_seq. lia.
Qed.
Lemma in_ranges_iff : forall l n, in_ranges l n = true <-> exists a b, In (a, b) l /\ a <= n <= b.
Proof.
  intros l n. unfold in_ranges. rewrite existsb_exists. split.
  - intros [[a b] [H E]]. cbn [fst snd] in E. apply andb_true_iff in E. destruct E as [E1 E2].
    apply N.leb_le in E1, E2. eauto.
  - intros (a & b & H & E1 & E2). exists (a, b). split; [exact H|]. cbn [fst snd].
    apply andb_true_iff. split; apply N.leb_le; assumption.
Qed.
Lemma reachable_small : forall n, in_ranges reachable_calls n = true -> n < 512.
Proof.
  intros n H. apply in_ranges_iff in H. destruct H as (a & b & H & E).
  assert (K : forallb (fun r => snd r <? 512) reachable_calls = true) by (vm_compute; reflexivity).
  rewrite forallb_forall in K. specialize (K _ H). cbn [snd] in K. apply N.ltb_lt in K. lia.
Qed.
Lemma first_call_native : forall n, n < 512 -> native (first_call n) /\ sd_nr (first_call n) = n.
Proof.
  intros n L. unfold first_call.
  repeat match goal with |- context [if ?b then _ else _] => destruct b end;
    (split; [|reflexivity]; unfold call6; split; [|reflexivity];
     unfold wf_data; cbn [sd_nr sd_arch sd_ip sd_a0 sd_a1 sd_a2 sd_a3 sd_a4 sd_a5];
     repeat split; try reflexivity; apply (N.lt_trans _ 512); [exact L|reflexivity]).
Qed.
Lemma c101 : forall n,
  (exists prof pid tid ps v prog d, filter_for prof pid tid ps v prog /\ enforcing v /\ native d /\
     sd_nr d = n /\ proceeds prog d) <->
  exists a b, In (a, b) reachable_calls /\ a <= n <= b.
Proof.
  intros n. rewrite <- in_ranges_iff. split.
  - intros (prof & pid & tid & ps & v & prog & d & H & Hv & Hd & Hn & P). use H Hv Hd P.
    pose proof (granted_lt_512 _ _ _ _ P) as L. rewrite Hn in L.
    pose proof reach_rows as T. rewrite forallb_forall in T. specialize (T _ (below_512_all _ L)).
    apply Bool.eqb_prop in T. rewrite T. apply granted_row in P. rewrite Hn in P.
    destruct (row_of n); [reflexivity|contradiction].
  - intros H. pose proof (reachable_small _ H) as L.
    pose proof reach_table as T. rewrite forallb_forall in T. specialize (T _ (below_512_all _ L)).
    apply Bool.eqb_prop in T. rewrite H in T.
    destruct (row_of n); [|discriminate].
    destruct (first_call_native n L) as [Hd Hn].
    destruct (c14_build Debug 0 0 NeedFacts.all_promises KillProcess) as [f Hf].
    exists Debug, 0, 0, NeedFacts.all_promises, KillProcess, f, (first_call n).
    split; [exact Hf|]. split; [exact enforcing_kill|]. split; [exact Hd|]. split; [exact Hn|].
    apply (by_grant _ _ _ _ _ _ _ Hf Hd). apply (fgrant _ _ _ _ (proj1 Hd)). symmetry. exact T.
Qed.
