(** Exactly which sockets, socket options, task creations and limit changes are allowed (C126, C127). *)
From Coq Require Import NArith ZArith List Bool Lia.
From Verif Require Import Libc Machine Bpf SeccompRet Asm Vm Promises Filters Kernel World Spec
  FragProofs PolicyProofs PolicyFacts PledgeProofs NeedFacts ExactFacts.
Import ListNotations.
Local Open Scope N_scope.

(** * C126 *)

(** The two optional bits of a socket type. *)
Lemma option_bits : forall x, N.land x (2 ^ 11 + 2 ^ 19) = 0 \/ N.land x (2 ^ 11 + 2 ^ 19) = 2 ^ 11 \/
  N.land x (2 ^ 11 + 2 ^ 19) = 2 ^ 19 \/ N.land x (2 ^ 11 + 2 ^ 19) = 2 ^ 11 + 2 ^ 19.
Proof.
  intros x. change (2 ^ 11 + 2 ^ 19) with (N.lor (2 ^ 11) (2 ^ 19)). rewrite N.land_lor_distr_r.
  destruct (one_bit 11 x) as [A|A], (one_bit 19 x) as [B|B]; unfold clear, has in *; rewrite A, B; cbn; tauto.
Qed.

Lemma sock_type_values : forall t kind, kind = 1 \/ kind = 2 ->
  (sock_type t kind <-> In (t mod 2 ^ 32) [kind; kind + 2048; kind + 524288; kind + 526336]).
Proof.
  intros t kind K. unfold sock_type. change (t mod 2 ^ 32) with (lo32 t). generalize (lo32 t). intros x. split.
  - intros E.
    assert (S : x = N.land x (2 ^ 11 + 2 ^ 19) + kind).
    { rewrite <- E. symmetry. rewrite N.add_comm. rewrite (N.add_nocarry_lxor (N.ldiff _ _)).
      - apply N.bits_inj. intros i. rewrite N.lxor_spec, N.ldiff_spec, N.land_spec.
        destruct (N.testbit x i), (N.testbit (2 ^ 11 + 2 ^ 19) i); reflexivity.
      - apply N.bits_inj. intros i. rewrite N.land_spec, N.ldiff_spec, N.land_spec, N.bits_0.
        destruct (N.testbit x i), (N.testbit (2 ^ 11 + 2 ^ 19) i); reflexivity. }
    destruct (option_bits x) as [B|[B|[B|B]]]; rewrite B in S; rewrite S; destruct K as [-> | ->]; cbn; tauto.
  - intros [<-|[<-|[<-|[<-|[]]]]]; destruct K as [-> | ->]; reflexivity.
Qed.

Lemma c126 : forall prof pid tid ps v prog d,
  filter_for prof pid tid ps v prog -> enforcing v -> native d ->
  let arg a := a d mod 2 ^ 32 in
  let types := [1; 2; 0x801; 0x802; 0x80001; 0x80002; 0x80801; 0x80802] in
  (sd_nr d = SYS_socket ->
   (proceeds prog d <->
    (In Inet ps \/ In Dns ps) /\ In (arg sd_a0) [2; 10] /\ In (arg sd_a1) types /\ In (arg sd_a2) [0; 1; 6; 17] \/
    In Unix ps /\ arg sd_a0 = 1 /\ In (arg sd_a1) types /\ arg sd_a2 = 0)) /\
  (sd_nr d = SYS_getsockopt ->
   (proceeds prog d <-> (In Inet ps \/ In Unix ps) /\ In (arg sd_a1) [0; 1; 6] /\
      In (arg sd_a2) [1; 2; 3; 4; 5; 9; 11; 12; 15; 20; 21; 23; 30])) /\
  (sd_nr d = SYS_sendto ->
   (proceeds prog d <-> In StdIO ps /\ sd_a4 d = 0 \/ In Inet ps \/ In Unix ps \/ In Dns ps)) /\
  (In (sd_nr d) [SYS_connect; SYS_bind] -> (proceeds prog d <-> In Inet ps \/ In Unix ps \/ In Dns ps)) /\
  (In (sd_nr d) [SYS_accept; SYS_accept4; SYS_listen; SYS_getsockname; SYS_getpeername] ->
   (proceeds prog d <-> In Inet ps \/ In Unix ps)) /\
  (In (sd_nr d) [SYS_shutdown; SYS_socketpair] -> (proceeds prog d <-> In StdIO ps)) /\
  (sd_nr d = SYS_recvfrom -> (proceeds prog d <-> In StdIO ps \/ In Dns ps)) /\
  (In (sd_nr d) [SYS_recvmsg; SYS_recvmmsg] -> (proceeds prog d <-> In SendFd ps \/ In RecvFd ps)) /\
  ~ (In (sd_nr d) [SYS_setsockopt; SYS_sendmsg; SYS_sendmmsg] /\ proceeds prog d).
Proof.
  intros prof pid tid ps v prog d H Hv Hd. cbv zeta. rewrite (proceeds_iff _ _ _ _ _ _ _ H Hv Hd).
  assert (T : In (sd_a1 d mod 2 ^ 32) [1; 2; 0x801; 0x802; 0x80001; 0x80002; 0x80801; 0x80802] <->
    sock_type (sd_a1 d) SOCK_STREAM \/ sock_type (sd_a1 d) SOCK_DGRAM).
  { rewrite !sock_type_values by (unfold SOCK_STREAM, SOCK_DGRAM; tauto). unfold SOCK_STREAM, SOCK_DGRAM. cbn [In N.add].
    change (1 + 2048) with 0x801. change (1 + 524288) with 0x80001. change (1 + 526336) with 0x80801.
    change (2 + 2048) with 0x802. change (2 + 524288) with 0x80002. change (2 + 526336) with 0x80802. tauto. }
  split; [|split; [|split; [|split; [|split; [|split; [|split; [|split]]]]]]].
  - intros Hn. row SYS_socket R. rewrite (R _ _ _ _ Hn), T. unpromise.
    change (sd_a0 d mod 2 ^ 32) with (lo32 (sd_a0 d)). change (sd_a2 d mod 2 ^ 32) with (lo32 (sd_a2 d)).
    unfold AF_INET, AF_INET6, AF_UNIX, IPPROTO_ICMP, IPPROTO_TCP, IPPROTO_UDP.
    assert (F : In (lo32 (sd_a0 d)) [2; 10] <-> lo32 (sd_a0 d) = 2 \/ lo32 (sd_a0 d) = 10) by (cbn; intuition congruence).
    rewrite F. tauto.
  - intros Hn. row SYS_getsockopt R. rewrite (R _ _ _ _ Hn). unpromise.
    change (sd_a1 d mod 2 ^ 32) with (lo32 (sd_a1 d)). change (sd_a2 d mod 2 ^ 32) with (lo32 (sd_a2 d)).
    assert (G1 : In (lo32 (sd_a1 d)) getsockopt_levels -> In (lo32 (sd_a1 d)) [0; 1; 6]) by (cbn; tauto).
    assert (G2 : In (lo32 (sd_a2 d)) getsockopt_options -> In (lo32 (sd_a2 d)) [1; 2; 3; 4; 5; 9; 11; 12; 15; 20; 21; 23; 30])
      by (cbn; tauto).
    assert (S1 : In (lo32 (sd_a1 d)) setsockopt_levels <-> In (lo32 (sd_a1 d)) [0; 1; 6]) by (cbn; tauto).
    assert (S2 : In (lo32 (sd_a2 d)) setsockopt_options <-> In (lo32 (sd_a2 d)) [1; 2; 3; 4; 5; 9; 11; 12; 15; 20; 21; 23; 30])
      by (cbn; tauto).
    rewrite S1, S2. tauto.
  - intros Hn. row SYS_sendto R. rewrite (R _ _ _ _ Hn). unpromise. tauto.
  - intros [Hn|[Hn|[]]]; symmetry in Hn.
    + row SYS_connect R. rewrite (R _ _ _ _ Hn). unpromise. tauto.
    + row SYS_bind R. rewrite (R _ _ _ _ Hn). unpromise. tauto.
  - intros [Hn|[Hn|[Hn|[Hn|[Hn|[]]]]]]; symmetry in Hn.
    + row SYS_accept R. rewrite (R _ _ _ _ Hn). unpromise. tauto.
    + row SYS_accept4 R. rewrite (R _ _ _ _ Hn). unpromise. tauto.
    + row SYS_listen R. rewrite (R _ _ _ _ Hn). unpromise. tauto.
    + row SYS_getsockname R. rewrite (R _ _ _ _ Hn). unpromise. tauto.
    + row SYS_getpeername R. rewrite (R _ _ _ _ Hn). unpromise. tauto.
  - intros [Hn|[Hn|[]]]; symmetry in Hn.
    + row SYS_shutdown R. rewrite (R _ _ _ _ Hn). unpromise. tauto.
    + row SYS_socketpair R. rewrite (R _ _ _ _ Hn). unpromise. tauto.
  - intros Hn. row SYS_recvfrom R. rewrite (R _ _ _ _ Hn). unpromise. tauto.
  - intros [Hn|[Hn|[]]]; symmetry in Hn.
    + row SYS_recvmsg R. rewrite (R _ _ _ _ Hn). unpromise. tauto.
    + row SYS_recvmmsg R. rewrite (R _ _ _ _ Hn). unpromise. tauto.
  - intros [[Hn|[Hn|[Hn|[]]]] G]; symmetry in Hn.
    + row SYS_setsockopt R. apply (R _ _ _ _ Hn) in G. exact G.
    + row SYS_sendmsg R. apply (R _ _ _ _ Hn) in G. exact G.
    + row SYS_sendmmsg R. apply (R _ _ _ _ Hn) in G. exact G.
Qed.

(** * C127 *)
Lemma has_pow2 : forall x n, has (2 ^ n) x <-> N.testbit x n = true.
Proof.
  intros x n. destruct (N.testbit x n) eqn:E.
  - split; [reflexivity|]. intros _. destruct (one_bit n x) as [C|C]; [|exact C].
    unfold clear in C. apply land_pow2 in C. congruence.
  - split; [|discriminate]. intros C. apply land_pow2 in E. unfold has in C. rewrite E in C. symmetry in C.
    apply N.pow_nonzero in C; [destruct C|discriminate].
Qed.

Lemma c127 : forall prof pid tid ps v prog d,
  filter_for prof pid tid ps v prog -> enforcing v -> native d ->
  (sd_nr d = SYS_clone ->
   (proceeds prog d <-> bits_off [13; 17; 23] (sd_a0 d) /\
      (In Proc ps \/ In StdIO ps /\ Forall (fun n => N.testbit (sd_a0 d) n = true) [8; 9; 10; 11; 16]))) /\
  (In (sd_nr d) [SYS_fork; SYS_vfork] -> (proceeds prog d <-> In Proc ps)) /\
  (In (sd_nr d) [SYS_execve; SYS_execveat] -> (proceeds prog d <-> In Exec ps)) /\
  (sd_nr d = SYS_prlimit64 ->
   (proceeds prog d <-> In StdIO ps /\ sd_a2 d mod 2 ^ 32 = 0 \/ In Proc ps \/ In Id ps)) /\
  (sd_nr d = SYS_setrlimit -> (proceeds prog d <-> In Proc ps \/ In Id ps)) /\
  (sd_nr d = SYS_getrlimit -> (proceeds prog d <-> In StdIO ps)) /\
  ~ (In (sd_nr d) [SYS_clone3; SYS_unshare; SYS_setns] /\ proceeds prog d).
Proof.
  intros prof pid tid ps v prog d H Hv Hd. rewrite (proceeds_iff _ _ _ _ _ _ _ H Hv Hd).
  split; [|split; [|split; [|split; [|split; [|split]]]]].
  - intros Hn. row SYS_clone R. rewrite (R _ _ _ _ Hn). unpromise.
    assert (On : Forall (fun n => N.testbit (sd_a0 d) n = true) [8; 9; 10; 11; 16] <->
      has CLONE_VM (sd_a0 d) /\ has CLONE_FS (sd_a0 d) /\ has CLONE_FILES (sd_a0 d) /\
      has CLONE_THREAD (sd_a0 d) /\ has CLONE_SIGHAND (sd_a0 d)).
    { change CLONE_VM with (2 ^ 8). change CLONE_FS with (2 ^ 9). change CLONE_FILES with (2 ^ 10).
      change CLONE_THREAD with (2 ^ 16). change CLONE_SIGHAND with (2 ^ 11). rewrite !has_pow2.
      rewrite !Forall_cons_iff. intuition. }
    assert (Off : bits_off [13; 17; 23] (sd_a0 d) <->
      clear CLONE_NEWNS (sd_a0 d) /\ clear CLONE_PTRACE (sd_a0 d) /\ clear CLONE_UNTRACED (sd_a0 d)).
    { rewrite bits_off_clear.
      change (fold_right _ 0 [13; 17; 23]) with (N.lor CLONE_NEWNS (N.lor CLONE_PTRACE CLONE_UNTRACED)).
      rewrite !clear_lor. reflexivity. }
    rewrite On, Off. tauto.
  - intros [Hn|[Hn|[]]]; symmetry in Hn.
    + row SYS_fork R. rewrite (R _ _ _ _ Hn). unpromise. tauto.
    + row SYS_vfork R. rewrite (R _ _ _ _ Hn). unpromise. tauto.
  - intros [Hn|[Hn|[]]]; symmetry in Hn.
    + row SYS_execve R. rewrite (R _ _ _ _ Hn). unpromise. tauto.
    + row SYS_execveat R. rewrite (R _ _ _ _ Hn). unpromise. tauto.
  - intros Hn. row SYS_prlimit64 R. rewrite (R _ _ _ _ Hn). unpromise.
    change (sd_a2 d mod 2 ^ 32) with (lo32 (sd_a2 d)). tauto.
  - intros Hn. row SYS_setrlimit R. rewrite (R _ _ _ _ Hn). unpromise. tauto.
  - intros Hn. row SYS_getrlimit R. rewrite (R _ _ _ _ Hn). unpromise. tauto.
  - intros [[Hn|[Hn|[Hn|[]]]] G]; symmetry in Hn.
    + row SYS_clone3 R. apply (R _ _ _ _ Hn) in G. exact G.
    + row SYS_unshare R. apply (R _ _ _ _ Hn) in G. exact G.
    + row SYS_setns R. apply (R _ _ _ _ Hn) in G. exact G.
Qed.
