(** The integration tests pass on the model. *)
From Coq Require Import NArith ZArith String List Bool Lia.
From Verif Require Import Libc Machine Bpf SeccompRet Vm Promises Filters Kernel World Spec
  FragProofs PolicyProofs PolicyFacts PledgeProofs Helpers HelperSpec HelperFacts IntTests.
Import ListNotations.
Local Open Scope N_scope.

Lemma land_low : forall v n m, v mod 2 ^ 32 = n -> m < 2 ^ 32 -> N.land v m = N.land n m.
Proof.
  intros v n m <- L. apply N.bits_inj. intros i. rewrite !N.land_spec.
  destruct (N.lt_ge_cases i 32) as [A|A].
  - rewrite N.mod_pow2_bits_low by exact A. reflexivity.
  - assert (B : N.testbit m i = false).
    { rewrite <- (N.mod_small m (2 ^ 32)) by exact L. apply N.mod_pow2_bits_high. exact A. }
    rewrite B, !andb_false_r. reflexivity.
Qed.

Lemma step_on : forall answer pid tid ps d ds n past, wf_data d -> permitted ps pid tid d ->
  sd_nr d <> SYS_exit -> sd_nr d <> SYS_exit_group ->
  child_run answer [pcode pid tid ps KillProcess] past (andthen (straight (d :: ds)) n) =
  child_run answer [pcode pid tid ps KillProcess] (past ++ [d]) (andthen (straight ds) n).
Proof.
  intros answer pid tid ps d ds n past W P N1 N2. cbn [straight andthen child_run].
  destruct (kill_pledge pid tid ps d W) as [[_ E]|[F _]]; [|contradiction].
  rewrite E. unfold ends_process.
  apply N.eqb_neq in N1, N2. rewrite N1, N2. reflexivity.
Qed.
Lemma step_killed : forall answer pid tid ps d ds n past, wf_data d -> ~ permitted ps pid tid d ->
  child_run answer [pcode pid tid ps KillProcess] past (andthen (straight (d :: ds)) n) = (past ++ [d], Some (Signaled SIGSYS)).
Proof.
  intros answer pid tid ps d ds n past W P. cbn [straight andthen child_run].
  destruct (kill_pledge pid tid ps d W) as [[F _]|[_ E]]; [contradiction|].
  rewrite E. reflexivity.
Qed.
Lemma step_exits : forall answer pid tid ps d ds n past, wf_data d -> permitted ps pid tid d ->
  (sd_nr d = SYS_exit \/ sd_nr d = SYS_exit_group) -> sd_a0 d mod 2 ^ 32 = 99 ->
  child_run answer [pcode pid tid ps KillProcess] past (andthen (straight (d :: ds)) n) = (past ++ [d], Some (Exited 99)).
Proof.
  intros answer pid tid ps d ds n past W P X A. cbn [straight andthen child_run].
  destruct (kill_pledge pid tid ps d W) as [[_ E]|[F _]]; [|contradiction].
  rewrite E. apply ends_iff in X. rewrite X. unfold exit_code.
  rewrite (land_low _ _ 255 A) by reflexivity. reflexivity.
Qed.

Lemma args3 : forall q d, makes q d ->
  sd_nr d = q_nr q /\ sd_arch d = X86_64 /\
  match nth_error (q_args q) 0 with Some (Int n) => sd_a0 d mod 2 ^ 32 = n | _ => True end /\
  match nth_error (q_args q) 1 with Some (Int n) => sd_a1 d mod 2 ^ 32 = n | _ => True end /\
  match nth_error (q_args q) 2 with Some (Int n) => sd_a2 d mod 2 ^ 32 = n | _ => True end /\
  match nth_error (q_args q) 3 with Some (Int n) => sd_a3 d mod 2 ^ 32 = n | _ => True end.
Proof.
  intros [nr args] d (A & B & more & F). cbn [q_nr q_args] in *. split; [exact A|]. split; [exact B|].
  clear A B.
  destruct args as [|x0 [|x1 [|x2 [|x3 args]]]]; cbn [nth_error];
    repeat match goal with
    | F : Forall2 is_arg (_ :: _) (_ :: _) |- _ => cbn [app] in F; inversion F; clear F; subst
    | F : Forall2 is_arg ((_ :: _) ++ _) (_ :: _) |- _ => cbn [app] in F
    end;
    repeat split;
    repeat match goal with x : argument |- _ => destruct x end; try exact Logic.I; assumption.
Qed.

(** Decide the policy at a call whose number and int arguments are known. *)
Ltac known d :=
  repeat match goal with
  | H : sd_a0 d mod _ = ?n |- context [N.land (sd_a0 d) ?m] => rewrite (land_low (sd_a0 d) n m H eq_refl)
  | H : sd_a1 d mod _ = ?n |- context [N.land (sd_a1 d) ?m] => rewrite (land_low (sd_a1 d) n m H eq_refl)
  | H : sd_a2 d mod _ = ?n |- context [N.land (sd_a2 d) ?m] => rewrite (land_low (sd_a2 d) n m H eq_refl)
  | H : sd_a3 d mod _ = ?n |- context [N.land (sd_a3 d) ?m] => rewrite (land_low (sd_a3 d) n m H eq_refl)
  | H : sd_a0 d mod _ = ?n |- context [lo32 (sd_a0 d)] => change (lo32 (sd_a0 d) = n) in H; rewrite H
  | H : sd_a1 d mod _ = ?n |- context [lo32 (sd_a1 d)] => change (lo32 (sd_a1 d) = n) in H; rewrite H
  | H : sd_a2 d mod _ = ?n |- context [lo32 (sd_a2 d)] => change (lo32 (sd_a2 d) = n) in H; rewrite H
  end.
Ltac at_row d Hn :=
  match type of Hn with sd_nr d = ?n =>
    let R := fresh in row n R; rewrite (R _ _ _ _ Hn); clear R; unpromise;
    unfold clear, has, sock_type; known d end.
Ltac yes d Hn := split; [assumption|]; at_row d Hn; vm_compute; tauto.
Ltac no d Hn := intros [_ ?G]; revert G; at_row d Hn; vm_compute; intuition discriminate.
Ltac steps :=
  repeat match goal with
  | |- context [child_run _ _ _ (andthen (straight (?d :: _)) _)] =>
      match goal with Hn : sd_nr d = _ |- _ =>
      first [ rewrite step_on by first [assumption | yes d Hn | rewrite Hn; discriminate]
            | rewrite step_exits by first [assumption | yes d Hn | rewrite Hn; cbn; tauto]; reflexivity
            | rewrite step_killed by first [assumption | no d Hn]; reflexivity ] end
  end.

Lemma c110 : forall test prof amb t answer ds harness,
  In test tests_lib -> Forall2 makes (it_calls test) ds -> Forall wf_data ds ->
  t_filters t = [] -> amb_oom (amb 1%nat) = false ->
  judge (it_expect test)
    (snd (child_of_test prof amb t (it_promises test) KillProcess answer (straight ds) harness)) = Passed.
Proof.
  intros test prof amb t answer ds harness I F W Ft M. cbn [tests_lib In] in I.
  repeat (destruct I as [<-|I]; [|]); [..|destruct I]; cbn [it_calls it_promises it_expect judge] in *.
  all: rewrite child_pledged by first [assumption | repeat constructor; cbn; intuition discriminate].
  all: repeat match goal with
    | F : Forall2 makes (_ :: _) _ |- _ => inversion F; clear F; subst
    | F : Forall2 makes [] _ |- _ => inversion F; clear F; subst
    | F : Forall wf_data (_ :: _) |- _ => inversion F; clear F; subst
    | F : Forall wf_data [] |- _ => clear F
    | H : makes _ _ |- _ => apply args3 in H;
        unfold file_open, file_create, file_read, file_write, file_close, libc_exit in H; cbn [q_nr q_args nth_error] in H; destruct H as (? & ? & ? & ? & ? & ?)
    end.
  all: steps.
Qed.

Lemma c110_errno : forall prof amb t answer d e harness,
  makes (Call SYS_personality [Int 0xffffffff]) d -> makes (libc_exit 0xffffffff) e ->
  wf_data d -> t_filters t = [] -> amb_oom (amb 1%nat) = false ->
  exists prog, filter_for prof (t_pid t) (t_tid t) [StdIO] (Errno 999) prog /\
  child_of_test prof amb t [StdIO] (Errno 999) answer (errno_child d e) harness =
    child_run answer [prog] [d] (andthen harness main_returned) /\
  fork_expect_code 0
    (snd (child_of_test prof amb t [StdIO] (Errno 999) answer (errno_child d e) Ret)) = Passed.
Proof.
  intros prof amb t answer d e harness Hd He Wd Ft M.
  assert (K : forall h, child_of_test prof amb t [StdIO] (Errno 999) answer (errno_child d e) h =
    child_run answer [pcode (t_pid t) (t_tid t) [StdIO] (Errno 999)] [d] (andthen h main_returned)).
  { intros h. unfold child_of_test.
    rewrite (nodup_installs prof t amb [StdIO] (Errno 999) Ft M) by (repeat constructor; cbn; tauto).
    cbn [t_filters set_filters set_nnp errno_child andthen child_run app].
    apply args3 in Hd. cbn [q_nr q_args nth_error] in Hd. destruct Hd as (Hn & Ha & _).
    assert (E : syscall_entry [pcode (t_pid t) (t_tid t) [StdIO] (Errno 999)] d = Fake (-999)).
    { rewrite single_entry. unfold kernel_eval. rewrite pcode_run.
      rewrite lo32_small by apply Wd. rewrite Ha. change (X86_64 =? X86_64) with true. cbn iota.
      destruct (existsb _ _) eqn:X; [|reflexivity].
      exfalso. apply (fgrant [StdIO] (t_pid t) (t_tid t) d Wd) in X. revert X.
      row SYS_personality R. rewrite (R _ _ _ _ Hn). cbn. tauto. }
    rewrite E. reflexivity. }
  exists (pcode (t_pid t) (t_tid t) [StdIO] (Errno 999)). split; [apply filter_for_exists|].
  split; [apply K|]. rewrite K. reflexivity.
Qed.
