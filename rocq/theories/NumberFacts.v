(** Exactly who allows the system calls decided by their number (C129). *)
From Coq Require Import NArith List Bool Lia.
From Verif Require Import Libc Machine Bpf SeccompRet Vm Promises Filters Kernel World Spec
  FragProofs PolicyProofs PolicyFacts NumberSpec.
Import ListNotations.
Local Open Scope N_scope.

Definition inb (p : Promise) (who : list Promise) : bool := existsb (promise_eqb p) who.
Lemma inb_in : forall p who, inb p who = true <-> In p who.
Proof.
  intros p who. unfold inb. rewrite existsb_exists. split.
  - intros (q & I & E). apply promise_eqb_eq in E. subst q. exact I.
  - intros I. exists p. split; [exact I|apply promise_eqb_eq; reflexivity].
Qed.

(** The policy has one row for [nr], for any arguments and for these promises. *)
Definition row_is (nr : N) (who : list Promise) : bool :=
  match row_of nr with
  | Some [(AnyArgs, who')] =>
      forallb (fun p => inb p who' && negb (promise_eqb p Default)) who &&
      forallb (fun p => inb p who && negb (promise_eqb p Default)) who'
  | _ => false
  end.
Lemma rows_right : forallb (fun g => forallb (fun nr => row_is nr (snd g)) (fst g)) by_number = true.
Proof. vm_compute. reflexivity. Qed.

Lemma row_is_granted : forall nr who, row_is nr who = true ->
  forall ps pid tid d, sd_nr d = nr -> (granted ps pid tid d <-> exists p, In p who /\ In p ps).
Proof.
  intros nr who H ps pid tid d Hn. rewrite (granted_at nr _ ps pid tid d eq_refl Hn). unfold row_is in H.
  destruct (row_of nr) as [[|[r who'] [|? ?]]|]; try discriminate H; destruct r; try discriminate H.
  apply andb_true_iff in H. destruct H as [A B]. rewrite forallb_forall in A, B.
  cbn [alts_ok fold_right fst snd args_ok]. rewrite who_ok_iff. split.
  - intros [[(p & I & J) _]|[]]. specialize (B p I). apply andb_true_iff in B. destruct B as [B N].
    exists p. split; [apply inb_in; exact B|]. destruct J as [->|J]; [discriminate N|exact J].
  - intros (p & I & J). specialize (A p I). apply andb_true_iff in A. destruct A as [A _]. left. split; [|exact Logic.I].
    exists p. split; [apply inb_in; exact A|right; exact J].
Qed.

(** Every row of the policy is in one of the two tables, or is that of exit. *)
Lemma rows_all : forallb (fun row => (fst row =? SYS_exit) || existsb (N.eqb (fst row)) by_arguments ||
  existsb (fun g => existsb (N.eqb (fst row)) (fst g)) by_number) policy = true.
Proof. vm_compute. reflexivity. Qed.

Lemma in_eqb : forall n l, existsb (N.eqb n) l = true -> In n l.
Proof. intros n l H. apply existsb_exists in H. destruct H as (m & I & E). apply N.eqb_eq in E. subst m. exact I. Qed.

Lemma c129 : forall prof pid tid ps v prog d,
  filter_for prof pid tid ps v prog -> enforcing v -> native d ->
  (forall nrs who, In (nrs, who) by_number -> In (sd_nr d) nrs ->
     (proceeds prog d <-> exists p, In p who /\ In p ps)) /\
  (sd_nr d = SYS_exit -> proceeds prog d) /\
  (proceeds prog d -> sd_nr d = SYS_exit \/ In (sd_nr d) by_arguments \/
     exists nrs who, In (nrs, who) by_number /\ In (sd_nr d) nrs).
Proof.
  intros prof pid tid ps v prog d H Hv Hd. pose proof (proceeds_iff _ _ _ _ _ _ _ H Hv Hd) as P.
  split; [|split].
  - intros nrs who I J. rewrite P. pose proof rows_right as T. rewrite forallb_forall in T. specialize (T _ I).
    cbn [fst snd] in T. rewrite forallb_forall in T. exact (row_is_granted _ _ (T _ J) ps pid tid d eq_refl).
  - intros Hn. apply P. row SYS_exit R. rewrite (R _ _ _ _ Hn). unfold promised. tauto.
  - intros G. apply P in G. destruct G as (alts & rule & who & p & I & _). pose proof rows_all as T. rewrite forallb_forall in T. specialize (T _ I).
    cbn [fst] in T. rewrite !orb_true_iff in T. destruct T as [[T|T]|T].
    + left. apply N.eqb_eq. exact T.
    + right. left. apply in_eqb. exact T.
    + right. right. apply existsb_exists in T. destruct T as ([nrs who'] & J & T). exists nrs, who'.
      split; [exact J|apply in_eqb; exact T].
Qed.

(** No call is in two groups, or in a group and among those whose arguments count. *)
Lemma c129_once : NoDup (SYS_exit :: by_arguments ++ concat (map fst by_number)).
Proof.
  assert (D : forall l, (fix go l := match l with [] => true | x :: l' => negb (existsb (N.eqb x) l') && go l' end) l = true ->
            NoDup l).
  { intros l. induction l as [|x l IH]; intros H; [constructor|]. apply andb_true_iff in H. destruct H as [H K].
    constructor; [|exact (IH K)]. intros I. apply negb_true_iff in H.
    assert (E : existsb (N.eqb x) l = true) by (apply existsb_exists; exists x; split; [exact I|apply N.eqb_refl]).
    congruence. }
  apply D. vm_compute. reflexivity.
Qed.
