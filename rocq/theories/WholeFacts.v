(** A process all of whose threads have pledged (C123). *)
From Coq Require Import NArith ZArith String List Bool Lia.
From Verif Require Import Libc Machine Bpf SeccompRet Asm Vm Promises Filters Kernel World Spec.
From Verif Require Import FragProofs PolicyProofs CodeProofs PledgeProofs StackProofs WorldProofs HistoryProofs.
Import ListNotations.
Local Open Scope N_scope.

Lemma descendants_incl : forall tr us vs, incl us vs -> incl (descendants us tr) (descendants vs tr).
Proof.
  induction tr as [|ev tr IH]; intros us vs H; [exact H|]. destruct ev as [| p c | |]; cbn [descendants]; try (apply IH; exact H).
  apply IH. destruct (existsb (Nat.eqb p) us) eqn:E.
  - assert (existsb (Nat.eqb p) vs = true) as ->.
    { apply existsb_exists in E. destruct E as (x & I & E). apply existsb_exists. exists x. split; [apply H; exact I|exact E]. }
    intros x [<-|I]; [left; reflexivity|right; apply H; exact I].
  - destruct (existsb (Nat.eqb p) vs); intros x I; [right|]; apply H; exact I.
Qed.

Lemma descendants_union : forall tr us vs x, In x (descendants (us ++ vs) tr) ->
  In x (descendants us tr) \/ In x (descendants vs tr).
Proof.
  induction tr as [|ev tr IH]; intros us vs x H; [apply in_app_or; exact H|].
  destruct ev as [| p c | |]; cbn [descendants] in *; try (apply IH; exact H).
  rewrite existsb_app in H. destruct (existsb (Nat.eqb p) us) eqn:E1; cbn [orb] in H.
  - change (c :: us ++ vs) with ((c :: us) ++ vs) in H. apply IH in H. destruct H as [H|H]; [left; exact H|right].
    destruct (existsb (Nat.eqb p) vs); [|exact H]. refine (descendants_incl _ _ _ _ _ H). intros y I. right. exact I.
  - destruct (existsb (Nat.eqb p) vs) eqn:E2; [|apply IH; exact H]. apply IH.
    refine (descendants_incl _ _ _ _ _ H). intros y [<-|I]; [apply in_or_app; right; left; reflexivity|].
    apply in_app_or in I. apply in_or_app. destruct I as [I|I]; [left|right; right]; exact I.
Qed.
Lemma descendants_none : forall tr, descendants [] tr = [].
Proof. induction tr as [|ev tr IH]; [reflexivity|]. destruct ev; exact IH. Qed.
Lemma descendants_one : forall tr us x, In x (descendants us tr) -> exists u, In u us /\ In x (descendants [u] tr).
Proof.
  intros tr us x. induction us as [|u us IH]; intros H.
  - rewrite descendants_none in H. destruct H.
  - apply (descendants_union tr [u] us) in H. destruct H as [H|H]; [exists u; split; [left; reflexivity|exact H]|].
    destruct (IH H) as (y & I & X). exists y. split; [right; exact I|exact X].
Qed.

Lemma c123 : forall prof w ops1 w1 tr1 pid d ops2 w2 tr2 t o,
  fresh_world w -> wrun prof w ops1 = (w1, tr1) -> wf_data d ->
  wrun prof w1 ops2 = (w2, tr2) ->
  (forall u' d' o', In (OSys u' d' o') ops2 -> o_newid o' <> pid) ->
  (forall x, In x (w_threads w1) -> t_pid x = pid ->
     exists before u pid' tid' ps v after,
       tr1 = before ++ EvInstalled u pid' tid' ps v :: after /\ In (t_uid x) (descendants [u] after) /\
       (sd_arch d = X86_64 -> forall p q, ~ granted ps p q d) /\
       (hard v \/ (enforcing v /\ Forall unsupervised (ops1 ++ ops2 ++ [OSys (t_uid t) d o])))) ->
  In t (w_threads w2) -> t_pid t = pid ->
  ~ In (EvCall (t_uid t) d Proceed) (snd (wstep prof w2 (OSys (t_uid t) d o))).
Proof.
  intros prof w ops1 w1 tr1 pid d ops2 w2 tr2 t o Fw R1 Wd R2 Nw All It Pt Ic.
  set (us := map t_uid (filter (fun x => t_pid x =? pid) (w_threads w1))).
  assert (O1 : owned w1 us pid).
  { intros x Ix Px. unfold us. apply in_map, filter_In. split; [exact Ix|apply N.eqb_eq; exact Px]. }
  assert (D : In (t_uid t) (descendants us tr2)) by (apply (wrun_owned prof ops2 w1 w2 tr2 us pid O1 R2 Nw); assumption).
  apply descendants_one in D. destruct D as (u0 & Iu & D). unfold us in Iu. apply in_map_iff in Iu.
  destruct Iu as (x & <- & Ix). apply filter_In in Ix. destruct Ix as [Ix Px]. apply N.eqb_eq in Px.
  destruct (All x Ix Px) as (before & u & pid' & tid' & ps & v & after & E & Dx & Ng & Hv).
  destruct (wstep prof w2 (OSys (t_uid t) d o)) as [w3 evs] eqn:S3. cbn [snd] in Ic.
  assert (R : wrun prof w (ops1 ++ ops2 ++ [OSys (t_uid t) d o]) =
    (w3, before ++ EvInstalled u pid' tid' ps v :: (after ++ tr2 ++ evs))).
  { rewrite (wrun_app prof _ _ _ _ _ R1), (wrun_app prof _ _ _ _ _ R2). cbn [wrun fst snd]. rewrite S3. cbn [fst snd].
    rewrite app_nil_r, E, <- app_assoc. reflexivity. }
  destruct (in_split _ _ Ic) as (m1 & m2 & E4).
  destruct (c40 prof w _ _ _ _ u pid' tid' ps v _ Fw R eq_refl Hv) as (pids & tids & _ & _ & _ & _ & G).
  destruct (G (after ++ tr2 ++ m1) (t_uid t) d m2) as (Ar & p & q & _ & _ & Gr).
  - rewrite E4, <- !app_assoc. reflexivity.
  - rewrite !descendants_app. apply descendants_mono.
    refine (descendants_incl _ _ _ _ _ D). intros y [<-|[]]. exact Dx.
  - exact Wd.
  - exact (Ng Ar p q Gr).
Qed.
