(** Promises act independently of one another (C102); the error number a refused call returns (C103). *)
From Coq Require Import NArith ZArith List Bool Lia.
From Verif Require Import Libc Machine Bpf SeccompRet Vm Promises Filters Kernel World Spec
  FragProofs PolicyProofs PolicyFacts PledgeProofs NeedFacts.
Import ListNotations.
Local Open Scope N_scope.

(** * C102 *)
Lemma granted_one : forall ps pid tid d,
  granted ps pid tid d <-> granted [] pid tid d \/ exists p, In p ps /\ granted [p] pid tid d.
Proof.
  intros ps pid tid d. split.
  - intros (alts & r & who & x & Hrow & Halt & Hx & [Hq|Hq] & Ha).
    + left. exists alts, r, who, x. exact (conj Hrow (conj Halt (conj Hx (conj (or_introl Hq) Ha)))).
    + right. exists x. split; [exact Hq|]. exists alts, r, who, x.
      exact (conj Hrow (conj Halt (conj Hx (conj (or_intror (or_introl eq_refl)) Ha)))).
  - intros [G|(p & Hp & G)]; destruct G as (alts & r & who & x & Hrow & Halt & Hx & Hq & Ha);
      exists alts, r, who, x; refine (conj Hrow (conj Halt (conj Hx (conj _ Ha)))).
    + destruct Hq as [Hq|[]]. left. exact Hq.
    + destruct Hq as [Hq|[<-|[]]]; [left; exact Hq|right; exact Hp].
Qed.
Lemma c102 : forall prof pid tid ps v prog d,
  filter_for prof pid tid ps v prog -> enforcing v -> native d ->
  (proceeds prog d <->
   sd_nr d = SYS_exit \/
   exists p one, In p ps /\ filter_for prof pid tid [p] v one /\ proceeds one d).
Proof.
  intros prof pid tid ps v prog d H Hv Hd. rewrite (proceeds_iff _ _ _ _ _ _ _ H Hv Hd), granted_one.
  destruct (c14_build prof pid tid [] v) as [e He].
  rewrite <- (proceeds_iff _ _ _ _ _ _ _ He Hv Hd), (c21_empty _ _ _ _ _ _ He Hv Hd).
  assert (K : forall p, granted [p] pid tid d <->
    exists one, filter_for prof pid tid [p] v one /\ proceeds one d).
  { intros p. split.
    - intros G. destruct (c14_build prof pid tid [p] v) as [f Hf]. exists f. split; [exact Hf|].
      apply (proceeds_iff _ _ _ _ _ _ _ Hf Hv Hd). exact G.
    - intros (f & Hf & P). apply (proceeds_iff _ _ _ _ _ _ _ Hf Hv Hd). exact P. }
  split; (intros [A|A]; [left; exact A|right]).
  - destruct A as (p & Hp & G). apply K in G. destruct G as (f & Hf & P). eauto.
  - destruct A as (p & f & Hp & Hf & P). exists p. split; [exact Hp|]. apply K. eauto.
Qed.
Lemma c102_append : forall prof pid tid ps qs v f g h d,
  filter_for prof pid tid ps v f -> filter_for prof pid tid qs v g -> filter_for prof pid tid (ps ++ qs) v h ->
  enforcing v -> native d ->
  (proceeds h d <-> proceeds f d \/ proceeds g d).
Proof.
  intros prof pid tid ps qs v f g h d Hf Hg Hh Hv Hd.
  rewrite (proceeds_iff _ _ _ _ _ _ _ Hf Hv Hd), (proceeds_iff _ _ _ _ _ _ _ Hg Hv Hd),
    (proceeds_iff _ _ _ _ _ _ _ Hh Hv Hd), (granted_one (ps ++ qs)), (granted_one ps), (granted_one qs).
  clear Hf Hg Hh Hv. generalize (granted [] pid tid d). generalize (fun p => granted [p] pid tid d).
  intros P Q. split.
  - intros [A|(p & Hp & A)]; [tauto|]. apply in_app_iff in Hp. destruct Hp as [Hp|Hp]; [left|right]; right; eauto.
  - intros [[A|(p & Hp & A)]|[A|(p & Hp & A)]]; [tauto| |tauto|]; right; exists p; rewrite in_app_iff; tauto.
Qed.

(** * C103 *)
Lemma c103 : forall prof pid tid ps e prog d,
  filter_for prof pid tid ps (Errno e) prog -> e < 2 ^ 16 -> native d -> ~ granted ps pid tid d ->
  exists z, syscall_entry [prog] d = Fake z /\
    (z = (- Z.of_N e)%Z <-> e <= 4095) /\ ((-4095 <= z <= -1)%Z <-> e <> 0) /\
    (4095 < e -> z = (-4095)%Z).
Proof.
  intros prof pid tid ps e prog d H He Hd Ng.
  destruct (PledgeProofs.c44 _ _ _ _ _ _ _ H He Hd) as (_ & F & _).
  specialize (F Ng). cbn [fate] in F. eexists. split; [exact F|]. lia.
Qed.
Lemma c103_refuted : forall prof pid tid ps prog d,
  filter_for prof pid tid ps (Errno 5000) prog -> native d -> ~ granted ps pid tid d ->
  syscall_entry [prog] d = Fake (-4095).
Proof.
  intros prof pid tid ps prog d H Hd Ng.
  destruct (PledgeProofs.c44 _ _ _ _ _ _ _ H eq_refl Hd) as (_ & F & _).
  exact (F Ng).
Qed.
