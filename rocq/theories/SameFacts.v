(** Comparing two pledges: when one grants all the other does (C109), when both build the same
    filter (C108). *)
From Coq Require Import NArith ZArith List Bool Lia.
From Verif Require Import Libc Machine Bpf SeccompRet Vm Promises Filters Kernel World Spec
  FragProofs PolicyProofs PolicyFacts ReachFacts SumFacts CodeProofs.
Import ListNotations.
Local Open Scope N_scope.

(** * C109 *)

Definition stand_ins : list (Promise * list Promise) :=
  [ (VmInfo, [StdIO]); (RecvFd, [SendFd]); (SendFd, [RecvFd]);
    (TmpPath, [RPath; CPath]); (TmpPath, [WPath; CPath]);
    (Dns, [StdIO; RPath; Inet]); (Dns, [StdIO; WPath; CPath; Inet]) ].

Definition id_rule (r : argrule) : bool := match r with SelfPid | SelfTid => true | _ => false end.
Lemma id_rows : forallb (fun row => (fst row =? SYS_kill) || (fst row =? SYS_tkill) ||
  forallb (fun alt => negb (id_rule (fst alt))) (snd row)) policy = true.
Proof. vm_compute. reflexivity. Qed.
Lemma granted_ids : forall ps pid tid pid' tid' d, sd_nr d <> SYS_kill -> sd_nr d <> SYS_tkill ->
  granted ps pid tid d -> granted ps pid' tid' d.
Proof.
  intros ps pid tid pid' tid' d Nk Nt (alts & r & who & x & Hrow & Halt & Hx & Hq & Ha).
  exists alts, r, who, x. refine (conj Hrow (conj Halt (conj Hx (conj Hq _)))).
  pose proof id_rows as T. rewrite forallb_forall in T. specialize (T _ Hrow). cbn [fst snd] in T.
  apply N.eqb_neq in Nk, Nt. rewrite Nk, Nt in T. cbn [orb] in T.
  rewrite forallb_forall in T. specialize (T _ Halt). cbn [fst] in T.
  destruct r; try discriminate T; exact Ha.
Qed.

Lemma granted_mono : forall ps qs pid tid d, incl ps qs -> granted ps pid tid d -> granted qs pid tid d.
Proof.
  intros ps qs pid tid d I (alts & r & who & x & Hrow & Halt & Hx & Hq & Ha).
  exists alts, r, who, x. refine (conj Hrow (conj Halt (conj Hx (conj _ Ha)))).
  destruct Hq as [Hq|Hq]; [left; exact Hq|right; apply I; exact Hq].
Qed.

Lemma stand_ins_cover :
  forallb (fun row => covers_list (snd row) (fst row) || (length (snd row) =? 4)%nat) stand_ins = true.
Proof. vm_compute. reflexivity. Qed.
(** Dns without openat. *)
Lemma dns_rows : forallb (fun row => (fst row =? SYS_openat) || forallb (fun alt =>
      negb (existsb (promise_eqb Dns) (snd alt))
      || existsb (covered_by_list [StdIO; WPath; CPath; Inet] (fst alt)) (snd row)) (snd row)) policy = true.
Proof. vm_compute. reflexivity. Qed.
Lemma read_is_create : forall n, clear O_CREAT n -> clear (2 ^ 22) n -> clear (O_CREAT + 2 ^ 22) n.
Proof.
  unfold clear. intros n A B. change (O_CREAT + 2 ^ 22) with (N.lor O_CREAT (2 ^ 22)).
  rewrite N.land_lor_distr_r, A, B. reflexivity.
Qed.
Lemma dns_cover : forall pid tid d, granted [Dns] pid tid d -> granted [StdIO; WPath; CPath; Inet] pid tid d.
Proof.
  intros pid tid d G. destruct (N.eq_dec (sd_nr d) SYS_openat) as [E|E].
  - row SYS_openat R. apply R in G; [|exact E]. apply R; [exact E|]. unpromise. cbn [In] in *.
    right. right. left. split; [tauto|]. left.
    assert (K : clear O_CREAT (sd_a2 d) /\ clear (2 ^ 22) (sd_a2 d)).
    { clear - G. intuition discriminate. }
    apply read_is_create; apply K.
  - destruct G as (alts & r & who & x & Hrow & Halt & Hx & Hq & Ha).
    destruct Hq as [Hq|[Hq|[]]].
    + exists alts, r, who, x. exact (conj Hrow (conj Halt (conj Hx (conj (or_introl Hq) Ha)))).
    + subst x. pose proof dns_rows as C. rewrite forallb_forall in C. specialize (C _ Hrow). cbn [fst snd] in C.
      apply N.eqb_neq in E. rewrite E in C. cbn [orb] in C.
      rewrite forallb_forall in C. specialize (C _ Halt). cbn [fst snd] in C.
      apply orb_true_iff in C. destruct C as [C|C].
      * exfalso. apply negb_true_iff in C. apply (proj2 (NeedFacts.mem_promise _ _)) in Hx. congruence.
      * apply existsb_exists in C. destruct C as [[r' who'] [Hi C]]. unfold covered_by_list in C.
        cbn [fst snd] in C. apply andb_true_iff in C. destruct C as [C1 C2].
        assert (Ha' : args_ok r' pid tid d).
        { destruct (NeedFacts.argrule_eq_dec r' r) as [->|]; [exact Ha|].
          destruct (NeedFacts.argrule_eq_dec r' AnyArgs) as [->|]; [exact Logic.I|discriminate C1]. }
        apply existsb_exists in C2. destruct C2 as [y [Hy C2]]. apply NeedFacts.mem_promise in C2.
        exists alts, r', who', y. refine (conj Hrow (conj Hi (conj C2 (conj _ Ha')))).
        destruct Hy as [<-|Hy]; [left; reflexivity|right; exact Hy].
Qed.
Lemma stand_in_sound : forall p alt pid tid d, In (p, alt) stand_ins ->
  granted [p] pid tid d -> granted alt pid tid d.
Proof.
  intros p alt pid tid d H G.
  pose proof stand_ins_cover as C. rewrite forallb_forall in C. specialize (C _ H). cbn [fst snd] in C.
  apply orb_true_iff in C. destruct C as [C|C].
  - rewrite <- (app_nil_r alt). exact (covers_list_sound _ _ C _ _ _ _ G).
  - cbn [stand_ins In] in H. repeat (destruct H as [H|H]; [injection H as <- <-; try discriminate C|]); [|destruct H].
    exact (dns_cover _ _ _ G).
Qed.

Definition may_stand (p : Promise) (qs : list Promise) : Prop :=
  p = Default \/ In p qs \/ exists alt, In (p, alt) stand_ins /\ incl alt qs.

Lemma allowed_transfer : forall ps qs pid tid pid' tid',
  (forall p, In p ps -> may_stand p qs) ->
  (In StdIO ps -> In Proc qs \/ pid = pid' /\ tid mod 2 ^ 32 = tid' mod 2 ^ 32) ->
  forall d, granted ps pid tid d -> granted qs pid' tid' d.
Proof.
  intros ps qs pid tid pid' tid' C S d G.
  assert (Kp : In Proc ps -> In Proc qs).
  { intros Hp. destruct (C _ Hp) as [E|[E|(alt & E & _)]]; [discriminate E|exact E|].
    exfalso. clear - E. cbn [stand_ins In] in E. intuition discriminate. }
  assert (Ks : In StdIO ps -> In StdIO qs).
  { intros Hp. destruct (C _ Hp) as [E|[E|(alt & E & _)]]; [discriminate E|exact E|].
    exfalso. clear - E. cbn [stand_ins In] in E. intuition discriminate. }
  destruct (N.eq_dec (sd_nr d) SYS_kill) as [Nk|Nk].
  { row SYS_kill R. apply R in G; [|exact Nk]. apply R; [exact Nk|]. unpromise.
    destruct G as [[[G1|[]] G2]|[[[G1|[]] G2]|[]]].
    - destruct (S G1) as [K|[K1 K2]]; [tauto|]. subst pid'. tauto.
    - tauto. }
  destruct (N.eq_dec (sd_nr d) SYS_tkill) as [Nt|Nt].
  { row SYS_tkill R. apply R in G; [|exact Nt]. apply R; [exact Nt|]. unpromise.
    destruct G as [[[G1|[]] G2]|[[[G1|[]] G2]|[]]].
    - destruct (S G1) as [K|[K1 K2]]; [tauto|].
      change (lo32 tid = lo32 tid') in K2. rewrite K2 in G2. tauto.
    - tauto. }
  apply (granted_ids _ _ _ pid' tid' _ Nk Nt) in G. clear Nk Nt S Kp Ks.
  apply granted_one in G. destruct G as [G|(p & Hp & G)].
  - apply (granted_mono []); [intros ? []|exact G].
  - destruct (C _ Hp) as [E|[E|(alt & E & Hi)]].
    + subst p. destruct G as (alts & r & who & x & Hrow & Halt & Hx & Hq & Ha).
      exists alts, r, who, x. refine (conj Hrow (conj Halt (conj Hx (conj (or_introl _) Ha)))).
      destruct Hq as [Hq|[Hq|[]]]; [exact Hq|symmetry; exact Hq].
    + apply (granted_mono [p]); [|exact G]. intros ? [<-|[]]. exact E.
    + apply (granted_mono alt); [exact Hi|]. exact (stand_in_sound _ _ _ _ _ E G).
Qed.

Lemma native_call6 : forall nr a0 a1 a2, nr < 2 ^ 32 -> a0 < 2 ^ 64 -> a1 < 2 ^ 64 -> a2 < 2 ^ 64 ->
  native (call6 nr a0 a1 a2 0 0 0).
Proof.
  intros nr a0 a1 a2 A B C D. split; [|reflexivity]. unfold call6, wf_data; cbn.
  repeat split; try reflexivity; assumption.
Qed.

Lemma allowed_necessary : forall ps qs pid tid pid' tid', pid < 2 ^ 32 ->
  (forall d, native d -> granted ps pid tid d -> granted qs pid' tid' d) ->
  (forall p, In p ps -> may_stand p qs) /\
  (In StdIO ps -> In Proc qs \/ pid = pid' /\ tid mod 2 ^ 32 = tid' mod 2 ^ 32).
Proof.
  intros ps qs pid tid pid' tid' Lp G. split.
  - intros p Hp.
    assert (K : ~ In p superfluous -> In p qs).
    { intros Ns. apply (own_call_granted p qs pid' tid' Ns). apply (G _ (own_call_wf p)).
      apply (own_call_granted p ps pid tid Ns). exact Hp. }
    unfold may_stand.
    destruct p; try (right; left; apply K; clear; cbn; intuition discriminate); clear K.
    + left. reflexivity.
    + assert (A : In StdIO qs \/ In Dns qs).
      { row SYS_read R. specialize (G (call6 SYS_read 0 0 0 0 0 0)).
        rewrite (R ps), (R qs) in G by reflexivity. unpromise. clear R.
        assert (native (call6 SYS_read 0 0 0 0 0 0)) by (apply native_call6; reflexivity). tauto. }
      assert (B : In Inet qs \/ In Dns qs).
      { row SYS_socket R. set (d := call6 SYS_socket AF_INET SOCK_STREAM 0 0 0 0) in *.
        assert (P : granted qs pid' tid' d).
        { apply G; [apply native_call6; reflexivity|]. apply R; [reflexivity|]. left.
          split; [right; left; right; exact Hp|]. split; [left; reflexivity|].
          split; [left; reflexivity|left; reflexivity]. }
        apply R in P; [|reflexivity]. unpromise.
        destruct P as [[P _]|[[_ [P _]]|[]]]; [clear - P; tauto|discriminate P]. }
      assert (C : In RPath qs \/ In CPath qs \/ In Dns qs).
      { row SYS_openat R. set (d := call6 SYS_openat 0 0 0 0 0 0) in *.
        assert (P : granted qs pid' tid' d).
        { apply G; [apply native_call6; reflexivity|]. apply R; [reflexivity|]. left.
          split; [right; left; right; exact Hp|]. repeat split; reflexivity. }
        apply R in P; [|reflexivity]. unpromise.
        destruct P as [[P _]|[[_ [[P|P] _]]|[[P _]|[]]]]; try discriminate P; clear - P; tauto. }
      assert (D : In RPath qs \/ In WPath qs \/ In Dns qs).
      { row SYS_newfstatat R. specialize (G (call6 SYS_newfstatat 0 0 0 0 0 0)).
        rewrite (R ps), (R qs) in G by reflexivity. unpromise. clear R.
        assert (native (call6 SYS_newfstatat 0 0 0 0 0 0)) by (apply native_call6; reflexivity). tauto. }
      destruct (in_dec promise_eq_dec Dns qs) as [I|I]; [tauto|].
      destruct (in_dec promise_eq_dec RPath qs) as [J|J]; right; right.
      * exists [StdIO; RPath; Inet]. split; [cbn; tauto|].
        unfold incl; cbn [In]; intros x Hx; repeat (destruct Hx as [<-|Hx]; [tauto|]); destruct Hx.
      * exists [StdIO; WPath; CPath; Inet]. split; [cbn; tauto|].
        unfold incl; cbn [In]; intros x Hx; repeat (destruct Hx as [<-|Hx]; [tauto|]); destruct Hx.
    + assert (A : In SendFd qs \/ In RecvFd qs).
      { row SYS_recvmsg R. specialize (G (call6 SYS_recvmsg 0 0 0 0 0 0)).
        rewrite (R ps), (R qs) in G by reflexivity. unpromise. clear R.
        assert (native (call6 SYS_recvmsg 0 0 0 0 0 0)) by (apply native_call6; reflexivity). tauto. }
      right. destruct A as [A|A]; [right; exists [SendFd]|left; exact A].
      split; [cbn; tauto|]. intros x [<-|[]]. exact A.
    + assert (A : In SendFd qs \/ In RecvFd qs).
      { row SYS_recvmsg R. specialize (G (call6 SYS_recvmsg 0 0 0 0 0 0)).
        rewrite (R ps), (R qs) in G by reflexivity. unpromise. clear R.
        assert (native (call6 SYS_recvmsg 0 0 0 0 0 0)) by (apply native_call6; reflexivity). tauto. }
      right. destruct A as [A|A]; [left; exact A|right; exists [RecvFd]].
      split; [cbn; tauto|]. intros x [<-|[]]. exact A.
    + assert (A : In StdIO qs \/ In VmInfo qs).
      { row SYS_sched_yield R. specialize (G (call6 SYS_sched_yield 0 0 0 0 0 0)).
        rewrite (R ps), (R qs) in G by reflexivity. unpromise. clear R.
        assert (native (call6 SYS_sched_yield 0 0 0 0 0 0)) by (apply native_call6; reflexivity). tauto. }
      right. destruct A as [A|A]; [right; exists [StdIO]|left; exact A].
      split; [cbn; tauto|]. intros x [<-|[]]. exact A.
    + assert (A : In RPath qs \/ In WPath qs \/ In TmpPath qs).
      { row SYS_lstat R. specialize (G (call6 SYS_lstat 0 0 0 0 0 0)).
        rewrite (R ps), (R qs) in G by reflexivity. unpromise. clear R.
        assert (native (call6 SYS_lstat 0 0 0 0 0 0)) by (apply native_call6; reflexivity). tauto. }
      assert (B : In CPath qs \/ In TmpPath qs).
      { row SYS_unlink R. specialize (G (call6 SYS_unlink 0 0 0 0 0 0)).
        rewrite (R ps), (R qs) in G by reflexivity. unpromise. clear R.
        assert (native (call6 SYS_unlink 0 0 0 0 0 0)) by (apply native_call6; reflexivity). tauto. }
      right. destruct B as [B|B]; [|left; exact B].
      destruct A as [A|[A|A]]; [right; exists [RPath; CPath]|right; exists [WPath; CPath]|left; exact A].
      * split; [cbn; tauto|]. intros x [<-|[<-|[]]]; assumption.
      * split; [cbn; tauto|]. intros x [<-|[<-|[]]]; assumption.
  - intros Hs.
    assert (L32 : forall n, lo32 n < 2 ^ 32) by (intros n; apply N.mod_lt; discriminate).
    assert (L : 2 ^ 32 < 2 ^ 64) by reflexivity.
    assert (A : In Proc qs \/ pid = pid').
    { row SYS_kill R. specialize (G (call6 SYS_kill pid 0 0 0 0 0)).
      rewrite (R ps), (R qs) in G by reflexivity. unpromise. clear R.
      assert (native (call6 SYS_kill pid 0 0 0 0 0)) by (apply native_call6; try reflexivity; lia).
      cbn [call6 sd_a0] in G. rewrite (lo32_small pid Lp) in G. tauto. }
    assert (B : In Proc qs \/ lo32 tid = lo32 tid').
    { row SYS_tkill R. specialize (G (call6 SYS_tkill (lo32 tid) 0 0 0 0 0)).
      rewrite (R ps), (R qs) in G by reflexivity. unpromise. clear R. pose proof (L32 tid).
      assert (native (call6 SYS_tkill (lo32 tid) 0 0 0 0 0)) by (apply native_call6; try reflexivity; lia).
      cbn [call6 sd_a0] in G. rewrite (lo32_small (lo32 tid) (L32 tid)) in G. tauto. }
    change (tid mod 2 ^ 32) with (lo32 tid). change (tid' mod 2 ^ 32) with (lo32 tid'). tauto.
Qed.

Lemma c109 : forall prof prof' pid tid pid' tid' ps qs v v' prog prog',
  filter_for prof pid tid ps v prog -> filter_for prof' pid' tid' qs v' prog' ->
  enforcing v -> enforcing v' -> pid < 2 ^ 32 ->
  ((forall d, native d -> proceeds prog d -> proceeds prog' d) <->
   (forall p, In p ps ->
      p = Default \/ In p qs \/
      exists alt,
        In (p, alt)
          [ (VmInfo, [StdIO]); (RecvFd, [SendFd]); (SendFd, [RecvFd]);
            (TmpPath, [RPath; CPath]); (TmpPath, [WPath; CPath]);
            (Dns, [StdIO; RPath; Inet]); (Dns, [StdIO; WPath; CPath; Inet]) ] /\
        forall q, In q alt -> In q qs) /\
   (In StdIO ps -> In Proc qs \/ pid = pid' /\ tid mod 2 ^ 32 = tid' mod 2 ^ 32)).
Proof.
  intros prof prof' pid tid pid' tid' ps qs v v' prog prog' H H' Hv Hv' Lp.
  fold stand_ins. split.
  - intros G. apply (allowed_necessary ps qs pid tid pid' tid' Lp).
    intros d Hd P. apply (proceeds_iff _ _ _ _ _ _ _ H' Hv' Hd). apply (G d Hd).
    apply (proceeds_iff _ _ _ _ _ _ _ H Hv Hd). exact P.
  - intros [C S] d Hd P. apply (proceeds_iff _ _ _ _ _ _ _ H' Hv' Hd).
    apply (proceeds_iff _ _ _ _ _ _ _ H Hv Hd) in P.
    exact (allowed_transfer _ _ _ _ _ _ C S _ P).
Qed.

(** * C108 *)

Definition code_of (pid tid : N) (p : Promise) : list sock_filter :=
  List.concat (map (frag pid tid) (pfilters p)).
Definition alike (p q : Promise) : Prop :=
  p = q \/ In p [RecvFd; SendFd] /\ In q [RecvFd; SendFd].


Lemma code_all : forall pid tid ps,
  List.concat (map (frag pid tid) (List.concat (map pfilters ps))) = List.concat (map (code_of pid tid) ps).
Proof.
  intros pid tid ps. induction ps as [|p ps IH]; [reflexivity|].
  cbn [map List.concat]. rewrite map_app, concat_app, IH. reflexivity.
Qed.
Lemma frag_length : forall f pid tid, length (frag pid tid f) = length (frag 0 0 f).
Proof. intros f pid tid. destruct f; reflexivity. Qed.
Lemma concat_length_ext : forall {A B : Type} (F G : A -> list B) l,
  (forall x, length (F x) = length (G x)) ->
  length (List.concat (map F l)) = length (List.concat (map G l)).
Proof.
  intros A B F G l H. induction l as [|x l IH]; [reflexivity|].
  cbn [map List.concat]. rewrite !app_length, IH, H. reflexivity.
Qed.
Lemma app_same_length : forall {A : Type} (a b c d : list A),
  length a = length b -> a ++ c = b ++ d -> a = b /\ c = d.
Proof.
  intros A. induction a as [|x a IH]; intros [|y b] c d L E; try discriminate L.
  - split; [reflexivity|exact E].
  - cbn [app] in E. injection E as <- E. injection L as L. destruct (IH _ _ _ L E) as [<- <-].
    split; reflexivity.
Qed.
Lemma concat_map_inj : forall {A B : Type} (F G : A -> list B) l,
  (forall x, length (F x) = length (G x)) ->
  List.concat (map F l) = List.concat (map G l) -> forall x, In x l -> F x = G x.
Proof.
  intros A B F G l H. induction l as [|y l IH]; intros E x Hx; [destruct Hx|].
  cbn [map List.concat] in E. destruct (app_same_length _ _ _ _ (H y) E) as [E1 E2].
  destruct Hx as [<-|Hx]; [exact E1|exact (IH E2 x Hx)].
Qed.
Lemma code_length : forall pid tid p, length (code_of pid tid p) = length (code_of 0 0 p).
Proof. intros. apply concat_length_ext. intros f. apply frag_length. Qed.

(** How the code of a promise begins: enough of it to tell promises apart. *)
Definition start_of (p : Promise) : list sock_filter :=
  match p with
  | Inet | Dns => code_of 0 0 p
  | _ => firstn 1 (code_of 0 0 p)
  end.
Lemma code_starts : forall pid tid p, exists rest, code_of pid tid p = start_of p ++ rest.
Proof. intros pid tid p. destruct p; eexists; reflexivity. Qed.
Definition clash (a b : list sock_filter) : bool :=
  existsb (fun i => match nth_error a i, nth_error b i with
                    | Some x, Some y => if sock_filter_eq_dec x y then false else true
                    | _, _ => false
                    end) (seq 0 (length a)).
Lemma clash_sound : forall a b x y, clash a b = true -> a ++ x <> b ++ y.
Proof.
  intros a b x y H E. unfold clash in H. apply existsb_exists in H. destruct H as (i & _ & H).
  destruct (nth_error a i) as [u|] eqn:Ea; [|discriminate].
  destruct (nth_error b i) as [w|] eqn:Eb; [|discriminate].
  destruct (sock_filter_eq_dec u w) as [|N]; [discriminate|]. apply N.
  assert (La : (i < length a)%nat) by (apply nth_error_Some; congruence).
  assert (Lb : (i < length b)%nat) by (apply nth_error_Some; congruence).
  assert (F : nth_error (a ++ x) i = nth_error (b ++ y) i) by (rewrite E; reflexivity).
  rewrite !nth_error_app1 in F by assumption. congruence.
Qed.
Definition alikeb (p q : Promise) : bool :=
  promise_eqb p q || (existsb (promise_eqb p) [RecvFd; SendFd] && existsb (promise_eqb q) [RecvFd; SendFd]).
Lemma alikeb_iff : forall p q, alikeb p q = true <-> alike p q.
Proof.
  intros p q. unfold alikeb, alike.
  rewrite orb_true_iff, andb_true_iff, !NeedFacts.mem_promise, promise_eqb_eq. reflexivity.
Qed.
Lemma starts_clash : forallb (fun p => forallb (fun q => alikeb p q || clash (start_of p) (start_of q))
  NeedFacts.all_promises) NeedFacts.all_promises = true.
Proof. vm_compute. reflexivity. Qed.
Lemma every_promise : forall p, In p NeedFacts.all_promises.
Proof. intros p. apply NeedFacts.mem_promise. destruct p; reflexivity. Qed.
Lemma ends_clash : forallb (fun p => match start_of p with SockFilter 21 _ _ _ :: _ => true | _ => false end)
  NeedFacts.all_promises = true.
Proof. vm_compute. reflexivity. Qed.
Lemma alike_code : forall pid tid p q, alike p q -> code_of pid tid p = code_of pid tid q.
Proof.
  intros pid tid p q [<-|[A B]]; [reflexivity|]. cbn [In] in A, B.
  destruct A as [<-|[<-|[]]], B as [<-|[<-|[]]]; reflexivity.
Qed.

Lemma decode : forall pid tid pid' tid' ps qs k k',
  List.concat (map (code_of pid tid) ps) ++ [SockFilter 6 0 0 k] =
  List.concat (map (code_of pid' tid') qs) ++ [SockFilter 6 0 0 k'] ->
  Forall2 (fun p q => alike p q /\ code_of pid tid p = code_of pid' tid' q) ps qs /\ k = k'.
Proof.
  intros pid tid pid' tid'.
  assert (End : forall p x a b k, start_of p ++ x <> SockFilter 6 a b k :: []).
  { intros p x a b k E. pose proof ends_clash as T. rewrite forallb_forall in T.
    specialize (T _ (every_promise p)). destruct (start_of p) as [|[c t f n] r]; [discriminate T|].
    injection E as -> _. discriminate T. }
  induction ps as [|p ps IH]; intros [|q qs] k k' E; cbn [map List.concat] in E.
  - cbn [app] in E. injection E as <-. split; [constructor|reflexivity].
  - exfalso. destruct (code_starts pid' tid' q) as [r Er]. rewrite Er, <- !app_assoc in E.
    symmetry in E. exact (End _ _ _ _ _ E).
  - exfalso. destruct (code_starts pid tid p) as [r Er]. rewrite Er, <- !app_assoc in E.
    exact (End _ _ _ _ _ E).
  - rewrite <- !app_assoc in E.
    assert (K : alike p q).
    { apply alikeb_iff. pose proof starts_clash as T. rewrite forallb_forall in T.
      specialize (T _ (every_promise p)). rewrite forallb_forall in T. specialize (T _ (every_promise q)).
      apply orb_true_iff in T. destruct T as [T|T]; [exact T|]. exfalso.
      destruct (code_starts pid tid p) as [r Er], (code_starts pid' tid' q) as [r' Er'].
      rewrite Er, Er', <- !app_assoc in E. exact (clash_sound _ _ _ _ T E). }
    assert (L : length (code_of pid tid p) = length (code_of pid' tid' q)).
    { rewrite code_length, (code_length pid' tid' q), (alike_code 0 0 p q K). reflexivity. }
    destruct (app_same_length _ _ _ _ L E) as [E1 E2]. destruct (IH _ _ _ E2) as [F ->].
    split; [|reflexivity]. constructor; [split; assumption|exact F].
Qed.

Lemma code_ids : forall pid tid pid' tid' p, p <> StdIO -> code_of pid tid p = code_of pid' tid' p.
Proof.
  intros pid tid pid' tid' p H. destruct p; try reflexivity. now elim H.
Qed.
Lemma stdio_ids : forall pid tid pid' tid',
  code_of pid tid StdIO = code_of pid' tid' StdIO <-> pid = pid' /\ tid mod 2 ^ 32 = tid' mod 2 ^ 32.
Proof.
  intros pid tid pid' tid'. split.
  - intros E. unfold code_of in E.
    assert (L : forall f, length (frag pid tid f) = length (frag pid' tid' f)).
    { intros f. rewrite frag_length, (frag_length f pid' tid'). reflexivity. }
    pose proof (concat_map_inj _ _ _ L E) as K.
    assert (A : In KillSelf (pfilters StdIO)) by (vm_compute; repeat ((left; reflexivity) || right)).
    assert (B : In TkillSelf (pfilters StdIO)) by (vm_compute; repeat ((left; reflexivity) || right)).
    pose proof (K _ A) as KA. pose proof (K _ B) as KB. rewrite !frag_kill in KA. rewrite !frag_tkill in KB.
    injection KA as KA. injection KB as KB. split; [exact KA|exact KB].
  - intros [<- E]. unfold code_of. f_equal. apply map_ext. intros f.
    destruct (is_tkill f) eqn:T.
    + destruct f; try discriminate T. rewrite !frag_tkill.
      change (as_u32 tid = as_u32 tid') in E. rewrite E. reflexivity.
    + destruct (is_kill f) eqn:Kf; [destruct f; try discriminate Kf; reflexivity|].
      apply frag_other; assumption.
Qed.

Lemma ret_into_inj : forall v v', small_payload v -> small_payload v' -> ret_into v = ret_into v' -> v = v'.
Proof.
  intros v v' S S' E. pose proof (c13_forward v S) as A. pose proof (c13_forward v' S') as B.
  rewrite E in A. congruence.
Qed.

Lemma c108 : forall prof prof' pid tid pid' tid' ps qs v v' prog prog',
  filter_for prof pid tid ps v prog -> filter_for prof' pid' tid' qs v' prog' ->
  small_payload v -> small_payload v' ->
  (prog = prog' <->
   Forall2 (fun p q => p = q \/ In p [RecvFd; SendFd] /\ In q [RecvFd; SendFd]) ps qs /\ v = v' /\
   (In StdIO ps -> pid = pid' /\ tid mod 2 ^ 32 = tid' mod 2 ^ 32)).
Proof.
  intros prof prof' pid tid pid' tid' ps qs v v' prog prog' H H' Sv Sv'.
  rewrite (filter_for_pcode _ _ _ _ _ _ H), (filter_for_pcode _ _ _ _ _ _ H'). clear H H' prog prog'.
  unfold pcode, fcode, all_filters. rewrite !code_all.
  change (fun p q => p = q \/ In p [RecvFd; SendFd] /\ In q [RecvFd; SendFd]) with alike.
  split.
  - intros E. apply app_inv_head in E. apply decode in E. destruct E as [F E].
    inversion_clear F as [|? ? ? ? _ F']. split; [|split].
    + clear - F'. induction F' as [|p q ps qs [A _] _ IH]; constructor; assumption.
    + apply ret_into_inj; assumption.
    + intros Hs. clear - F' Hs. apply stdio_ids.
      induction F' as [|p q ps qs [A B] _ IH]; [destruct Hs|].
      destruct Hs as [->|Hs]; [|exact (IH Hs)].
      destruct A as [<-|[A _]]; [exact B|]. clear - A. cbn in A. intuition discriminate.
  - intros (F & <- & Hs). f_equal. f_equal. cbn [map List.concat].
    rewrite (code_ids pid tid pid' tid' Default) by discriminate. f_equal.
    induction F as [|p q ps qs A F IH]; [reflexivity|]. cbn [map List.concat]. f_equal.
    + rewrite <- (alike_code pid' tid' p q A). destruct (promise_eq_dec p StdIO) as [->|N].
      * apply stdio_ids. apply Hs. left. reflexivity.
      * apply code_ids. exact N.
    + apply IH. intros I. apply Hs. right. exact I.
Qed.
