(** Rules one by one: what taking a rule out of a promise's list changes. *)
From Coq Require Import NArith ZArith String List Bool Lia.
From Verif Require Import Libc Machine Bpf SeccompRet Asm Vm Promises Filters Kernel World Spec
  FragProofs PolicyProofs PolicyFacts DocFacts.
Import ListNotations.
Local Open Scope N_scope.

(** * Lists of rules *)

Lemma rules_proceed : forall prof pid tid fs v prog d,
  filters_to_prog prof (mkEnv (Ok pid) (Ok tid)) fs v = Ok prog -> enforcing v -> native d ->
  (proceeds prog d <-> existsb (ruleb pid tid d) fs = true).
Proof.
  intros prof pid tid fs v prog d H Hv [Hd Ha]. fold (ids pid tid) in H.
  rewrite filters_to_prog_ok in H. injection H as <-.
  unfold proceeds. rewrite single_entry, fcode_run, Ha.
  change (lo32 X86_64 =? X86_64) with true. cbn iota.
  destruct (existsb (ruleb pid tid d) fs).
  - split; [reflexivity|]. intros _. reflexivity.
  - rewrite entry_of_ret by apply Hv. split; [|discriminate].
    intros F. exfalso. exact (fate_enforcing v Hv F).
Qed.

Fixpoint splits (pre fs : list Filtered) : list (list Filtered * Filtered * list Filtered) :=
  match fs with
  | [] => []
  | f :: r => (pre, f, r) :: splits (pre ++ [f]) r
  end.
Lemma splits_all : forall l pre f r, In (pre ++ l, f, r) (splits pre (l ++ f :: r)).
Proof.
  induction l as [|a l IH]; intros pre f r; cbn [app splits].
  - rewrite app_nil_r. left. reflexivity.
  - right. replace (pre ++ a :: l) with ((pre ++ [a]) ++ l) by (rewrite <- app_assoc; reflexivity).
    apply IH.
Qed.

Definition nrf (f : Filtered) : N := as_u32 (fst (rule_of f)).
Definition optrule (f : Filtered) : bool :=
  match f with GetsockoptRestrict | SetsockoptRestrict => true | _ => false end.
(** No other rule of the list is for the system call of [s]'s rule, unless for getsockopt. *)
Definition lonely (s : list Filtered * Filtered * list Filtered) : bool :=
  let '(l, f, r) := s in
  forallb (fun g => negb (nrf g =? nrf f) ||
                    match f, g with
                    | SetsockoptRestrict, GetsockoptRestrict => true
                    | GetsockoptRestrict, _ => true
                    | _, _ => false
                    end) (filters_Default ++ l ++ r).
Definition companion (s : list Filtered * Filtered * list Filtered) : bool :=
  let '(l, f, r) := s in
  match f with
  | GetsockoptRestrict => existsb (fun g => match g with SetsockoptRestrict => true | _ => false end) (l ++ r)
  | _ => true
  end.
Lemma table_lonely :
  forallb (fun e => promise_eqb (fst e) Default ||
                    forallb (fun s => lonely s && companion s) (splits [] (snd e))) PROMISES = true.
Proof. vm_compute. reflexivity. Qed.

Lemma lookup_in : forall m p fs, promises_lookup m p = Some fs ->
  exists q, promise_eqb p q = true /\ In (q, fs) m.
Proof.
  induction m as [|[q gs] m IH]; intros p fs H; cbn [promises_lookup] in H; [discriminate|].
  destruct (promise_eqb p q) eqn:E.
  - injection H as <-. exists q. split; [exact E|left; reflexivity].
  - destruct (IH _ _ H) as (q' & E' & I). exists q'. split; [exact E'|right; exact I].
Qed.

Lemma entry_lonely : forall p l f r, p <> Default -> promises_get p = Some (l ++ f :: r) ->
  lonely (l, f, r) = true /\ companion (l, f, r) = true.
Proof.
  intros p l f r Np H. destruct (lookup_in _ _ _ H) as (q & E & I).
  pose proof table_lonely as T. rewrite forallb_forall in T. specialize (T _ I). cbn [fst snd] in T.
  apply promise_eqb_eq in E. subst q.
  apply orb_true_iff in T. destruct T as [T|T]; [apply promise_eqb_eq in T; contradiction|].
  rewrite forallb_forall in T. specialize (T _ (splits_all l [] f r)). apply andb_true_iff in T.
  exact T.
Qed.

(** A call for each rule. *)
Definition witness (pid tid : N) (f : Filtered) : seccomp_data :=
  let c a0 a1 a2 a3 := mkSD (nrf f) X86_64 0 a0 a1 a2 a3 0 0 in
  match f with
  | IoctlRestrict => c 0 0x541b 0 0
  | IoctlTty => c 0 0x5401 0 0
  | IoctlInet => c 0 0x8905 0 0
  | FcntlLock => c 0 5 0 0
  | KillSelf => c pid 0 0 0
  | TkillSelf => c (lo32 tid) 0 0 0
  | PrctlStdio => c 15 0 0 0
  | CloneThread => c 0x10f00 0 0 0
  | OpenWriteonly | OpenatWriteonly => c 0 0 1 0
  | SocketInet => c 2 1 0 0
  | SocketUnix => c 1 1 0 0
  | GetsockoptRestrict => c 0 1 2 0
  | SetsockoptRestrict => c 0 0 1 0
  | _ => c 0 0 0 0
  end.

Lemma nrf_small : forall f, nrf f < 2 ^ 32.
Proof. intros f. unfold nrf, as_u32. apply N.mod_lt. discriminate. Qed.
Lemma witness_native : forall pid tid f, pid < 2 ^ 32 -> native (witness pid tid f).
Proof.
  intros pid tid f Hp. pose proof (nrf_small f) as Hn.
  assert (Ht : lo32 tid < 2 ^ 32) by (unfold lo32; apply N.mod_lt; discriminate).
  split; [|destruct f; reflexivity].
  assert (2 ^ 32 < 2 ^ 64) by reflexivity.
  destruct f; unfold witness; repeat split; cbn [sd_nr sd_arch sd_ip sd_a0 sd_a1 sd_a2 sd_a3 sd_a4 sd_a5];
    first [exact Hn | reflexivity | lia].
Qed.
Lemma witness_nr : forall pid tid f, sd_nr (witness pid tid f) = nrf f.
Proof. intros. destruct f; reflexivity. Qed.
Lemma witness_rule : forall pid tid f, pid < 2 ^ 32 -> ruleb pid tid (witness pid tid f) f = true.
Proof.
  intros pid tid f Hp. unfold ruleb. rewrite witness_nr. fold (nrf f).
  rewrite lo32_small by apply nrf_small. rewrite N.eqb_refl. cbn [andb].
  destruct f; try reflexivity.
  - cbn [rule_of snd argsb witness sd_a0]. rewrite lo32_small by exact Hp. apply N.eqb_refl.
  - cbn [rule_of snd argsb witness sd_a0]. rewrite lo32_small by (unfold lo32; apply N.mod_lt; discriminate).
    apply N.eqb_refl.
Qed.

Lemma get_below_set : forall pid tid d,
  ruleb pid tid d GetsockoptRestrict = true -> ruleb pid tid d SetsockoptRestrict = true.
Proof.
  intros pid tid d. unfold ruleb. cbn [rule_of fst snd argsb]. rewrite !andb_true_iff.
  intros (A & B & C). repeat split; [exact A| |].
  - unfold memb in *. apply existsb_exists in B. destruct B as (x & I & E). apply existsb_exists.
    exists x. split; [|exact E]. clear - I. cbv [getsockopt_levels setsockopt_levels In] in *. tauto.
  - unfold memb in *. apply existsb_exists in C. destruct C as (x & I & E). apply existsb_exists.
    exists x. split; [|exact E]. clear - I. revert I.
    assert (F : forallb (fun x => existsb (N.eqb x) setsockopt_options) getsockopt_options = true)
      by reflexivity.
    rewrite forallb_forall in F. intros I. specialize (F x I). apply existsb_exists in F.
    destruct F as (y & Iy & Ey). apply N.eqb_eq in Ey. subst y. exact Iy.
Qed.

Lemma default_rules : promises_get Default = Some filters_Default.
Proof. reflexivity. Qed.

Lemma one_promise : forall p fs, promises_get p = Some fs -> promises_to_filters [p] = Ok (filters_Default ++ fs).
Proof.
  intros p fs H. unfold promises_to_filters. cbn [app mapM]. unfold promise_filters.
  rewrite default_rules, H. cbn [bind List.concat]. rewrite app_nil_r. reflexivity.
Qed.

Lemma drop_rule : forall prof pid tid p ds l f r v full less d,
  p <> Default -> promises_get Default = Some ds -> promises_get p = Some (l ++ f :: r) ->
  filter_for prof pid tid [p] v full ->
  filters_to_prog prof (mkEnv (Ok pid) (Ok tid)) (ds ++ l ++ r) v = Ok less ->
  enforcing v -> native d ->
  (proceeds full d <-> existsb (ruleb pid tid d) (filters_Default ++ l ++ r) = true \/ ruleb pid tid d f = true) /\
  (proceeds less d <-> existsb (ruleb pid tid d) (filters_Default ++ l ++ r) = true).
Proof.
  intros prof pid tid p ds l f r v full less d Np Hds Hp Hf Hl Hv Hd.
  rewrite default_rules in Hds. injection Hds as <-.
  split; [|exact (rules_proceed _ _ _ _ _ _ _ Hl Hv Hd)].
  unfold filter_for, promises_to_prog in Hf. rewrite (one_promise _ _ Hp) in Hf. cbn [bind] in Hf.
  rewrite (rules_proceed _ _ _ _ _ _ _ Hf Hv Hd). rewrite !existsb_app. cbn [existsb].
  rewrite !orb_true_iff. tauto.
Qed.

Lemma c106_refuted : forall prof pid tid p ds l r v full less d,
  p <> Default -> promises_get Default = Some ds -> promises_get p = Some (l ++ GetsockoptRestrict :: r) ->
  filter_for prof pid tid [p] v full ->
  filters_to_prog prof (mkEnv (Ok pid) (Ok tid)) (ds ++ l ++ r) v = Ok less ->
  enforcing v -> native d ->
  (proceeds full d <-> proceeds less d).
Proof.
  intros prof pid tid p ds l r v full less d Np Hds Hp Hf Hl Hv Hd.
  destruct (drop_rule _ _ _ _ _ _ _ _ _ _ _ _ Np Hds Hp Hf Hl Hv Hd) as [-> ->].
  split; [|auto]. intros [H|H]; [exact H|].
  destruct (entry_lonely _ _ _ _ Np Hp) as [_ C]. cbn [companion] in C.
  rewrite existsb_app, orb_true_iff. right.
  apply existsb_exists in C. destruct C as (g & I & G). destruct g; try discriminate G.
  apply existsb_exists. exists SetsockoptRestrict. split; [exact I|]. exact (get_below_set _ _ _ H).
Qed.

Lemma c106_partial : forall prof pid tid p ds l f r v full less,
  pid < 2 ^ 32 -> p <> Default -> promises_get Default = Some ds -> promises_get p = Some (l ++ f :: r) ->
  filter_for prof pid tid [p] v full ->
  filters_to_prog prof (mkEnv (Ok pid) (Ok tid)) (ds ++ l ++ r) v = Ok less ->
  enforcing v ->
  (forall d, native d -> proceeds less d -> proceeds full d) /\
  ((exists d, native d /\ proceeds full d /\ ~ proceeds less d) <-> f <> GetsockoptRestrict).
Proof.
  intros prof pid tid p ds l f r v full less Hpid Np Hds Hp Hf Hl Hv. split.
  - intros d Hd. destruct (drop_rule _ _ _ _ _ _ _ _ _ _ _ _ Np Hds Hp Hf Hl Hv Hd) as [-> ->]. auto.
  - split.
    + intros (d & Hd & A & B) ->. apply B.
      exact (proj1 (c106_refuted _ _ _ _ _ _ _ _ _ _ d Np Hds Hp Hf Hl Hv Hd) A).
    + intros Nf. exists (witness pid tid f). pose proof (witness_native pid tid f Hpid) as Hd.
      split; [exact Hd|].
      destruct (drop_rule _ _ _ _ _ _ _ _ _ _ _ _ Np Hds Hp Hf Hl Hv Hd) as [-> ->]. split.
      * right. apply witness_rule. exact Hpid.
      * intros H. apply existsb_exists in H. destruct H as (g & I & G).
        destruct (entry_lonely _ _ _ _ Np Hp) as [L _]. cbn [lonely] in L.
        rewrite forallb_forall in L. specialize (L g I). apply orb_true_iff in L.
        destruct L as [L|L].
        -- unfold ruleb in G. apply andb_true_iff in G. destruct G as [G _].
           rewrite witness_nr, lo32_small in G by apply nrf_small. fold (nrf g) in G.
           rewrite N.eqb_sym, G in L. discriminate.
        -- destruct f, g; try discriminate L; try (exfalso; apply Nf; reflexivity). discriminate G.
Qed.
