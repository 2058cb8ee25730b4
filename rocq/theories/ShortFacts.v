(** The shortest list of promises, and so the shortest filter, that allows the same calls (C128). *)
From Coq Require Import NArith List Bool Lia Permutation.
From Verif Require Import Libc Machine Bpf SeccompRet Vm Promises Filters Kernel World Spec
  FragProofs PolicyProofs StackProofs SameFacts ShortSpec.
Import ListNotations.
Local Open Scope N_scope.

Lemma has_in : forall ps p, lists ps p = true <-> In p ps.
Proof.
  intros ps p. unfold lists. rewrite existsb_exists. split.
  - intros (q & I & E). apply promise_eqb_eq in E. subst q. exact I.
  - intros I. exists p. split; [exact I|apply promise_eqb_eq; reflexivity].
Qed.
Lemma has_not : forall ps p, lists ps p = false <-> ~ In p ps.
Proof. intros ps p. rewrite <- has_in. destruct (lists ps p); split; congruence. Qed.
Lemma in_shortest : forall ps p, In p (shortest ps) <-> needed ps p = true.
Proof.
  intros ps p. unfold shortest. rewrite filter_In. split; [tauto|]. intros H. split; [|exact H].
  destruct p; cbn; try tauto; discriminate H.
Qed.
Lemma shortest_nodup : forall ps, NoDup (shortest ps).
Proof.
  intros ps. apply NoDup_filter.
  repeat (constructor; [cbn; intuition discriminate|]). constructor.
Qed.

(** [qs] has, or has others for, every promise of [ps]. *)
Definition covers (ps qs : list Promise) : Prop :=
  forall p, In p ps -> p = Default \/ In p qs \/ exists alt, In (p, alt) stand_ins /\ forall q, In q alt -> In q qs.

Ltac inout := rewrite ?in_shortest, <- ?has_in in *.

Lemma shortest_covered : forall ps, covers (shortest ps) ps.
Proof.
  intros ps p H. apply in_shortest in H. destruct p; cbn [needed] in H; try discriminate H;
    rewrite ?andb_true_iff, ?orb_true_iff, !has_in in H; try tauto.
  destruct H as [H|H]; [tauto|]. right. right. exists [SendFd]. split; [cbn; tauto|].
  intros q [<-|[]]. exact H.
Qed.
Lemma shortest_covers : forall ps, covers ps (shortest ps).
Proof.
  intros ps p H. rewrite in_shortest.
  assert (S : forall alt, In (p, alt) stand_ins -> forallb (needed ps) alt = true ->
            exists alt, In (p, alt) stand_ins /\ forall q, In q alt -> In q (shortest ps)).
  { intros alt I A. exists alt. split; [exact I|]. intros q Q. apply in_shortest.
    rewrite forallb_forall in A. exact (A q Q). }
  apply has_in in H. destruct p; cbn [needed]; rewrite ?H; try tauto; cbn [andb orb].
  - destruct (lists ps StdIO) eqn:E1; [|tauto]. destruct (lists ps Inet) eqn:E2; [|tauto].
    destruct (lists ps RPath) eqn:E3.
    + right. right. apply (S [StdIO; RPath; Inet]); [cbn; tauto|]. cbn. rewrite E1, E2, E3. reflexivity.
    + destruct (lists ps WPath) eqn:E4; [|tauto]. destruct (lists ps CPath) eqn:E5; [|tauto].
      right. right. apply (S [StdIO; WPath; CPath; Inet]); [cbn; tauto|]. cbn. rewrite E1, E2, E4, E5. reflexivity.
  - right. right. apply (S [RecvFd]); [cbn; tauto|]. cbn. rewrite H. rewrite orb_true_r. reflexivity.
  - destruct (lists ps StdIO) eqn:E1; [|tauto]. right. right. apply (S [StdIO]); [cbn; tauto|]. cbn. rewrite E1. reflexivity.
  - destruct (lists ps CPath) eqn:E1; [|tauto]. destruct (lists ps RPath) eqn:E2.
    + right. right. apply (S [RPath; CPath]); [cbn; tauto|]. cbn. rewrite E1, E2. reflexivity.
    + destruct (lists ps WPath) eqn:E3; [|tauto].
      right. right. apply (S [WPath; CPath]); [cbn; tauto|]. cbn. rewrite E1, E3. reflexivity.
Qed.

(** Promises nothing stands in for. *)
Lemma covers_same : forall ps qs p, covers ps qs -> ~ In p [Default; VmInfo; RecvFd; SendFd; TmpPath; Dns] ->
  In p ps -> In p qs.
Proof.
  intros ps qs p C N I. destruct (C p I) as [->|[H|(alt & H & _)]]; [exfalso; apply N; cbn; tauto|exact H|].
  exfalso. apply N. unfold stand_ins in H. cbn in H. cbn.
  intuition congruence.
Qed.

Lemma shortest_kept : forall ps qs, covers ps qs -> covers qs ps ->
  forall p, In p (shortest ps) -> In p (map recv_for_send qs).
Proof.
  intros ps qs C D p H. apply in_shortest in H.
  assert (K : forall q, q <> SendFd -> In q qs -> In q (map recv_for_send qs)).
  { intros q N I. apply in_map_iff. exists q. split; [destruct q; try reflexivity; congruence|exact I]. }
  assert (B : forall q, ~ In q [Default; VmInfo; RecvFd; SendFd; TmpPath; Dns] -> In q qs -> lists ps q = true).
  { intros q N I. apply has_in. exact (covers_same _ _ _ D N I). }
  assert (BS : In StdIO qs -> lists ps StdIO = true) by (apply B; cbn; intuition discriminate).
  assert (BI : In Inet qs -> lists ps Inet = true) by (apply B; cbn; intuition discriminate).
  assert (BC : In CPath qs -> lists ps CPath = true) by (apply B; cbn; intuition discriminate).
  assert (BR : In RPath qs -> lists ps RPath = true) by (apply B; cbn; intuition discriminate).
  assert (BW : In WPath qs -> lists ps WPath = true) by (apply B; cbn; intuition discriminate).
  destruct p; cbn [needed] in H; try discriminate H;
    try (apply K; [discriminate|]; apply (covers_same ps); [exact C|cbn; intuition discriminate|apply has_in; exact H]).
  - (* Dns *)
    apply andb_true_iff in H. destruct H as [H N]. apply has_in in H. apply negb_true_iff in N.
    destruct (C _ H) as [E|[I|(alt & I & A)]]; [discriminate E|apply K; [discriminate|exact I]|exfalso].
    cbn in I. repeat (destruct I as [I|I]; [first [discriminate I|injection I as <-]|]); [| |destruct I].
    + rewrite BS, BI, BR in N by (apply A; cbn; tauto). discriminate N.
    + rewrite BS, BI, BW, BC in N by (apply A; cbn; tauto). rewrite orb_true_r in N. discriminate N.
  - (* RecvFd *)
    assert (I : In RecvFd qs \/ In SendFd qs).
    { apply orb_true_iff in H. rewrite !has_in in H. destruct H as [H|H].
      - destruct (C _ H) as [E|[I|(alt & I & A)]]; [discriminate E|tauto|].
        cbn in I. repeat (destruct I as [I|I]; [first [discriminate I|injection I as <-]|]); [|destruct I].
        right. apply A. cbn. tauto.
      - destruct (C _ H) as [E|[I|(alt & I & A)]]; [discriminate E|tauto|].
        cbn in I. repeat (destruct I as [I|I]; [first [discriminate I|injection I as <-]|]); [|destruct I].
        left. apply A. cbn. tauto. }
    apply in_map_iff. destruct I as [I|I]; [exists RecvFd|exists SendFd]; split; try reflexivity; exact I.
  - (* VmInfo *)
    apply andb_true_iff in H. destruct H as [H N]. apply has_in in H. apply negb_true_iff in N.
    destruct (C _ H) as [E|[I|(alt & I & A)]]; [discriminate E|apply K; [discriminate|exact I]|exfalso].
    cbn in I. repeat (destruct I as [I|I]; [first [discriminate I|injection I as <-]|]); [|destruct I].
    rewrite BS in N by (apply A; cbn; tauto). discriminate N.
  - (* TmpPath *)
    apply andb_true_iff in H. destruct H as [H N]. apply has_in in H. apply negb_true_iff in N.
    destruct (C _ H) as [E|[I|(alt & I & A)]]; [discriminate E|apply K; [discriminate|exact I]|exfalso].
    cbn in I. repeat (destruct I as [I|I]; [first [discriminate I|injection I as <-]|]); [| |destruct I].
    + rewrite BC, BR in N by (apply A; cbn; tauto). discriminate N.
    + rewrite BC, BW in N by (apply A; cbn; tauto). rewrite orb_true_r in N. discriminate N.
Qed.

(** * Sizes *)

Lemma size_app : forall a b, promises_size (a ++ b) = promises_size a + promises_size b.
Proof. intros a b. induction a as [|p a IH]; [reflexivity|]. cbn [app promises_size]. rewrite IH. lia. Qed.
Lemma size_perm : forall a b, Permutation a b -> promises_size a = promises_size b.
Proof. intros a b P. induction P; cbn [promises_size]; lia. Qed.
Lemma size_recv : forall ps, promises_size (map recv_for_send ps) = promises_size ps.
Proof. intros ps. induction ps as [|p ps IH]; [reflexivity|]. cbn [map promises_size]. rewrite IH. destruct p; reflexivity. Qed.
Lemma size_pos : forall p, 0 < promise_size p.
Proof. intros p. destruct p; reflexivity. Qed.

Lemma nodup_rest : forall (a b : list Promise), NoDup a -> (forall p, In p a -> In p b) ->
  exists rest, Permutation b (a ++ rest).
Proof.
  intros a. induction a as [|x a IH]; intros b N S; [exists b; apply Permutation_refl|].
  inversion N as [|? ? Nx Na]; subst.
  destruct (in_split x b) as (l & r & ->); [apply S; left; reflexivity|].
  destruct (IH (l ++ r) Na) as (rest & P).
  { intros p I. assert (J : In p (l ++ x :: r)) by (apply S; right; exact I).
    rewrite in_app_iff in *. destruct J as [J|[->|J]]; [left; exact J|contradiction|right; exact J]. }
  exists rest. eapply Permutation_trans; [apply Permutation_sym, Permutation_middle|].
  apply perm_skip. exact P.
Qed.

(** * C128 *)

Lemma run_from_swap : forall a b d, kernel_eval a d = kernel_eval b d -> forall above below ret,
  run_filters_from ret (above ++ a :: below) d = run_filters_from ret (above ++ b :: below) d.
Proof.
  intros a b d E above. induction above as [|f above IH]; intros below ret; cbn [app run_filters_from].
  - rewrite E. reflexivity.
  - apply IH.
Qed.

Lemma c128 : forall prof prof' pid tid ps v prog small,
  filter_for prof pid tid ps v prog -> filter_for prof' pid tid (shortest ps) v small ->
  forall d, wf_data d ->
  (forall mem, kernel_eval_mem mem small d = kernel_eval_mem mem prog d) /\
  forall newer older, syscall_entry (newer ++ small :: older) d = syscall_entry (newer ++ prog :: older) d.
Proof.
  intros prof prof' pid tid ps v prog small H S d Hd.
  assert (M : forall mem, kernel_eval_mem mem small d = kernel_eval_mem mem prog d).
  { intros mem. rewrite (filter_for_pcode _ _ _ _ _ _ H), (filter_for_pcode _ _ _ _ _ _ S), !pcode_run.
    destruct (lo32 (sd_arch d) =? X86_64); [|reflexivity].
    replace (existsb (ruleb pid tid d) (all_filters (shortest ps))) with (existsb (ruleb pid tid d) (all_filters ps));
      [reflexivity|].
    apply Bool.eq_iff_eq_true. rewrite (fgrant ps pid tid d Hd), (fgrant (shortest ps) pid tid d Hd).
    split; apply allowed_transfer; try apply shortest_covers; try apply shortest_covered; tauto. }
  split; [exact M|]. intros newer older. unfold syscall_entry.
  destruct newer as [|f newer]; cbn [app]; f_equal; unfold run_filters.
  - exact (run_from_swap small prog d (M _) [] older _).
  - exact (run_from_swap small prog d (M _) (f :: newer) older _).
Qed.

Lemma c128_least : forall prof prof' pid tid pid' tid' ps qs v v' prog small other,
  filter_for prof pid tid ps v prog -> filter_for prof pid tid (shortest ps) v small ->
  filter_for prof' pid' tid' qs v' other ->
  enforcing v -> enforcing v' -> pid < 2 ^ 32 -> pid' < 2 ^ 32 ->
  (forall d, native d -> (proceeds other d <-> proceeds prog d)) ->
  (length small <= length other)%nat /\
  (length small = length other <-> Permutation (map recv_for_send qs) (shortest ps)).
Proof.
  intros prof prof' pid tid pid' tid' ps qs v v' prog small other H S H' Hv Hv' Lp Lp' E.
  destruct (proj1 (c109 _ _ _ _ _ _ _ _ _ _ _ _ H H' Hv Hv' Lp) (fun d Hd => proj2 (E d Hd))) as [C _].
  destruct (proj1 (c109 _ _ _ _ _ _ _ _ _ _ _ _ H' H Hv' Hv Lp') (fun d Hd => proj1 (E d Hd))) as [D _].
  fold stand_ins in C, D.
  destruct (nodup_rest (shortest ps) (map recv_for_send qs) (shortest_nodup ps) (shortest_kept ps qs C D)) as (rest & P).
  pose proof (proj1 (c70 _ _ _ _ _ _ S)) as Z1. pose proof (proj1 (c70 _ _ _ _ _ _ H')) as Z2.
  pose proof (size_perm _ _ P) as Z. rewrite size_recv, size_app in Z.
  split; [lia|]. split.
  - intros L. destruct rest as [|p rest]; [rewrite app_nil_r in P; exact P|exfalso].
    cbn [promises_size] in Z. pose proof (size_pos p). lia.
  - intros Q. apply size_perm in Q. rewrite size_recv in Q. lia.
Qed.

Lemma cost_app : forall a b, promises_cost (a ++ b) = promises_cost a + promises_cost b.
Proof. intros a b. induction a as [|p a IH]; [reflexivity|]. cbn [app promises_cost]. rewrite IH. lia. Qed.
Lemma cost_perm : forall a b, Permutation a b -> promises_cost a = promises_cost b.
Proof. intros a b P. induction P; cbn [promises_cost]; lia. Qed.
Lemma cost_recv : forall ps, promises_cost (map recv_for_send ps) = promises_cost ps.
Proof. intros ps. induction ps as [|p ps IH]; [reflexivity|]. cbn [map promises_cost]. rewrite IH. destruct p; reflexivity. Qed.

Lemma c128_cost : forall prof prof' pid tid pid' tid' ps qs v v' prog small other,
  filter_for prof pid tid ps v prog -> filter_for prof pid tid (shortest ps) v small ->
  filter_for prof' pid' tid' qs v' other ->
  enforcing v -> enforcing v' -> small_ids pid tid -> small_ids pid' tid' ->
  (forall d, native d -> (proceeds other d <-> proceeds prog d)) ->
  prog_cost small <= prog_cost other.
Proof.
  intros prof prof' pid tid pid' tid' ps qs v v' prog small other H S H' Hv Hv' Li Li' E.
  assert (Lp : pid < 2 ^ 32) by (unfold small_ids in Li; lia).
  assert (Lp' : pid' < 2 ^ 32) by (unfold small_ids in Li'; lia).
  destruct (proj1 (c109 _ _ _ _ _ _ _ _ _ _ _ _ H H' Hv Hv' Lp) (fun d Hd => proj2 (E d Hd))) as [C _].
  destruct (proj1 (c109 _ _ _ _ _ _ _ _ _ _ _ _ H' H Hv' Hv Lp') (fun d Hd => proj1 (E d Hd))) as [D _].
  fold stand_ins in C, D.
  destruct (nodup_rest (shortest ps) (map recv_for_send qs) (shortest_nodup ps) (shortest_kept ps qs C D)) as (rest & P).
  rewrite (c77_cost _ _ _ _ _ _ S Li), (c77_cost _ _ _ _ _ _ H' Li').
  pose proof (cost_perm _ _ P) as Z. rewrite cost_recv, cost_app in Z. lia.
Qed.

Lemma c128_fits : forall prof amb t ps v, t_filters t = [] -> amb_oom (amb 1%nat) = false ->
  fst (pledge_override prof amb t (shortest ps) v) = Ok tt.
Proof.
  intros prof amb t ps v F M. apply c70_pledge; [exact F|exact M|].
  pose proof (size_nodup _ (shortest_nodup ps)). lia.
Qed.
