(** Stacks of pledges: order, repetition, redundancy, capacity, sizes (C65-C71). *)
From Coq Require Import NArith ZArith String List Bool Lia Permutation.
From Verif Require Import Libc Machine Bpf SeccompRet Asm Vm Promises Filters Kernel World Spec
  FragProofs PolicyProofs PolicyFacts VmProofs KernelVmProofs CodeProofs PledgeProofs.
Import ListNotations.
Local Open Scope N_scope.

(** * C65 *)
Lemma run_rank_attained : forall d fs ret,
  run_filters_from ret fs d = ret \/
  exists f, In f fs /\ run_filters_from ret fs d = kernel_eval f d.
Proof.
  intros d. induction fs as [|f fs IH]; intros ret; cbn [run_filters_from]; [left; reflexivity|].
  destruct (action_rank (kernel_eval f d) <? action_rank ret)%Z.
  - destruct (IH (kernel_eval f d)) as [E|(g & I & E)]; right.
    + exists f. split; [left; reflexivity|exact E].
    + exists g. split; [right; exact I|exact E].
  - destruct (IH ret) as [E|(g & I & E)]; [left; exact E|right].
    exists g. split; [right; exact I|exact E].
Qed.

(** The action depends only on which filters there are. *)
Lemma rank_incl : forall d fs fs' ret, incl fs fs' ->
  (action_rank (run_filters_from ret fs' d) <= action_rank (run_filters_from ret fs d))%Z.
Proof.
  intros d fs fs' ret I. destruct (run_min d fs' ret) as [M1 M2].
  destruct (run_rank_attained d fs ret) as [->|(f & Hf & ->)]; [exact M1|].
  apply M2. apply I. exact Hf.
Qed.
Lemma rank_same : forall d fs fs' ret, incl fs fs' -> incl fs' fs ->
  action_rank (run_filters_from ret fs d) = action_rank (run_filters_from ret fs' d).
Proof.
  intros d fs fs' ret A B. pose proof (rank_incl d fs fs' ret A). pose proof (rank_incl d fs' fs ret B).
  lia.
Qed.
Lemma action_bits_lt : forall c, action_bits c < 2 ^ 32.
Proof.
  intros c. unfold action_bits.
  assert (E : N.land c 0xffff0000 = N.land (N.land c 0xffff0000) (N.ones 32))
    by (rewrite <- N.land_assoc; reflexivity).
  rewrite E, N.land_ones. apply N.mod_lt. discriminate.
Qed.
Lemma rank_bits : forall a b, action_rank a = action_rank b -> action_bits a = action_bits b.
Proof.
  intros a b H. pose proof (action_bits_lt a). pose proof (action_bits_lt b).
  unfold action_rank in H.
  destruct (Z.ltb_spec (Z.of_N (action_bits a)) (2 ^ 31)), (Z.ltb_spec (Z.of_N (action_bits b)) (2 ^ 31)); lia.
Qed.
Lemma same_entry : forall a b, action_bits a = action_bits b -> same_kind (entry_of a) (entry_of b).
Proof.
  intros a b E. unfold entry_of. rewrite E. generalize (action_bits b). intros c.
  repeat match goal with
  | |- context [match ?c with _ => _ end] => is_var c; destruct c
  end; cbn; auto.
Qed.
Lemma same_filters : forall fs fs' d, incl fs fs' -> incl fs' fs ->
  same_kind (syscall_entry fs d) (syscall_entry fs' d).
Proof.
  intros fs fs' d A B. destruct fs as [|f fs].
  - destruct fs' as [|f' fs']; [reflexivity|]. destruct (B f' (or_introl eq_refl)).
  - destruct fs' as [|f' fs']; [destruct (A f (or_introl eq_refl))|].
    cbn [syscall_entry]. apply same_entry, rank_bits, rank_same; assumption.
Qed.

Lemma c65 : forall fs fs' d, (forall f, In f fs <-> In f fs') ->
  same_kind (syscall_entry fs d) (syscall_entry fs' d).
Proof. intros fs fs' d H. apply same_filters; intros f I; apply H; exact I. Qed.

(** * C66 *)
Lemma c66 : forall f fs d, syscall_entry (f :: f :: fs) d = syscall_entry (f :: fs) d.
Proof.
  intros f fs d. cbn [syscall_entry]. unfold run_filters. cbn [run_filters_from].
  destruct (Z.ltb_spec (action_rank (kernel_eval f d)) (action_rank 0x7fff0000)) as [L|L].
  - rewrite Z.ltb_irrefl. reflexivity.
  - destruct (Z.ltb_spec (action_rank (kernel_eval f d)) (action_rank 0x7fff0000)); [lia|reflexivity].
Qed.
(** At the level of calls: the second of two equal pledges changes nothing, whatever is below. *)
Lemma c66_pledge : forall prof pledges amb amb' t ps v t1 r t2 d,
  stack_with prof pledges (t_filters t) ->
  Forall (fun pv => small_payload (snd pv) /\ In StdIO (fst pv)) pledges ->
  (forall n, quiet (amb n)) -> (forall n, quiet (amb' n)) -> In StdIO ps -> small_payload v ->
  pledge_override prof amb t ps v = (Ok tt, t1) ->
  pledge_override prof amb' t1 ps v = (r, t2) ->
  syscall_entry (t_filters t2) d = syscall_entry (t_filters t1) d.
Proof.
  intros prof pledges amb amb' t ps v t1 r t2 d St Sm W W' Hs Sv P1 P2.
  destruct (c42_succeeds prof pledges amb t ps v St Sm W) as (prog & F & C).
  destruct (C _ _ P1) as [C1 C2]. cbv zeta in *.
  assert (Fits : N.of_nat (length prog) <= 4096 /\
                prog_cost prog + stack_cost (t_filters t) <= 32768).
  { destruct (N.le_gt_cases (N.of_nat (length prog)) 4096) as [L|L].
    - destruct (N.le_gt_cases (prog_cost prog + stack_cost (t_filters t)) 32768) as [M|M]; [auto|].
      exfalso. destruct C2 as [C2 _]; [lia|discriminate].
    - exfalso. destruct C2 as [C2 _]; [lia|discriminate]. }
  destruct (C1 Fits) as (_ & F1 & N1). clear C C1 C2.
  assert (Ids : t_pid t1 = t_pid t /\ t_tid t1 = t_tid t).
  { pose proof (pledge_effect _ _ _ _ _ _ _ P1) as X. tauto. }
  destruct Ids as [I1 I2].
  assert (St1 : stack_with prof ((ps, v) :: pledges) (t_filters t1)).
  { rewrite F1. constructor; [exact (for_with _ _ _ _ _ _ _ F I)|exact St]. }
  assert (Sm1 : Forall (fun pv => small_payload (snd pv) /\ In StdIO (fst pv)) ((ps, v) :: pledges))
    by (constructor; auto).
  destruct (c42_succeeds prof _ amb' t1 ps v St1 Sm1 W') as (prog' & F' & C).
  rewrite I1, I2 in F'. assert (prog' = prog) by (rewrite (filter_for_pcode _ _ _ _ _ _ F), (filter_for_pcode _ _ _ _ _ _ F'); reflexivity).
  subst prog'. destruct (C _ _ P2) as [C1 C2]. cbv zeta in *.
  destruct (N.le_gt_cases (N.of_nat (length prog)) 4096) as [L|L].
  - destruct (N.le_gt_cases (prog_cost prog + stack_cost (t_filters t1)) 32768) as [M|M].
    + destruct C1 as (_ & -> & _); [auto|]. rewrite F1. apply c66.
    + destruct C2 as (_ & ->); [lia|reflexivity].
  - destruct C2 as (_ & ->); [lia|reflexivity].
Qed.

(** * C67 *)
Lemma c67 : forall prof pid tid ps ps' v v' f f' fs d,
  filter_for prof pid tid ps v f -> filter_for prof pid tid ps' v' f' -> enforcing v ->
  incl ps ps' -> wf_data d -> In f fs ->
  (syscall_entry (f' :: fs) d = Proceed <-> syscall_entry fs d = Proceed).
Proof.
  intros prof pid tid ps ps' v v' f f' fs d H H' Hv I W Hf.
  destruct (in_split _ _ Hf) as (f1 & f2 & ->).
  assert (A : forall l, syscall_entry (l ++ f :: f2) d = Proceed -> kernel_eval f' d = 0x7fff0000).
  { intros l P. destruct (stack_grants prof pid tid ps v f l f2 d H Hv W P) as [Ha G].
    assert (N : native d) by (split; assumption).
    apply (verdict _ _ _ _ _ _ _ H' N).
    destruct G as (alts & r & who & p & G1 & G2 & G3 & G4 & G5).
    exists alts, r, who, p. repeat split; auto. destruct G4 as [->|G4]; [left; reflexivity|right; apply I; exact G4]. }
  assert (B : kernel_eval f' d = 0x7fff0000 ->
     syscall_entry (f' :: f1 ++ f :: f2) d = syscall_entry (f1 ++ f :: f2) d).
  { intros K. rewrite entry_cons, entry_mid. unfold run_filters. cbn [run_filters_from]. rewrite K.
    reflexivity. }
  split; intros P.
  - rewrite <- B; [exact P|]. exact (A (f' :: f1) P).
  - rewrite B; [exact P|]. exact (A f1 P).
Qed.

(** * C68 *)
Lemma c68_partial : forall prof pid tid ps ps' v v' f f' fs d,
  filter_for prof pid tid ps v f -> filter_for prof pid tid ps' v' f' ->
  native d -> fs = [f'; f] ->
  granted (filter (fun p => existsb (promise_eqb p) ps') ps) pid tid d ->
  syscall_entry fs d = Proceed.
Proof.
  intros prof pid tid ps ps' v v' f f' fs d H H' N -> G.
  assert (A : forall l v f, filter_for prof pid tid l v f ->
     incl (filter (fun p => existsb (promise_eqb p) ps') ps) l -> kernel_eval f d = 0x7fff0000).
  { intros l w g F I. apply (verdict _ _ _ _ _ _ _ F N).
    destruct G as (alts & r & who & p & G1 & G2 & G3 & G4 & G5).
    exists alts, r, who, p. repeat split; auto. destruct G4 as [->|G4]; [left; reflexivity|right; apply I; exact G4]. }
  rewrite entry_cons. unfold run_filters. cbn [run_filters_from].
  rewrite (A _ _ _ H'), (A _ _ _ H).
  - reflexivity.
  - intros p P. apply filter_In in P. tauto.
  - intros p P. apply filter_In in P. destruct P as [_ P]. apply existsb_exists in P.
    destruct P as (q & Q & E). apply promise_eqb_eq in E. subst q. exact Q.
Qed.

(** Pledging [RPath] and then [WPath] still leaves stat, though the lists share nothing. *)
Lemma c68_refuted : forall prof pid tid, exists f f' d,
  filter_for prof pid tid [RPath] KillProcess f /\ filter_for prof pid tid [WPath] KillProcess f' /\
  native d /\ syscall_entry [f'; f] d = Proceed /\ ~ granted [] pid tid d.
Proof.
  intros prof pid tid. exists (pcode pid tid [RPath] KillProcess), (pcode pid tid [WPath] KillProcess).
  set (d := call6 SYS_stat 1 2 0 0 0 0). exists d.
  pose proof (filter_for_exists prof pid tid [RPath] KillProcess) as F.
  pose proof (filter_for_exists prof pid tid [WPath] KillProcess) as F'.
  assert (W : native d) by wf.
  split; [exact F|]. split; [exact F'|]. split; [exact W|]. row SYS_stat R. split.
  - rewrite entry_cons. unfold run_filters. cbn [run_filters_from].
    destruct (verdict _ _ _ _ _ _ _ F W) as [V _]. destruct (verdict _ _ _ _ _ _ _ F' W) as [V' _].
    rewrite V, V'; [reflexivity| |]; (apply R; [reflexivity|]; unpromise; cbn [In]; tauto).
  - intros G. apply (R _ _ _ d eq_refl) in G. unpromise. cbn [In] in G. tauto.
Qed.

(** * C70 *)
Lemma plen_size : forall p, N.of_nat (plen p) = promise_size p.
Proof. destruct p; vm_compute; reflexivity. Qed.
Lemma total_size : forall ps, N.of_nat (total ps) = promises_size ps.
Proof.
  induction ps as [|p ps IH]; [reflexivity|]. cbn [total promises_size].
  rewrite Nat2N.inj_add, IH, plen_size. reflexivity.
Qed.
Lemma pcode_size : forall pid tid ps v,
  N.of_nat (length (pcode pid tid ps v)) = 7 + promises_size ps.
Proof.
  intros. rewrite pcode_length. cbn [total]. rewrite !Nat2N.inj_add, total_size, plen_size.
  cbn [promise_size]. lia.
Qed.

Lemma c70 : forall prof pid tid ps v prog, filter_for prof pid tid ps v prog ->
  N.of_nat (length prog) = 7 + promises_size ps /\
  (kernel_accepts prog = true <-> promises_size ps <= 4089).
Proof.
  intros prof pid tid ps v prog H. pose proof (proj1 (c36 _ _ _ _ _ _ H)) as K.
  rewrite (filter_for_pcode _ _ _ _ _ _ H) in *. rewrite pcode_size in *. split; [reflexivity|].
  rewrite K. lia.
Qed.

(** A first pledge succeeds exactly if its promises fit. *)
Lemma c70_pledge : forall prof amb t ps v, t_filters t = [] -> amb_oom (amb 1%nat) = false ->
  (fst (pledge_override prof amb t ps v) = Ok tt <-> promises_size ps <= 4089).
Proof.
  intros prof amb t ps v F M. rewrite open_pledge by (intros; (apply fate_of_empty; exact F) || exact M). cbv zeta.
  pose proof (prog_cost_le (pcode (t_pid t) (t_tid t) ps v)) as Q.
  rewrite pcode_size in *. rewrite F. change (stack_cost []) with 0.
  destruct (N.ltb_spec 4096 (7 + promises_size ps)) as [L|L]; cbn [fst].
  - split; [discriminate|lia].
  - destruct (N.ltb_spec 32768 (prog_cost (pcode (t_pid t) (t_tid t) ps v) + 0)); cbn [fst]; [lia|].
    split; [lia|reflexivity].
Qed.

Lemma size_nodup : forall ps, NoDup ps -> promises_size ps <= 839.
Proof.
  intros ps H. rewrite <- total_size.
  assert (T : (total ps <= total all_promises)%nat)
    by (apply total_nodup; [exact H|intros p _; apply all_promises_complete]).
  assert (E : N.of_nat (total all_promises) = 839) by (rewrite total_size; reflexivity). lia.
Qed.

(** * C69, C77 *)
Definition csum (prog : list sock_filter) : N := fold_right (fun f s => insn_cost f + s) 0 prog.
Lemma csum_app : forall a b, csum (a ++ b) = csum a + csum b.
Proof. induction a as [|f a IH]; intros b; cbn [app csum fold_right]; [reflexivity|].
  fold (csum (a ++ b)) (csum a). rewrite IH. lia. Qed.
Lemma csum_cons : forall f a, csum (f :: a) = insn_cost f + csum a.
Proof. reflexivity. Qed.

(** A large id costs one more instruction in each of the two fragments that contain one. *)
Definition extra (pid tid : N) (f : Filtered) : N :=
  match f with
  | KillSelf => if 2 ^ 31 <=? pid then 1 else 0
  | TkillSelf => if 2 ^ 31 <=? as_u32 tid then 1 else 0
  | _ => 0
  end.
Lemma frag_cost : forall pid tid f,
  csum (frag pid tid f) = csum (frag 0 0 f) + extra pid tid f.
Proof.
  intros pid tid f. destruct f;
    try (rewrite N.add_0_r; first [reflexivity | rewrite !frag_whitelist; reflexivity]).
  - rewrite !frag_kill. unfold extra. rewrite !csum_cons.
    change (insn_cost (SockFilter 21 1 0 pid))
      with ((if negb false && (2 ^ 31 <=? pid) then 1 else 0) + 1).
    cbn [negb andb]. destruct (2 ^ 31 <=? pid); reflexivity.
  - rewrite !frag_tkill. unfold extra. rewrite !csum_cons.
    change (insn_cost (SockFilter 21 1 0 (as_u32 tid)))
      with ((if negb false && (2 ^ 31 <=? as_u32 tid) then 1 else 0) + 1).
    cbn [negb andb]. destruct (2 ^ 31 <=? as_u32 tid); reflexivity.
Qed.
Fixpoint extras (pid tid : N) (fs : list Filtered) : N :=
  match fs with [] => 0 | f :: fs' => extra pid tid f + extras pid tid fs' end.
Lemma extras_app : forall pid tid a b, extras pid tid (a ++ b) = extras pid tid a + extras pid tid b.
Proof. induction a as [|f a IH]; intros b; cbn [app extras]; [reflexivity|]. rewrite IH. lia. Qed.
Lemma frags_cost : forall pid tid fs,
  csum (List.concat (map (frag pid tid) fs)) =
  csum (List.concat (map (frag 0 0) fs)) + extras pid tid fs.
Proof.
  intros pid tid. induction fs as [|f fs IH]; [reflexivity|].
  cbn [map List.concat extras]. rewrite !csum_app, IH, frag_cost. lia.
Qed.
Lemma promise_cost_ok : forall p, csum (List.concat (map (frag 0 0) (pfilters p))) = promise_cost p.
Proof. destruct p; vm_compute; reflexivity. Qed.
Lemma promises_cost_ok : forall ps,
  csum (List.concat (map (frag 0 0) (List.concat (map pfilters ps)))) = promises_cost ps.
Proof.
  induction ps as [|p ps IH]; [reflexivity|]. cbn [map List.concat promises_cost].
  rewrite map_app, concat_app, csum_app, IH, promise_cost_ok. reflexivity.
Qed.
Lemma pcode_cost : forall pid tid ps v,
  prog_cost (pcode pid tid ps v) = 14 + promises_cost ps + extras pid tid (all_filters ps).
Proof.
  intros. unfold prog_cost, pcode, fcode. fold (csum (header_code ++
    List.concat (map (frag pid tid) (all_filters ps)) ++ [SockFilter 6 0 0 (ret_into v)])).
  rewrite !csum_app, frags_cost. unfold all_filters at 1. rewrite promises_cost_ok.
  cbn [promises_cost promise_cost]. change (csum header_code) with 6.
  change (csum [SockFilter 6 0 0 (ret_into v)]) with 2. lia.
Qed.

Lemma extra_small : forall pid tid f, small_ids pid tid -> extra pid tid f = 0.
Proof.
  intros pid tid f [P T]. destruct f; try reflexivity; unfold extra.
  - destruct (N.leb_spec (2 ^ 31) pid); [lia|reflexivity].
  - assert (as_u32 tid = tid) by (apply N.mod_small; apply N.lt_trans with (2 ^ 31); [exact T|reflexivity]).
    destruct (N.leb_spec (2 ^ 31) (as_u32 tid)); [lia|reflexivity].
Qed.
Lemma extras_small : forall pid tid fs, small_ids pid tid -> extras pid tid fs = 0.
Proof.
  intros pid tid fs S. induction fs as [|f fs IH]; [reflexivity|]. cbn [extras].
  rewrite IH, extra_small by exact S. reflexivity.
Qed.

Lemma c77_cost : forall prof pid tid ps v prog,
  filter_for prof pid tid ps v prog -> small_ids pid tid ->
  prog_cost prog = 14 + promises_cost ps.
Proof.
  intros prof pid tid ps v prog F S. rewrite (filter_for_pcode _ _ _ _ _ _ F), pcode_cost.
  rewrite extras_small by exact S. lia.
Qed.

Lemma c77_stack : forall prof pledges fs, stack_of prof pledges fs ->
  Forall (fun i => small_ids (i_pid i) (i_tid i)) pledges -> stack_cost fs = pledges_cost pledges.
Proof.
  intros prof pledges fs St. induction St as [|i f is_ fs H St IH]; intros S; [reflexivity|].
  inversion S; subst. cbn [stack_cost fold_right pledges_cost]. fold (stack_cost fs).
  rewrite IH by assumption. rewrite (c77_cost _ _ _ _ _ _ H) by assumption. lia.
Qed.

Lemma c77 : forall prof pledges amb t ps v r t',
  stack_of prof pledges (t_filters t) ->
  Forall (fun i => small_payload (i_v i) /\ In StdIO (i_ps i) /\ small_ids (i_pid i) (i_tid i)) pledges ->
  (forall n, quiet (amb n)) -> small_ids (t_pid t) (t_tid t) ->
  pledge_override prof amb t ps v = (r, t') ->
  r = (if 4089 <? promises_size ps then Err (SysErr 22)
       else if 32768 <? 14 + promises_cost ps + pledges_cost pledges then Err (SysErr 12)
       else Ok tt) /\
  (r <> Ok tt -> t_filters t' = t_filters t).
Proof.
  intros prof pledges amb t ps v r t' St Sm W S P.
  assert (Sm1 : Forall (fun pv => small_payload (snd pv) /\ In StdIO (fst pv))
                  (map (fun i => (i_ps i, i_v i)) pledges))
    by (apply Forall_map; eapply Forall_impl; [|exact Sm]; cbn; tauto).
  assert (Sm2 : Forall (fun i => small_ids (i_pid i) (i_tid i)) pledges)
    by (eapply Forall_impl; [|exact Sm]; cbn; tauto).
  destruct (c42_succeeds prof _ amb t ps v (stack_of_with _ _ _ St) Sm1 W) as (prog & F & C).
  specialize (C r t' P). cbv zeta in C.
  rewrite (c77_stack _ _ _ St Sm2), (c77_cost _ _ _ _ _ _ F S) in C.
  rewrite (proj1 (c70 _ _ _ _ _ _ F)) in C. destruct C as [C1 C2].
  destruct (N.ltb_spec 4089 (promises_size ps)) as [L|L].
  - destruct C2 as [-> E]; [lia|]. destruct (N.ltb_spec 4096 (7 + promises_size ps)); [|lia].
    split; [reflexivity|intros _; exact E].
  - destruct (N.ltb_spec 32768 (14 + promises_cost ps + pledges_cost pledges)) as [L'|L'].
    + destruct C2 as [-> E]; [lia|]. destruct (N.ltb_spec 4096 (7 + promises_size ps)); [lia|].
      split; [reflexivity|intros _; exact E].
    + destruct C1 as (-> & _); [lia|]. split; [reflexivity|congruence].
Qed.

(** Lists without repetitions *)
Lemma promises_cost_app : forall a b, promises_cost (a ++ b) = promises_cost a + promises_cost b.
Proof. induction a as [|p a IH]; intros b; cbn [app promises_cost]; [reflexivity|]. rewrite IH. lia. Qed.
Lemma cost_nodup_incl : forall ps qs, NoDup ps -> incl ps qs -> promises_cost ps <= promises_cost qs.
Proof.
  induction ps as [|p ps IH]; intros qs N I; [cbn; lia|].
  inversion N as [|? ? Hn N']; subst.
  destruct (in_split p qs (I p (or_introl eq_refl))) as [q1 [q2 ->]].
  assert (X : promises_cost ps <= promises_cost (q1 ++ q2)).
  { apply IH; [exact N'|]. intros x Hx. specialize (I x (or_intror Hx)).
    apply in_app_iff in I. apply in_app_iff. destruct I as [I|[I|I]]; auto. subst. contradiction. }
  rewrite promises_cost_app in *. cbn [promises_cost]. lia.
Qed.
Lemma cost_nodup : forall ps, NoDup ps -> promises_cost ps <= 1135.
Proof.
  intros ps N. pose proof (cost_nodup_incl ps all_promises N (fun p _ => all_promises_complete p)) as H.
  change (promises_cost all_promises) with 1135 in H. exact H.
Qed.
Lemma extra_le : forall pid tid f, extra pid tid f <= extra (2 ^ 31) (2 ^ 31) f.
Proof.
  intros pid tid f. destruct f; try (apply N.le_refl); unfold extra.
  - change (2 ^ 31 <=? 2 ^ 31) with true. destruct (2 ^ 31 <=? pid); discriminate.
  - change (2 ^ 31 <=? as_u32 (2 ^ 31)) with true. destruct (2 ^ 31 <=? as_u32 tid); discriminate.
Qed.
Lemma extras_le : forall pid tid fs, extras pid tid fs <= extras (2 ^ 31) (2 ^ 31) fs.
Proof.
  intros pid tid. induction fs as [|f fs IH]; [apply N.le_refl|]. cbn [extras].
  pose proof (extra_le pid tid f). lia.
Qed.
Lemma extras_promise : forall p,
  extras (2 ^ 31) (2 ^ 31) (pfilters p) = if promise_eqb StdIO p then 2 else 0.
Proof. destruct p; vm_compute; reflexivity. Qed.
Lemma extras_none : forall ps, ~ In StdIO ps ->
  extras (2 ^ 31) (2 ^ 31) (List.concat (map pfilters ps)) = 0.
Proof.
  induction ps as [|p ps IH]; intros N; [reflexivity|]. cbn [map List.concat].
  rewrite extras_app, extras_promise, IH by (intros I; apply N; right; exact I).
  unfold promise_eqb. destruct (promise_eq_dec StdIO p) as [E|E]; [|reflexivity].
  subst. exfalso. apply N. left. reflexivity.
Qed.
Lemma extras_nodup : forall ps, NoDup ps ->
  extras (2 ^ 31) (2 ^ 31) (List.concat (map pfilters ps)) <= 2.
Proof.
  induction ps as [|p ps IH]; intros N; [cbn; lia|]. inversion N; subst. cbn [map List.concat].
  rewrite extras_app, extras_promise. unfold promise_eqb.
  destruct (promise_eq_dec StdIO p) as [E|E].
  - subst. rewrite extras_none by assumption. lia.
  - specialize (IH H2). lia.
Qed.
Fixpoint rextras (rs : list (Filtered * (N * N))) : N :=
  match rs with [] => 0 | r :: rs' => extra (fst (snd r)) (snd (snd r)) (fst r) + rextras rs' end.
Lemma rfrags_cost : forall rs,
  csum (List.concat (map rfrag rs)) = csum (List.concat (map (frag 0 0) (map fst rs))) + rextras rs.
Proof.
  induction rs as [|r rs IH]; [reflexivity|].
  cbn [map List.concat rextras]. rewrite !csum_app, IH. unfold rfrag at 1. rewrite frag_cost. lia.
Qed.
Lemma rextras_le : forall rs, rextras rs <= extras (2 ^ 31) (2 ^ 31) (map fst rs).
Proof.
  induction rs as [|r rs IH]; [apply N.le_refl|]. cbn [rextras map extras].
  pose proof (extra_le (fst (snd r)) (snd (snd r)) (fst r)). lia.
Qed.
Lemma gcode_cost_nodup : forall rs ps v, map fst rs = all_filters ps -> NoDup ps ->
  prog_cost (gcode rs v) <= 1151.
Proof.
  intros rs ps v M N.
  assert (E : prog_cost (gcode rs v) = 14 + promises_cost ps + rextras rs).
  { unfold prog_cost, gcode. fold (csum (header_code ++ List.concat (map rfrag rs) ++
      [SockFilter 6 0 0 (ret_into v)])).
    rewrite !csum_app, rfrags_cost, M. unfold all_filters. rewrite promises_cost_ok.
    cbn [promises_cost promise_cost]. change (csum header_code) with 6.
    change (csum [SockFilter 6 0 0 (ret_into v)]) with 2. lia. }
  rewrite E. pose proof (cost_nodup ps N).
  pose proof (rextras_le rs) as R. rewrite M in R. unfold all_filters in *.
  change (List.concat (map pfilters (Default :: ps)))
    with (pfilters Default ++ List.concat (map pfilters ps))%list in *.
  rewrite (extras_app (2 ^ 31) (2 ^ 31)) in *. pose proof (extras_nodup ps N).
  change (extras (2 ^ 31) (2 ^ 31) (pfilters Default)) with 0 in *. lia.
Qed.
Lemma with_cost_nodup : forall prof E ps v prog, filter_with prof E ps v prog -> NoDup ps ->
  prog_cost prog <= 1151.
Proof.
  intros prof E ps v prog W N. destruct (with_gcode _ _ _ _ _ W) as (rs & -> & M & _).
  exact (gcode_cost_nodup rs ps v M N).
Qed.

Lemma stack_cost_bound : forall prof pledges fs, stack_with prof pledges fs ->
  Forall (fun pv => NoDup (fst pv)) pledges -> stack_cost fs <= 1155 * N.of_nat (length pledges).
Proof.
  intros prof pledges fs St. induction St as [|i f is_ fs H St IH]; intros Nd; [cbn; lia|].
  inversion Nd; subst. specialize (IH H3). cbn [stack_cost fold_right length].
  fold (stack_cost fs). pose proof (with_cost_nodup _ _ _ _ _ H H2). lia.
Qed.
Lemma c69 : forall prof pledges amb t ps v,
  stack_with prof pledges (t_filters t) ->
  Forall (fun pv => small_payload (snd pv) /\ In StdIO (fst pv) /\ NoDup (fst pv)) pledges ->
  (forall n, quiet (amb n)) -> NoDup ps -> (length pledges <= 27)%nat ->
  exists prog t', filter_for prof (t_pid t) (t_tid t) ps v prog /\
    pledge_override prof amb t ps v = (Ok tt, t') /\
    t_filters t' = prog :: t_filters t /\ t_nnp t' = true.
Proof.
  intros prof pledges amb t ps v St Sm W Nd L.
  assert (Sm1 : Forall (fun pv => small_payload (snd pv) /\ In StdIO (fst pv)) pledges)
    by (eapply Forall_impl; [|exact Sm]; cbn; tauto).
  assert (Sm2 : Forall (fun pv : list Promise * SeccompReturn => NoDup (fst pv)) pledges)
    by (eapply Forall_impl; [|exact Sm]; cbn; tauto).
  destruct (c42_succeeds prof pledges amb t ps v St Sm1 W) as (prog & F & C).
  exists prog. destruct (pledge_override prof amb t ps v) as [r t'] eqn:P.
  pose proof (stack_cost_bound _ _ _ St Sm2) as B. pose proof (size_nodup ps Nd) as S.
  assert (E : N.of_nat (length prog) = 7 + promises_size ps)
    by (rewrite (filter_for_pcode _ _ _ _ _ _ F); apply pcode_size).
  pose proof (with_cost_nodup _ _ _ _ _ (for_with _ (fun _ => True) _ _ _ _ _ F I) Nd) as K.
  destruct (C r t' eq_refl) as [C1 _]. destruct C1 as (-> & Ft & Nn); [rewrite E; lia|].
  exists t'. auto.
Qed.

(** * C71 *)
Lemma c71 : forall amb t ps v,
  pledge_override Debug amb t ps v = pledge_override Release amb t ps v.
Proof.
  intros. rewrite !pledge_unfold.
  assert (X : forall fs, build_parts Debug amb t fs = build_parts Release amb t fs).
  { induction fs as [|f fs IH]; [reflexivity|]. cbn [build_parts]. rewrite !rule_built, IH. reflexivity. }
  unfold built. rewrite X. destruct (build_parts Release amb t (all_filters ps)) as [parts|e| |d]; reflexivity.
Qed.
Lemma c71_filter : forall pid tid ps v prog,
  filter_for Debug pid tid ps v prog <-> filter_for Release pid tid ps v prog.
Proof. intros. unfold filter_for. rewrite !build. reflexivity. Qed.
