(** What a verdict depends on (C111). *)
From Coq Require Import NArith ZArith List Bool Lia.
From Verif Require Import Libc Machine Bpf SeccompRet Asm Vm Promises Filters Kernel World Spec WordSpec
  AsmProofs FragProofs PolicyProofs PolicyFacts DocFacts.
Import ListNotations.
Local Open Scope N_scope.

(** Words of the record a condition is about. *)
Definition rule_words (r : argrule) : list nat :=
  match r with
  | AnyArgs => []
  | FcntlBasic | FcntlLocks | IoctlFile | IoctlTerm | IoctlSock | ModeArg1 => [6%nat]
  | MapNoExec => [8%nat; 10%nat]
  | MapAny => [10%nat]
  | ProtNoExec | LimitPtrLow | OpenRead | OpenWrite => [8%nat]
  | SendNoAddr => [12%nat; 13%nat]
  | SelfPid | SelfTid | PrctlBasic | NewThread | NewTask => [4%nat]
  | OpenCreate => [8%nat; 10%nat]
  | SockInet | SockUnix => [4%nat; 6%nat; 8%nat]
  | OptGet | OptSet => [6%nat; 8%nat]
  end.

Lemma args_ok_words : forall r pid tid d d', wf_data d -> wf_data d' ->
  (forall j, In j (rule_words r) -> nth j (sd_words d) 0 = nth j (sd_words d') 0) ->
  args_ok r pid tid d -> args_ok r pid tid d'.
Proof.
  intros r pid tid d d' W W' E.
  assert (C : forall x y, lo32 x = lo32 y -> forall m, m < 2 ^ 32 -> (clear m x <-> clear m y)).
  { intros x y Exy m Hm. unfold clear. rewrite <- (lo32_land x m Hm), <- (lo32_land y m Hm), Exy. reflexivity. }
  assert (Hs : forall x y, lo32 x = lo32 y -> forall m, m < 2 ^ 32 -> (has m x <-> has m y)).
  { intros x y Exy m Hm. unfold has. rewrite <- (lo32_land x m Hm), <- (lo32_land y m Hm), Exy. reflexivity. }
  destruct r; cbn [rule_words In] in E; cbn [args_ok]; try exact (fun A => A).
  Ltac at_word E i H := pose proof (E i ltac:(tauto)) as H; cbn [sd_words nth] in H.
  - at_word E 6%nat H. rewrite H. auto.
  - at_word E 6%nat H. rewrite H. auto.
  - at_word E 8%nat H. at_word E 10%nat H2. rewrite H, (C _ _ H2) by reflexivity. auto.
  - at_word E 10%nat H2. rewrite (C _ _ H2) by reflexivity. auto.
  - at_word E 8%nat H. rewrite H. auto.
  - at_word E 12%nat H. at_word E 13%nat H2.
    intros A. rewrite A in H, H2. destruct W' as (_ & _ & _ & _ & _ & _ & _ & W4 & _).
    unfold lo32, hi32, u32_mod in *. rewrite N.mod_0_l in H by discriminate.
    rewrite N.div_0_l, N.mod_0_l in H2 by discriminate.
    rewrite N.mod_small in H2 by (apply N.div_lt_upper_bound; [discriminate|exact W4]).
    rewrite (N.div_mod (sd_a4 d') (2 ^ 32)) by discriminate. rewrite <- H, <- H2. reflexivity.
  - at_word E 6%nat H. rewrite H. auto.
  - at_word E 6%nat H. rewrite H. auto.
  - at_word E 6%nat H. rewrite H. auto.
  - at_word E 4%nat H. rewrite H. auto.
  - at_word E 4%nat H. rewrite H. auto.
  - at_word E 4%nat H. rewrite H. auto.
  - at_word E 4%nat H. rewrite !(C _ _ H), !(Hs _ _ H) by reflexivity. auto.
  - at_word E 4%nat H. rewrite !(C _ _ H) by reflexivity. auto.
  - at_word E 8%nat H. rewrite H. auto.
  - at_word E 8%nat H. rewrite !(C _ _ H) by reflexivity. auto.
  - at_word E 8%nat H. rewrite !(C _ _ H) by reflexivity.
    rewrite <- (lo32_land (sd_a2 d)), <- (lo32_land (sd_a2 d')), H by reflexivity. auto.
  - at_word E 8%nat H. at_word E 10%nat H2. rewrite (C _ _ H), (C _ _ H2) by reflexivity. auto.
  - at_word E 6%nat H. rewrite (C _ _ H) by reflexivity. auto.
  - at_word E 4%nat H. at_word E 6%nat H2. at_word E 8%nat H3. unfold sock_type. rewrite H, H2, H3. auto.
  - at_word E 4%nat H. at_word E 6%nat H2. at_word E 8%nat H3. unfold sock_type. rewrite H, H2, H3. auto.
  - at_word E 6%nat H2. at_word E 8%nat H3. rewrite H2, H3. auto.
  - at_word E 6%nat H2. at_word E 8%nat H3. rewrite H2, H3. auto.
Qed.

(** The conditional rows of the policy, with the words of their conditions. *)
Definition conditional : list (N * argrule * list Promise) :=
  flat_map (fun row => flat_map (fun alt => match fst alt with AnyArgs => [] | r => [(fst row, r, snd alt)] end)
                                (snd row)) policy.
Lemma conditional_in : forall nr alts r who,
  In (nr, alts) policy -> In (r, who) alts -> r <> AnyArgs -> In (nr, r, who) conditional.
Proof.
  intros nr alts r who H1 H2 H3. unfold conditional. apply in_flat_map. exists (nr, alts). split; [exact H1|].
  cbn [fst snd]. apply in_flat_map. exists (r, who). split; [exact H2|]. cbn [fst snd].
  destruct r; try (left; reflexivity). elim H3. reflexivity.
Qed.

Lemma same_number : forall i d d', (2 <= i)%nat -> wf_data d -> wf_data d' -> differ_only_at i d d' ->
  sd_nr d' = sd_nr d.
Proof.
  intros i d d' Hi (W & _) (W' & _) D. specialize (D 0%nat). cbn [sd_words nth] in D.
  unfold lo32, u32_mod in D. rewrite !N.mod_small in D by assumption. symmetry. apply D. lia.
Qed.

Definition inspects (ps : list Promise) (nr : N) (i : nat) : Prop :=
  exists needs unless, In (nr, i, needs, unless) inspected_words /\
    (exists p, In p needs /\ In p ps) /\ (forall p, In p unless -> ~ In p ps).

(** For each conditional row and each of its words, the entry of the table. *)
Definition entry_for (nr : N) (i : nat) : option (list Promise * list Promise) :=
  option_map (fun e => (snd (fst e), snd e))
    (find (fun e => (fst (fst (fst e)) =? nr) && Nat.eqb (snd (fst (fst e))) i) inspected_words).
Lemma entry_for_in : forall nr i needs unless, entry_for nr i = Some (needs, unless) ->
  In (nr, i, needs, unless) inspected_words.
Proof.
  intros nr i needs unless H. unfold entry_for in H. destruct (find _ _) as [[[[n j] a] b]|] eqn:F; [|discriminate].
  cbn [option_map fst snd] in H. injection H as <- <-. apply find_some in F. destruct F as [F G].
  cbn [fst snd] in G. apply andb_true_iff in G. destruct G as [G1 G2].
  apply N.eqb_eq in G1. apply Nat.eqb_eq in G2. subst. exact F.
Qed.
Definition promiseb (p q : Promise) : bool := if promise_eq_dec p q then true else false.
Definition covered : bool :=
  forallb (fun row : N * argrule * list Promise =>
    forallb (fun i => match entry_for (fst (fst row)) i with
                      | Some (needs, _) => forallb (fun p => existsb (promiseb p) needs) (snd row)
                      | None => false
                      end) (rule_words (snd (fst row)))) conditional.
Lemma covered_true : covered = true.
Proof. vm_compute. reflexivity. Qed.
Definition no_default : bool :=
  forallb (fun row : N * argrule * list Promise => negb (existsb (promiseb Default) (snd row))) conditional.
Lemma no_default_true : no_default = true.
Proof. vm_compute. reflexivity. Qed.
Lemma promiseb_eq : forall p q, promiseb p q = true <-> p = q.
Proof. intros p q. unfold promiseb. destruct (promise_eq_dec p q); split; congruence. Qed.

Lemma matters_forward : forall prof pid tid ps v prog nr i,
  filter_for prof pid tid ps v prog -> enforcing v -> (2 <= i)%nat ->
  matters prog nr i -> inspects ps nr i.
Proof.
  intros prof pid tid ps v prog nr i H Hv Hi (d & d' & Hd & Hd' & Hn & D & G & NG).
  pose proof (same_number i d d' Hi (proj1 Hd) (proj1 Hd') D) as Hn'. rewrite Hn in Hn'.
  apply (proceeds_iff _ _ _ _ _ _ _ H Hv Hd) in G.
  assert (NG' : ~ granted ps pid tid d') by (intros A; apply NG, (proceeds_iff _ _ _ _ _ _ _ H Hv Hd'); exact A).
  clear NG. pose proof G as G0. destruct G as (alts & r & who & p & P1 & P2 & P3 & P4 & P5).
  assert (Ir : In i (rule_words r)).
  { destruct (in_dec Nat.eq_dec i (rule_words r)) as [|N]; [assumption|]. exfalso. apply NG'.
    exists alts, r, who, p. rewrite Hn', <- Hn. refine (conj P1 (conj P2 (conj P3 (conj P4 _)))).
    apply (args_ok_words r pid tid d d' (proj1 Hd) (proj1 Hd')); [|exact P5].
    intros j Hj. apply D. intros ->. exact (N Hj). }
  assert (Rn : r <> AnyArgs) by (intros ->; destruct Ir).
  rewrite Hn in P1. pose proof (conditional_in _ _ _ _ P1 P2 Rn) as Hc.
  assert (Hp : In p ps).
  { destruct P4 as [->|P4]; [|exact P4]. exfalso.
    pose proof no_default_true as Q. unfold no_default in Q. rewrite forallb_forall in Q. specialize (Q _ Hc).
    cbn [snd] in Q. apply negb_true_iff in Q. assert (Q' : existsb (promiseb Default) who = true).
    { apply existsb_exists. exists Default. split; [exact P3|]. apply promiseb_eq. reflexivity. }
    congruence. }
  pose proof covered_true as Q. unfold covered in Q. rewrite forallb_forall in Q. specialize (Q _ Hc).
  cbn [fst snd] in Q. rewrite forallb_forall in Q. specialize (Q _ Ir).
  destruct (entry_for nr i) as [[needs unless]|] eqn:En; [|discriminate Q].
  rewrite forallb_forall in Q. specialize (Q _ P3). apply existsb_exists in Q. destruct Q as (q & Q1 & Q2).
  apply promiseb_eq in Q2. subst q.
  exists needs, unless. split; [apply entry_for_in; exact En|]. split; [exists p; auto|].
  clear P1 P2 Hc P3 P4 Q1 Hp. intros q Hq Hqs. apply NG'. clear NG'.
  assert (En' := entry_for_in _ _ _ _ En). clear En.
  assert (X : In (nr, i, needs, unless) (filter (fun e => match snd e with [] => false | _ => true end) inspected_words)).
  { apply filter_In. split; [exact En'|]. cbn [snd]. destruct unless; [destruct Hq|reflexivity]. }
  clear En'. cbn [filter inspected_words snd] in X. cbn [In] in X.
  repeat (destruct X as [X|X]); try contradiction; injection X as <- <- <- <-; cbn [In] in Hq.
  - (* mmap *) row SYS_mmap R. apply (R _ _ _ _ Hn'). apply (R _ _ _ _ Hn) in G0. unpromise.
    destruct Hq as [<-|[]]. right. left.
    assert (A : args_ok MapAny pid tid d).
    { cbn [args_ok]. destruct G0 as [[_ [_ A]]|[[_ A]|[]]]; [|exact A]. unfold clear in *.
      change (MAP_LOCKED + MAP_POPULATE + MAP_NONBLOCK + MAP_HUGETLB) with
        (N.lor (MAP_LOCKED + MAP_NONBLOCK + MAP_HUGETLB) MAP_POPULATE) in A.
      rewrite N.land_lor_distr_r in A. apply N.lor_eq_0_iff in A. apply A. }
    split; [left; exact Hqs|]. apply (args_ok_words MapAny pid tid d d' (proj1 Hd) (proj1 Hd')); [|exact A].
    intros j [<-|[]]. apply D. discriminate.
  - row SYS_mprotect R. apply (R _ _ _ _ Hn'). unpromise. destruct Hq as [<-|[]]. tauto.
  - row SYS_kill R. apply (R _ _ _ _ Hn'). unpromise. destruct Hq as [<-|[]]. tauto.
  - row SYS_tkill R. apply (R _ _ _ _ Hn'). unpromise. destruct Hq as [<-|[]]. tauto.
  - row SYS_prlimit64 R. apply (R _ _ _ _ Hn'). unpromise. destruct Hq as [<-|[<-|[]]]; tauto.
  - row SYS_sendto R. apply (R _ _ _ _ Hn'). unpromise. destruct Hq as [<-|[<-|[<-|[]]]]; tauto.
  - row SYS_sendto R. apply (R _ _ _ _ Hn'). unpromise. destruct Hq as [<-|[<-|[<-|[]]]]; tauto.
Qed.

(** A witness: two calls. *)
Lemma by_calls : forall prof pid tid ps v prog nr i d d',
  filter_for prof pid tid ps v prog -> enforcing v ->
  native d -> native d' -> sd_nr d = nr -> differ_only_at i d d' ->
  granted ps pid tid d -> ~ granted ps pid tid d' -> matters prog nr i.
Proof.
  intros prof pid tid ps v prog nr i d d' H Hv Hd Hd' Hn D G N. exists d, d'.
  refine (conj Hd (conj Hd' (conj Hn (conj D (conj _ _))))).
  - apply (proceeds_iff _ _ _ _ _ _ _ H Hv Hd). exact G.
  - intros A. apply N, (proceeds_iff _ _ _ _ _ _ _ H Hv Hd'). exact A.
Qed.

Ltac apart := intros j Hj; do 16 (destruct j as [|j]; [solve [reflexivity | elim Hj; reflexivity]|]);
  destruct j; reflexivity.
Ltac absurd_fact U :=
  match goal with
  | B : False |- _ => exact B
  | B : In ?q ?ps |- _ => is_var ps; exact (U q ltac:(tauto) B)
  | B : _ = _ |- _ => vm_compute in B; discriminate B
  | B : clear _ _ |- _ => vm_compute in B; discriminate B
  | B : has _ _ |- _ => vm_compute in B; discriminate B
  | B : _ <= _ |- _ => vm_compute in B; elim B; reflexivity
  | B : In _ _ |- _ => vm_compute in B; intuition discriminate
  | B : sock_type _ _ |- _ => vm_compute in B; discriminate B
  end.
Ltac refute A U :=
  clear - A U;
  repeat match goal with
  | B : _ \/ _ |- _ => destruct B as [B|B]
  | B : _ /\ _ |- _ => destruct B
  end; absurd_fact U.
Ltac holds := first [ left; split; [tauto|solve [vm_compute; intuition discriminate]] | right; holds ].
Ltac between nr c c' H Hv U :=
  apply (by_calls _ _ _ _ _ _ nr _ c c' H Hv); [wf|wf|reflexivity|apart| |];
  [ let R := fresh "R" in row nr R; apply (R _ _ _ c eq_refl); clear R; unpromise; holds
  | let R := fresh "R" in let A := fresh "A" in
    intros A; row nr R; apply (R _ _ _ c' eq_refl) in A; clear R; unpromise; refute A U ].

Lemma hi32_small : forall a, a < 2 ^ 32 -> hi32 a = 0.
Proof. intros a H. unfold hi32. rewrite N.div_small by exact H. reflexivity. Qed.
Ltac apart_id Ha Hb := intros j Hj;
  do 4 (destruct j as [|j]; [reflexivity|]); destruct j as [|j]; [elim Hj; reflexivity|];
  destruct j as [|j]; [cbn [sd_words nth call6 sd_a0]; rewrite (hi32_small _ Ha), (hi32_small _ Hb); reflexivity|];
  do 10 (destruct j as [|j]; [reflexivity|]); destruct j; reflexivity.
Ltac wf_id Ha := split; [|reflexivity]; unfold wf_data; cbn [call6 sd_nr sd_arch sd_ip sd_a0 sd_a1 sd_a2 sd_a3 sd_a4 sd_a5];
  refine (conj eq_refl (conj eq_refl (conj eq_refl (conj _ (conj eq_refl (conj eq_refl (conj eq_refl
    (conj eq_refl eq_refl))))))));
  refine (N.lt_trans _ _ _ Ha _); reflexivity.

Lemma matters_backward : forall prof pid tid ps v prog nr i,
  filter_for prof pid tid ps v prog -> enforcing v -> pid < 2 ^ 32 ->
  inspects ps nr i -> matters prog nr i.
Proof.
  intros prof pid tid ps v prog nr i H Hv Hpid (needs & unless & En & (p & P1 & P2) & U).
  unfold inspected_words in En. cbn [In] in En.
  repeat (destruct En as [En|En]); try contradiction; injection En as <- <- <- <-; cbn [In] in P1, U.
  - destruct P1 as [<-|[<-|[<-|[]]]].
    + between SYS_open (call6 SYS_open 0 0 0 3584 0 0) (call6 SYS_open 0 0 64 3584 0 0) H Hv U.
    + between SYS_open (call6 SYS_open 0 0 1 3584 0 0) (call6 SYS_open 0 0 64 3584 0 0) H Hv U.
    + between SYS_open (call6 SYS_open 0 0 0 3584 0 0) (call6 SYS_open 0 0 64 3584 0 0) H Hv U.
  - destruct P1 as [<-|[]].
    + between SYS_open (call6 SYS_open 0 0 64 0 0 0) (call6 SYS_open 0 0 64 3584 0 0) H Hv U.
  - destruct P1 as [<-|[<-|[<-|[<-|[]]]]].
    + between SYS_openat (call6 SYS_openat 0 0 0 3584 0 0) (call6 SYS_openat 0 0 64 3584 0 0) H Hv U.
    + between SYS_openat (call6 SYS_openat 0 0 0 3584 0 0) (call6 SYS_openat 0 0 64 3584 0 0) H Hv U.
    + between SYS_openat (call6 SYS_openat 0 0 1 3584 0 0) (call6 SYS_openat 0 0 64 3584 0 0) H Hv U.
    + between SYS_openat (call6 SYS_openat 0 0 0 3584 0 0) (call6 SYS_openat 0 0 64 3584 0 0) H Hv U.
  - destruct P1 as [<-|[]].
    + between SYS_openat (call6 SYS_openat 0 0 64 0 0 0) (call6 SYS_openat 0 0 64 3584 0 0) H Hv U.
  - destruct P1 as [<-|[]].
    + between SYS_creat (call6 SYS_creat 0 0 0 0 0 0) (call6 SYS_creat 0 2048 0 0 0 0) H Hv U.
  - destruct P1 as [<-|[<-|[]]].
    + between SYS_chmod (call6 SYS_chmod 0 0 0 0 0 0) (call6 SYS_chmod 0 2048 0 0 0 0) H Hv U.
    + between SYS_chmod (call6 SYS_chmod 0 0 0 0 0 0) (call6 SYS_chmod 0 2048 0 0 0 0) H Hv U.
  - destruct P1 as [<-|[<-|[]]].
    + between SYS_fchmod (call6 SYS_fchmod 0 0 0 0 0 0) (call6 SYS_fchmod 0 2048 0 0 0 0) H Hv U.
    + between SYS_fchmod (call6 SYS_fchmod 0 0 0 0 0 0) (call6 SYS_fchmod 0 2048 0 0 0 0) H Hv U.
  - destruct P1 as [<-|[<-|[]]].
    + between SYS_fchmodat (call6 SYS_fchmodat 0 0 0 0 0 0) (call6 SYS_fchmodat 0 2048 0 0 0 0) H Hv U.
    + between SYS_fchmodat (call6 SYS_fchmodat 0 0 0 0 0 0) (call6 SYS_fchmodat 0 2048 0 0 0 0) H Hv U.
  - destruct P1 as [<-|[]].
    + between SYS_mmap (call6 SYS_mmap 0 0 0 0 0 0) (call6 SYS_mmap 0 0 7 0 0 0) H Hv U.
  - destruct P1 as [<-|[<-|[]]].
    + between SYS_mmap (call6 SYS_mmap 0 0 0 0 0 0) (call6 SYS_mmap 0 0 0 8192 0 0) H Hv U.
    + between SYS_mmap (call6 SYS_mmap 0 0 0 0 0 0) (call6 SYS_mmap 0 0 0 8192 0 0) H Hv U.
  - destruct P1 as [<-|[]].
    + between SYS_mprotect (call6 SYS_mprotect 0 0 0 0 0 0) (call6 SYS_mprotect 0 0 7 0 0 0) H Hv U.
  - destruct P1 as [<-|[]]. set (a := pid). set (b := if a =? 0 then 1 else 0).
    assert (Ha : a < 2 ^ 32) by exact Hpid.
    assert (Hb : b < 2 ^ 32) by (subst b; destruct (a =? 0); reflexivity).
    assert (Hab : b <> a) by (subst b; destruct (N.eqb_spec a 0); lia).
    apply (by_calls _ _ _ _ _ _ SYS_kill _ (call6 SYS_kill a 0 0 0 0 0) (call6 SYS_kill b 0 0 0 0 0) H Hv);
      [wf_id Ha|wf_id Hb|reflexivity|apart_id Ha Hb| |].
    + row SYS_kill R. apply (R _ _ _ (call6 SYS_kill a 0 0 0 0 0) eq_refl). unpromise. left. split; [tauto|].
      apply N.mod_small. exact Ha.
    + row SYS_kill R. rewrite (R _ _ _ (call6 SYS_kill b 0 0 0 0 0) eq_refl). unpromise.
      cbn [sd_a0 call6]. change (lo32 b) with (b mod 2 ^ 32). rewrite (N.mod_small b) by exact Hb.
      specialize (U Proc). fold a. tauto.
  - destruct P1 as [<-|[]]. set (a := (lo32 tid)). set (b := if a =? 0 then 1 else 0).
    assert (Ha : a < 2 ^ 32) by (apply N.mod_lt; discriminate).
    assert (Hb : b < 2 ^ 32) by (subst b; destruct (a =? 0); reflexivity).
    assert (Hab : b <> a) by (subst b; destruct (N.eqb_spec a 0); lia).
    apply (by_calls _ _ _ _ _ _ SYS_tkill _ (call6 SYS_tkill a 0 0 0 0 0) (call6 SYS_tkill b 0 0 0 0 0) H Hv);
      [wf_id Ha|wf_id Hb|reflexivity|apart_id Ha Hb| |].
    + row SYS_tkill R. apply (R _ _ _ (call6 SYS_tkill a 0 0 0 0 0) eq_refl). unpromise. left. split; [tauto|].
      apply N.mod_small. exact Ha.
    + row SYS_tkill R. rewrite (R _ _ _ (call6 SYS_tkill b 0 0 0 0 0) eq_refl). unpromise.
      cbn [sd_a0 call6]. change (lo32 b) with (b mod 2 ^ 32). rewrite (N.mod_small b) by exact Hb.
      specialize (U Proc). fold a. tauto.
  - destruct P1 as [<-|[<-|[]]].
    + between SYS_fcntl (call6 SYS_fcntl 0 0 0 0 0 0) (call6 SYS_fcntl 0 99 0 0 0 0) H Hv U.
    + between SYS_fcntl (call6 SYS_fcntl 0 5 0 0 0 0) (call6 SYS_fcntl 0 99 0 0 0 0) H Hv U.
  - destruct P1 as [<-|[<-|[<-|[]]]].
    + between SYS_ioctl (call6 SYS_ioctl 0 FIONREAD 0 0 0 0) (call6 SYS_ioctl 0 0 0 0 0 0) H Hv U.
    + between SYS_ioctl (call6 SYS_ioctl 0 35077 0 0 0 0) (call6 SYS_ioctl 0 0 0 0 0 0) H Hv U.
    + between SYS_ioctl (call6 SYS_ioctl 0 TCGETS 0 0 0 0) (call6 SYS_ioctl 0 0 0 0 0 0) H Hv U.
  - destruct P1 as [<-|[]].
    + between SYS_prctl (call6 SYS_prctl PR_SET_NAME 0 0 0 0 0) (call6 SYS_prctl 9999 0 0 0 0 0) H Hv U.
  - destruct P1 as [<-|[<-|[]]].
    + between SYS_clone (call6 SYS_clone 69376 0 0 0 0 0) (call6 SYS_clone 131072 0 0 0 0 0) H Hv U.
    + between SYS_clone (call6 SYS_clone 69376 0 0 0 0 0) (call6 SYS_clone 131072 0 0 0 0 0) H Hv U.
  - destruct P1 as [<-|[]].
    + between SYS_prlimit64 (call6 SYS_prlimit64 0 0 0 0 0 0) (call6 SYS_prlimit64 0 0 1 0 0 0) H Hv U.
  - destruct P1 as [<-|[]].
    + between SYS_sendto (call6 SYS_sendto 0 0 0 0 0 0) (call6 SYS_sendto 0 0 0 0 1 0) H Hv U.
  - destruct P1 as [<-|[]].
    + between SYS_sendto (call6 SYS_sendto 0 0 0 0 0 0) (call6 SYS_sendto 0 0 0 0 4294967296 0) H Hv U.
  - destruct P1 as [<-|[<-|[<-|[]]]].
    + between SYS_socket (call6 SYS_socket 2 1 0 0 0 0) (call6 SYS_socket 99 1 0 0 0 0) H Hv U.
    + between SYS_socket (call6 SYS_socket 2 1 0 0 0 0) (call6 SYS_socket 99 1 0 0 0 0) H Hv U.
    + between SYS_socket (call6 SYS_socket 1 1 0 0 0 0) (call6 SYS_socket 99 1 0 0 0 0) H Hv U.
  - destruct P1 as [<-|[<-|[<-|[]]]].
    + between SYS_socket (call6 SYS_socket 2 1 0 0 0 0) (call6 SYS_socket 2 99 0 0 0 0) H Hv U.
    + between SYS_socket (call6 SYS_socket 2 1 0 0 0 0) (call6 SYS_socket 2 99 0 0 0 0) H Hv U.
    + between SYS_socket (call6 SYS_socket 1 1 0 0 0 0) (call6 SYS_socket 1 99 0 0 0 0) H Hv U.
  - destruct P1 as [<-|[<-|[<-|[]]]].
    + between SYS_socket (call6 SYS_socket 2 1 0 0 0 0) (call6 SYS_socket 2 1 99 0 0 0) H Hv U.
    + between SYS_socket (call6 SYS_socket 2 1 0 0 0 0) (call6 SYS_socket 2 1 99 0 0 0) H Hv U.
    + between SYS_socket (call6 SYS_socket 1 1 0 0 0 0) (call6 SYS_socket 1 1 99 0 0 0) H Hv U.
  - destruct P1 as [<-|[<-|[]]].
    + between SYS_getsockopt (call6 SYS_getsockopt 0 1 3 0 0 0) (call6 SYS_getsockopt 0 99 3 0 0 0) H Hv U.
    + between SYS_getsockopt (call6 SYS_getsockopt 0 1 3 0 0 0) (call6 SYS_getsockopt 0 99 3 0 0 0) H Hv U.
  - destruct P1 as [<-|[<-|[]]].
    + between SYS_getsockopt (call6 SYS_getsockopt 0 1 3 0 0 0) (call6 SYS_getsockopt 0 1 99 0 0 0) H Hv U.
    + between SYS_getsockopt (call6 SYS_getsockopt 0 1 3 0 0 0) (call6 SYS_getsockopt 0 1 99 0 0 0) H Hv U.
Qed.

(** * C111 *)
Lemma c111 : forall prof pid tid ps v prog nr i,
  filter_for prof pid tid ps v prog -> enforcing v -> pid < 2 ^ 32 -> (2 <= i)%nat ->
  (matters prog nr i <->
   exists needs unless, In (nr, i, needs, unless) inspected_words /\
     (exists p, In p needs /\ In p ps) /\ (forall p, In p unless -> ~ In p ps)).
Proof.
  intros prof pid tid ps v prog nr i H Hv Hp Hi. split.
  - apply (matters_forward _ _ _ _ _ _ _ _ H Hv Hi).
  - apply (matters_backward _ _ _ _ _ _ _ _ H Hv Hp).
Qed.

(** The words in the table decide together. *)
Lemma granted_words : forall ps pid tid d d', native d -> native d' -> sd_nr d' = sd_nr d ->
  (forall i, inspects ps (sd_nr d) i -> nth i (sd_words d) 0 = nth i (sd_words d') 0) ->
  granted ps pid tid d -> granted ps pid tid d'.
Proof.
  intros ps pid tid d d' Hd Hd' Hn' E G. remember (sd_nr d) as nr eqn:Hn. symmetry in Hn.
  pose proof G as G0. destruct G as (alts & r & who & p & P1 & P2 & P3 & P4 & P5).
  assert (Same : (forall i, In i (rule_words r) -> nth i (sd_words d) 0 = nth i (sd_words d') 0) ->
    granted ps pid tid d').
  { intros A. exists alts, r, who, p. rewrite Hn', <- Hn. refine (conj P1 (conj P2 (conj P3 (conj P4 _)))).
    exact (args_ok_words r pid tid d d' (proj1 Hd) (proj1 Hd') A P5). }
  assert (Rdec : r = AnyArgs \/ r <> AnyArgs) by (destruct r; (left; reflexivity) || (right; discriminate)).
  destruct Rdec as [->|Rn]; [apply Same; intros i []|].
  rewrite Hn in P1. pose proof (conditional_in _ _ _ _ P1 P2 Rn) as Hc.
  assert (Hp : In p ps).
  { destruct P4 as [->|P4]; [|exact P4]. exfalso.
    pose proof no_default_true as Q. unfold no_default in Q. rewrite forallb_forall in Q. specialize (Q _ Hc).
    cbn [snd] in Q. apply negb_true_iff in Q. assert (Q' : existsb (promiseb Default) who = true).
    { apply existsb_exists. exists Default. split; [exact P3|]. apply promiseb_eq. reflexivity. }
    congruence. }
  assert (D : forall i, In i (rule_words r) -> exists needs unless,
    In (nr, i, needs, unless) inspected_words /\ In p needs).
  { intros i Ir. pose proof covered_true as Q. unfold covered in Q. rewrite forallb_forall in Q.
    specialize (Q _ Hc). cbn [fst snd] in Q. rewrite forallb_forall in Q. specialize (Q _ Ir).
    destruct (entry_for nr i) as [[needs unless]|] eqn:En; [|discriminate Q].
    rewrite forallb_forall in Q. specialize (Q _ P3). apply existsb_exists in Q. destruct Q as (q & Q1 & Q2).
    apply promiseb_eq in Q2. subst q. exists needs, unless. split; [apply entry_for_in; exact En|exact Q1]. }
  destruct (existsb (fun e => (fst (fst (fst e)) =? nr) &&
      existsb (fun q => if in_dec promise_eq_dec q ps then true else false) (snd e)) inspected_words) eqn:X.
  - apply existsb_exists in X. destruct X as ([[[n j] needs] unless] & X1 & X2). cbn [fst snd] in X2.
    apply andb_true_iff in X2. destruct X2 as [X2 X3]. apply N.eqb_eq in X2. subst n.
    apply existsb_exists in X3. destruct X3 as (q & Hq & Hqs). destruct (in_dec promise_eq_dec q ps); [|discriminate].
    clear Hqs. rename i into Hqs. clear Same D Hc P1 P2 P3 P4.
    assert (X : In (nr, j, needs, unless) (filter (fun e => match snd e with [] => false | _ => true end) inspected_words)).
    { apply filter_In. split; [exact X1|]. cbn [snd]. destruct unless; [destruct Hq|reflexivity]. }
    clear X1. cbn [filter inspected_words snd] in X. cbn [In] in X.
    repeat (destruct X as [X|X]); try contradiction; injection X as <- <- <- <-; cbn [In] in Hq.
    + row SYS_mmap R. apply (R _ _ _ _ Hn'). apply (R _ _ _ _ Hn) in G0. unpromise.
      destruct Hq as [<-|[]]. right. left.
      assert (A : args_ok MapAny pid tid d).
      { cbn [args_ok]. destruct G0 as [[_ [_ A]]|[[_ A]|[]]]; [|exact A]. unfold clear in *.
        change (MAP_LOCKED + MAP_POPULATE + MAP_NONBLOCK + MAP_HUGETLB) with
          (N.lor (MAP_LOCKED + MAP_NONBLOCK + MAP_HUGETLB) MAP_POPULATE) in A.
        rewrite N.land_lor_distr_r in A. apply N.lor_eq_0_iff in A. apply A. }
      split; [left; exact Hqs|]. apply (args_ok_words MapAny pid tid d d' (proj1 Hd) (proj1 Hd')); [|exact A].
      intros j [<-|[]]. apply E. exists [StdIO; ProtExec], []. split; [unfold inspected_words; cbn [In]; tauto|].
      split; [exists ProtExec; cbn [In]; auto|intros q []].
    + row SYS_mprotect R. apply (R _ _ _ _ Hn'). unpromise. destruct Hq as [<-|[]]. tauto.
    + row SYS_kill R. apply (R _ _ _ _ Hn'). unpromise. destruct Hq as [<-|[]]. tauto.
    + row SYS_tkill R. apply (R _ _ _ _ Hn'). unpromise. destruct Hq as [<-|[]]. tauto.
    + row SYS_prlimit64 R. apply (R _ _ _ _ Hn'). unpromise. destruct Hq as [<-|[<-|[]]]; tauto.
    + row SYS_sendto R. apply (R _ _ _ _ Hn'). unpromise. destruct Hq as [<-|[<-|[<-|[]]]]; tauto.
    + row SYS_sendto R. apply (R _ _ _ _ Hn'). unpromise. destruct Hq as [<-|[<-|[<-|[]]]]; tauto.
  - apply Same. intros i Hi. apply E. destruct (D i Hi) as (needs & unless & D1 & D2).
    exists needs, unless. split; [exact D1|]. split; [exists p; auto|]. intros q Hq Hqs.
    assert (Y : existsb (fun e => (fst (fst (fst e)) =? nr) &&
      existsb (fun q => if in_dec promise_eq_dec q ps then true else false) (snd e)) inspected_words = true).
    { apply existsb_exists. exists (nr, i, needs, unless). split; [exact D1|]. cbn [fst snd].
      rewrite N.eqb_refl. apply existsb_exists. exists q. split; [exact Hq|].
      destruct (in_dec promise_eq_dec q ps); [reflexivity|contradiction]. }
    congruence.
Qed.
Lemma c111_together : forall prof pid tid ps v prog d d',
  filter_for prof pid tid ps v prog -> native d -> native d' -> sd_nr d = sd_nr d' ->
  (forall i needs unless, In (sd_nr d, i, needs, unless) inspected_words ->
     (exists p, In p needs /\ In p ps) -> (forall p, In p unless -> ~ In p ps) ->
     nth i (sd_words d) 0 = nth i (sd_words d') 0) ->
  kernel_eval prog d = kernel_eval prog d'.
Proof.
  intros prof pid tid ps v prog d d' H Hd Hd' Hn E.
  destruct (verdict _ _ _ _ _ _ _ H Hd) as [V1 V2]. destruct (verdict _ _ _ _ _ _ _ H Hd') as [V1' V2'].
  assert (E' : forall i, inspects ps (sd_nr d) i -> nth i (sd_words d) 0 = nth i (sd_words d') 0).
  { intros i (needs & unless & A & B & C). exact (E i needs unless A B C). }
  destruct (granted_dec ps pid tid d (proj1 Hd)) as [G|G].
  - rewrite (V1 G), V1'; [reflexivity|].
    exact (granted_words _ _ _ _ _ Hd Hd' (eq_sym Hn) E' G).
  - rewrite (V2 G), V2'; [reflexivity|]. intros G'. apply G.
    refine (granted_words _ _ _ _ _ Hd' Hd Hn _ G'). rewrite <- Hn. intros i A. symmetry. exact (E' i A).
Qed.
