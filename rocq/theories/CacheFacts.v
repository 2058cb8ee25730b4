(** The kernel's action cache and pledges (C125). *)
From Coq Require Import NArith ZArith String List Bool Lia.
From Verif Require Import Libc Machine Bpf SeccompRet Asm Vm Promises Filters Kernel World Spec FragProofs
  PolicyProofs CodeProofs CostFacts KernelCache CacheSpec.
Import ListNotations.
Local Open Scope N_scope.

(** * The cache changes nothing *)

Lemma const_keval : forall prog skip reg nr arch x mem words,
  nth 0 words 0 = nr -> nth 1 words 0 = arch ->
  const_allow prog skip reg nr arch = true -> keval prog skip reg x mem words = 0x7fff0000.
Proof.
  intros prog. induction prog as [|f prog IH]; intros skip reg nr arch x mem words Wn Wa H; [discriminate|].
  cbn [const_allow keval] in *. destruct (negb (skip =? 0)); [eapply IH; eassumption|].
  destruct f as [code jt jf k]. cbn [sf_code sf_k sf_jt sf_jf] in *.
  destruct (N.eqb_spec code 0x20) as [->|_].
  { cbn [kdecode]. destruct (N.eqb_spec k 0) as [->|]; [change (N.to_nat (0 / 4)) with 0%nat; rewrite Wn; eapply IH; eassumption|].
    destruct (N.eqb_spec k 4) as [->|]; [|discriminate]. change (N.to_nat (4 / 4)) with 1%nat. rewrite Wa. eapply IH; eassumption. }
  destruct (N.eqb_spec code 0x06) as [->|_]; [apply N.eqb_eq; exact H|].
  destruct (N.eqb_spec code 0x05) as [->|_]; [eapply IH; eassumption|].
  destruct (N.eqb_spec code 0x15) as [->|_]; [eapply IH; eassumption|].
  destruct (N.eqb_spec code 0x35) as [->|_]; [eapply IH; eassumption|].
  destruct (N.eqb_spec code 0x25) as [->|_]; [eapply IH; eassumption|].
  destruct (N.eqb_spec code 0x45) as [->|_]; [eapply IH; eassumption|].
  destruct (N.eqb_spec code 0x54) as [->|_]; [eapply IH; eassumption|discriminate].
Qed.

Lemma bit_runs : forall filters d, wf_data d -> cache_bit filters (sd_nr d) (sd_arch d) = true ->
  run_filters filters d = 0x7fff0000.
Proof.
  intros filters d W. unfold run_filters. induction filters as [|f fs IH]; intros H; [reflexivity|].
  cbn [cache_bit run_filters_from] in *. apply andb_true_iff in H. destruct H as [H1 H2].
  assert (E : kernel_eval f d = 0x7fff0000).
  { unfold kernel_eval, kernel_eval_mem. destruct W as (W1 & W2 & _).
    eapply const_keval; [| |exact H2]; cbn [sd_words nth]; apply lo32_small; assumption. }
  rewrite E. exact (IH H1).
Qed.

Lemma c125 : forall maps filters d, wf_data d -> run_filters_cached maps filters d = run_filters filters d.
Proof.
  intros maps filters d W. unfold run_filters_cached, cached.
  destruct (existsb _ maps) eqn:E; [|reflexivity]. apply existsb_exists in E. destruct E as (m & _ & E).
  apply andb_true_iff in E. symmetry. apply bit_runs; tauto.
Qed.

(** * What is cached under a pledge *)

Definition plain (f : Filtered) : bool := match snd (rule_of f) with AnyArgs => true | _ => false end.

(** Past an instruction sequence that ends by loading the number again. *)
Lemma const_skip : forall c rest reg nr arch, const_allow (c ++ rest) (N.of_nat (length c)) reg nr arch = const_allow rest 0 reg nr arch.
Proof.
  induction c as [|f c IH]; intros rest reg nr arch; [reflexivity|]. cbn [app length const_allow]. rewrite Nat2N.inj_succ.
  destruct (N.eqb_spec (N.succ (N.of_nat (length c))) 0) as [E|E]; [lia|]. cbn [negb].
  replace (N.succ (N.of_nat (length c)) - 1) with (N.of_nat (length c)) by lia. apply IH.
Qed.

Lemma ca_jeq : forall jt jf k rest reg nr arch,
  const_allow (SockFilter 21 jt jf k :: rest) 0 reg nr arch = const_allow rest (if reg =? k then jt else jf) reg nr arch.
Proof. reflexivity. Qed.
Lemma ca_ret : forall jt jf k rest reg nr arch, const_allow (SockFilter 6 jt jf k :: rest) 0 reg nr arch = (k =? 0x7fff0000).
Proof. reflexivity. Qed.
Lemma ca_ld : forall jt jf k rest reg nr arch, const_allow (SockFilter 32 jt jf k :: rest) 0 reg nr arch =
  if k =? 0 then const_allow rest 0 nr nr arch else if k =? 4 then const_allow rest 0 arch nr arch else false.
Proof. reflexivity. Qed.
Lemma ca_one : forall f rest reg nr arch, const_allow (f :: rest) 1 reg nr arch = const_allow rest 0 reg nr arch.
Proof. reflexivity. Qed.

(** A rule that looks at arguments loads one first, and at its end the number again. *)
Lemma frag_loads : forall pid tid f, (exists n, f = Whitelist n) \/
  (exists jf k c, frag pid tid f = SockFilter 21 0 jf (as_u32 (fst (rule_of f))) :: SockFilter 32 0 0 k :: c /\
     jf = N.of_nat (length c) /\ k <> 0 /\ k <> 4 /\ c <> [] /\ last c (SockFilter 0 0 0 0) = SockFilter 32 0 0 0 /\ plain f = false).
Proof.
  intros pid tid f. destruct f; [left; eexists; reflexivity|right; expose_frag; eexists _, _, _;
    (split; [reflexivity|]); (split; [reflexivity|]); repeat (split; [discriminate|]); split; reflexivity..].
Qed.

Lemma frag_const : forall pid tid f rest nr arch,
  const_allow (frag pid tid f ++ rest) 0 nr nr arch =
  if nr =? as_u32 (fst (rule_of f)) then plain f else const_allow rest 0 nr nr arch.
Proof.
  intros pid tid f rest nr arch. destruct (frag_loads pid tid f) as [[n ->]|(jf & k & c & E & J & K0 & K4 & C & L & P)].
  - expose_frag. cbn [app rule_of fst]. rewrite ca_jeq. destruct (nr =? as_u32 n); [reflexivity|apply ca_one].
  - rewrite E, J. cbn [app]. rewrite ca_jeq. destruct (nr =? as_u32 (fst (rule_of f))).
    + rewrite ca_ld. apply N.eqb_neq in K0, K4. rewrite K0, K4. symmetry. exact P.
    + rewrite (app_removelast_last (SockFilter 0 0 0 0) C), L, app_length, <- app_assoc. cbn [length app].
      replace (N.of_nat (length (removelast c) + 1)) with (N.of_nat (length (SockFilter 32 0 0 k :: removelast c))) by (cbn [length]; lia).
      change (SockFilter 32 0 0 k :: removelast c ++ SockFilter 32 0 0 0 :: rest)
        with ((SockFilter 32 0 0 k :: removelast c) ++ SockFilter 32 0 0 0 :: rest).
      rewrite const_skip. reflexivity.
Qed.

Fixpoint first_plain (fs : list Filtered) (nr : N) (last : bool) : bool :=
  match fs with [] => last | f :: fs' => if nr =? as_u32 (fst (rule_of f)) then plain f else first_plain fs' nr last end.

Lemma code_const : forall pid tid fs v nr arch,
  const_allow (List.concat (map (frag pid tid) fs) ++ [SockFilter 6 0 0 (ret_into v)]) 0 nr nr arch =
  first_plain fs nr (ret_into v =? 0x7fff0000).
Proof.
  intros pid tid fs v nr arch. induction fs as [|f fs IH]; [reflexivity|]. cbn [map List.concat first_plain].
  rewrite <- app_assoc, frag_const, IH. reflexivity.
Qed.

Lemma pcode_const : forall pid tid ps v nr arch,
  const_allow (pcode pid tid ps v) 0 0 nr arch =
  (arch =? X86_64) && first_plain (all_filters ps) nr (ret_into v =? 0x7fff0000).
Proof.
  intros pid tid ps v nr arch. unfold pcode, fcode, header_code. cbn [app]. rewrite ca_ld.
  change (4 =? 0) with false. change (4 =? 4) with true. cbv iota. rewrite ca_jeq.
  destruct (arch =? X86_64).
  - rewrite ca_one, ca_ld. change (0 =? 0) with true. cbv iota. exact (code_const pid tid (all_filters ps) v nr arch).
  - apply ca_ret.
Qed.

(** No promise has two kinds of rules for a number. *)
Lemma one_kind : forallb (fun p => forallb (fun f => forallb (fun g =>
  negb (fst (rule_of f) =? fst (rule_of g)) || Bool.eqb (plain f) (plain g)) (pfilters p)) (pfilters p)) all_promises = true.
Proof. vm_compute. reflexivity. Qed.

Lemma same_kind : forall p f g, In f (pfilters p) -> In g (pfilters p) -> fst (rule_of f) = fst (rule_of g) -> plain f = plain g.
Proof.
  intros p f g Hf Hg E. pose proof one_kind as T. rewrite forallb_forall in T. specialize (T p (all_promises_complete p)).
  rewrite forallb_forall in T. specialize (T f Hf). rewrite forallb_forall in T. specialize (T g Hg).
  apply N.eqb_eq in E. rewrite E in T. apply Bool.eqb_prop. exact T.
Qed.

Lemma small_rule : forall p f, In f (pfilters p) -> fst (rule_of f) < 512.
Proof.
  intros p f Hf. pose proof table_small as T. rewrite forallb_forall in T. specialize (T p (all_promises_complete p)).
  rewrite forallb_forall in T. apply N.ltb_lt. exact (T f Hf).
Qed.

Lemma rule_listed : forall p f, In f (pfilters p) ->
  exists alts who, In (fst (rule_of f), alts) policy /\ In (snd (rule_of f), who) alts /\ In p who.
Proof.
  intros p f Hf. pose proof table_in_policy as T. rewrite forallb_forall in T. specialize (T p (all_promises_complete p)).
  rewrite forallb_forall in T. specialize (T f Hf). unfold listed in T. apply existsb_exists in T.
  destruct T as ([n alts] & I1 & T). cbn [fst snd] in T. apply andb_true_iff in T. destruct T as [E T].
  apply N.eqb_eq in E. subst n. apply existsb_exists in T. destruct T as ([r who] & I2 & T). cbn [fst snd] in T.
  apply andb_true_iff in T. destruct T as [E T]. destruct (argrule_eq_dec r (snd (rule_of f))) as [->|]; [|discriminate].
  apply existsb_exists in T. destruct T as (q & I3 & E'). apply promise_eqb_eq in E'. subst q.
  exists alts, who. exact (conj I1 (conj I2 I3)).
Qed.

Lemma listed_rule : forall p nr r alts who, In (nr, alts) policy -> In (r, who) alts -> In p who ->
  exists f, In f (pfilters p) /\ rule_of f = (nr, r).
Proof.
  intros p nr r alts who I1 I2 I3. pose proof policy_in_table as T. rewrite forallb_forall in T. specialize (T _ I1).
  rewrite forallb_forall in T. specialize (T _ I2). rewrite forallb_forall in T. specialize (T _ I3).
  apply existsb_exists in T. destruct T as (f & If & T). cbn [fst snd] in T. apply andb_true_iff in T. destruct T as [E T].
  apply N.eqb_eq in E. exists f. split; [exact If|]. destruct (rule_of f) as [a b]. cbn [fst snd] in *.
  destruct (argrule_eq_dec b r) as [->|]; [subst; reflexivity|discriminate].
Qed.

Lemma plain_any : forall f, plain f = true <-> snd (rule_of f) = AnyArgs.
Proof. intros f. unfold plain. destruct (snd (rule_of f)); split; intros H; congruence. Qed.

Lemma plain_iff : forall p nr, plain_rule p nr <-> exists f, In f (pfilters p) /\ fst (rule_of f) = nr /\ plain f = true.
Proof.
  intros p nr. split.
  - intros (alts & who & I1 & I2 & I3). destruct (listed_rule p nr AnyArgs alts who I1 I2 I3) as (f & If & E).
    exists f. split; [exact If|]. rewrite plain_any, E. split; reflexivity.
  - intros (f & If & E & P). destruct (rule_listed p f If) as (alts & who & I1 & I2 & I3).
    apply plain_any in P. rewrite P in I2. rewrite E in I1. exists alts, who. exact (conj I1 (conj I2 I3)).
Qed.

Lemma checked_iff : forall p nr, checked_rule p nr <-> exists f, In f (pfilters p) /\ fst (rule_of f) = nr /\ plain f = false.
Proof.
  intros p nr. split.
  - intros (alts & r & who & I1 & I2 & I3 & R). destruct (listed_rule p nr r alts who I1 I2 I3) as (f & If & E).
    exists f. split; [exact If|]. rewrite E. split; [reflexivity|]. destruct (plain f) eqn:P; [|reflexivity].
    apply plain_any in P. rewrite E in P. contradiction.
  - intros (f & If & E & P). destruct (rule_listed p f If) as (alts & who & I1 & I2 & I3).
    rewrite E in I1. exists alts, (snd (rule_of f)), who. refine (conj I1 (conj I2 (conj I3 _))).
    intros Q. apply plain_any in Q. congruence.
Qed.

Lemma as_small : forall n, n < 512 -> as_u32 n = n.
Proof. intros n H. apply lo32_small. eapply N.lt_trans; [exact H|reflexivity]. Qed.

(** Of the rules of one promise, the first for the number tells. *)
Lemma first_app : forall fs gs nr b, first_plain (fs ++ gs) nr b = first_plain fs nr (first_plain gs nr b).
Proof. induction fs as [|f fs IH]; intros gs nr b; [reflexivity|]. cbn [app first_plain]. rewrite IH. reflexivity. Qed.

Lemma first_none : forall fs nr b, (forall f, In f fs -> as_u32 (fst (rule_of f)) <> nr) -> first_plain fs nr b = b.
Proof.
  induction fs as [|f fs IH]; intros nr b H; [reflexivity|]. cbn [first_plain].
  destruct (N.eqb_spec nr (as_u32 (fst (rule_of f)))) as [E|_]; [destruct (H f (or_introl eq_refl)); congruence|].
  apply IH. intros g Hg. apply H. right. exact Hg.
Qed.

Lemma first_some : forall fs nr b k, (exists f, In f fs /\ as_u32 (fst (rule_of f)) = nr) ->
  (forall f, In f fs -> as_u32 (fst (rule_of f)) = nr -> plain f = k) -> first_plain fs nr b = k.
Proof.
  induction fs as [|f fs IH]; intros nr b k (g & Hg & E) H; [destruct Hg|]. cbn [first_plain].
  destruct (N.eqb_spec nr (as_u32 (fst (rule_of f)))) as [E'|N']; [apply H; [left; reflexivity|congruence]|].
  destruct Hg as [<-|Hg]; [congruence|]. apply IH; [exists g; split; assumption|].
  intros h Hh. apply H. right. exact Hh.
Qed.

Lemma promise_first : forall p nr b,
  (plain_rule p nr /\ ~ checked_rule p nr /\ first_plain (pfilters p) nr b = true) \/
  (checked_rule p nr /\ ~ plain_rule p nr /\ first_plain (pfilters p) nr b = false) \/
  (~ checked_rule p nr /\ ~ plain_rule p nr /\ first_plain (pfilters p) nr b = b).
Proof.
  intros p nr b. rewrite plain_iff, checked_iff.
  assert (S : forall f, In f (pfilters p) -> as_u32 (fst (rule_of f)) = fst (rule_of f)).
  { intros f Hf. apply as_small. exact (small_rule p f Hf). }
  assert (D : (exists f, In f (pfilters p) /\ fst (rule_of f) = nr) \/ forall f, In f (pfilters p) -> fst (rule_of f) <> nr).
  { clear S. induction (pfilters p) as [|f fs IH]; [right; intros f []|].
    destruct (N.eq_dec (fst (rule_of f)) nr) as [E|E]; [left; exists f; split; [left; reflexivity|exact E]|].
    destruct IH as [(g & Hg & Eg)|IH]; [left; exists g; split; [right; exact Hg|exact Eg]|].
    right. intros g [<-|Hg]; [exact E|exact (IH g Hg)]. }
  destruct D as [(f & Hf & E)|D].
  - assert (K : forall g, In g (pfilters p) -> as_u32 (fst (rule_of g)) = nr -> plain g = plain f).
    { intros g Hg Eg. rewrite (S g Hg) in Eg. apply (same_kind p g f Hg Hf). congruence. }
    assert (F : first_plain (pfilters p) nr b = plain f).
    { apply first_some; [exists f; split; [exact Hf|rewrite (S f Hf); exact E]|exact K]. }
    assert (K' : forall g, In g (pfilters p) -> fst (rule_of g) = nr -> plain g = plain f).
    { intros g Hg Eg. apply K; [exact Hg|]. rewrite (S g Hg). exact Eg. }
    destruct (plain f) eqn:P; [left|right; left]; (split; [exists f; auto|]); (split; [|exact F]);
      intros (g & Hg & Eg & Pg); specialize (K' g Hg Eg); congruence.
  - right. right. split; [|split].
    + intros (f & Hf & E & _). exact (D f Hf E).
    + intros (f & Hf & E & _). exact (D f Hf E).
    + apply first_none. intros f Hf. rewrite (S f Hf). exact (D f Hf).
Qed.

Lemma decides : forall ps nr, first_plain (List.concat (map pfilters ps)) nr false = true <-> number_decides ps nr.
Proof.
  induction ps as [|p ps IH]; intros nr.
  { split; [discriminate|]. intros (before & p & after & E & _). destruct before; discriminate. }
  cbn [map List.concat]. rewrite first_app.
  destruct (promise_first p nr (first_plain (List.concat (map pfilters ps)) nr false)) as [(A & B & ->)|[(A & B & ->)|(A & B & ->)]].
  - split; [|reflexivity]. intros _. exists [], p, ps. split; [reflexivity|]. split; [exact A|intros q []].
  - split; [discriminate|]. intros ([|q before] & r & after & E & R & N).
    + injection E as <- _. contradiction.
    + injection E as <- _. destruct (N p (or_introl eq_refl) A).
  - rewrite IH. split.
    + intros (before & r & after & -> & R & N). exists (p :: before), r, after. split; [reflexivity|]. split; [exact R|].
      intros q [<-|Hq]; [exact A|exact (N q Hq)].
    + intros ([|q before] & r & after & E & R & N).
      * injection E as <- _. contradiction.
      * injection E as <- ->. exists before, r, after. split; [reflexivity|]. split; [exact R|].
        intros q Hq. apply N. right. exact Hq.
Qed.

Lemma c125_pledge : forall prof pid tid ps v prog older nr arch,
  filter_for prof pid tid ps v prog -> small_payload v -> v <> Allow ->
  (cache_bit (prog :: older) nr arch = true <->
   cache_bit older nr arch = true /\ arch = X86_64 /\ number_decides (Default :: ps) nr).
Proof.
  intros prof pid tid ps v prog older nr arch F P V. apply filter_for_pcode in F. subst prog.
  cbn [cache_bit]. rewrite pcode_const.
  assert (R : (ret_into v =? 0x7fff0000) = false).
  { apply N.eqb_neq. intros E. apply V. pose proof (c13_forward v P) as A. rewrite E in A.
    change (ret_try_from 0x7fff0000) with (Ok (E := bpf_error) Allow) in A. congruence. }
  rewrite R, !andb_true_iff, N.eqb_eq. unfold all_filters. rewrite <- decides. reflexivity.
Qed.

Lemma c125_granted : forall ps pid tid d, number_decides (Default :: ps) (sd_nr d) -> granted ps pid tid d.
Proof.
  intros ps pid tid d (before & p & after & E & (alts & who & I1 & I2 & I3) & _).
  exists alts, AnyArgs, who, p. refine (conj I1 (conj I2 (conj I3 (conj _ I)))).
  assert (Q : In p (Default :: ps)) by (rewrite E; apply in_or_app; right; left; reflexivity).
  destruct Q as [Q|Q]; [left; symmetry; exact Q|right; exact Q].
Qed.

(** * Which calls that are *)

Definition looked_at : list N :=
  [SYS_open; SYS_mmap; SYS_ioctl; SYS_socket; SYS_getsockopt; SYS_clone; SYS_fcntl; SYS_creat; SYS_chmod; SYS_fchmod;
   SYS_prctl; SYS_openat; SYS_fchmodat].

Lemma checked_rows : forallb (fun row => existsb (N.eqb (fst row)) (looked_at ++ [SYS_mprotect; SYS_sendto; SYS_kill; SYS_tkill; SYS_prlimit64]) ||
  forallb (fun alt => if argrule_eq_dec (fst alt) AnyArgs then true else false) (snd row)) policy = true.
Proof. vm_compute. reflexivity. Qed.

Lemma never_plain : forallb (fun row => negb (existsb (N.eqb (fst row)) looked_at) ||
  forallb (fun alt => if argrule_eq_dec (fst alt) AnyArgs then false else true) (snd row)) policy = true.
Proof. vm_compute. reflexivity. Qed.

Lemma c125_which : forall prof pid tid ps v prog d,
  filter_for prof pid tid ps v prog -> enforcing v -> native d ->
  (In (sd_nr d) [SYS_open; SYS_mmap; SYS_ioctl; SYS_socket; SYS_getsockopt; SYS_clone; SYS_fcntl; SYS_creat; SYS_chmod;
     SYS_fchmod; SYS_prctl; SYS_openat; SYS_fchmodat] -> cache_bit [prog] (sd_nr d) X86_64 = false) /\
  (~ In (sd_nr d) [SYS_open; SYS_mmap; SYS_ioctl; SYS_socket; SYS_getsockopt; SYS_clone; SYS_fcntl; SYS_creat; SYS_chmod;
     SYS_fchmod; SYS_prctl; SYS_openat; SYS_fchmodat; SYS_mprotect; SYS_sendto; SYS_kill; SYS_tkill; SYS_prlimit64] ->
   (cache_bit [prog] (sd_nr d) X86_64 = true <-> proceeds prog d)).
Proof.
  intros prof pid tid ps v prog d F V D.
  assert (C : cache_bit [prog] (sd_nr d) X86_64 = true <-> number_decides (Default :: ps) (sd_nr d)).
  { rewrite (c125_pledge _ _ _ _ _ _ [] (sd_nr d) X86_64 F (proj1 V) (proj1 (proj2 V))). cbn [cache_bit]. tauto. }
  split; intros L.
  - destruct (cache_bit [prog] (sd_nr d) X86_64); [|reflexivity]. exfalso.
    destruct (proj1 C eq_refl) as (before & p & after & _ & (alts & who & I1 & I2 & _) & _).
    pose proof never_plain as T. rewrite forallb_forall in T. specialize (T _ I1). cbn [fst snd] in T.
    apply orb_true_iff in T. destruct T as [T|T].
    + apply negb_true_iff in T. assert (E : existsb (N.eqb (sd_nr d)) looked_at = true); [|congruence].
      apply existsb_exists. exists (sd_nr d). split; [exact L|apply N.eqb_refl].
    + rewrite forallb_forall in T. specialize (T _ I2). discriminate.
  - rewrite C, (proceeds_iff _ _ _ _ _ _ _ F V D). split; [apply c125_granted|].
    assert (P : forall alts r who, In (sd_nr d, alts) policy -> In (r, who) alts -> r = AnyArgs).
    { intros alts r who I1 I2. pose proof checked_rows as T. rewrite forallb_forall in T. specialize (T _ I1).
      cbn [fst snd] in T. apply orb_true_iff in T. destruct T as [T|T].
      - apply existsb_exists in T. destruct T as (n & In_ & E). apply N.eqb_eq in E. subst n. destruct (L In_).
      - rewrite forallb_forall in T. specialize (T _ I2). cbn [fst] in T. destruct (argrule_eq_dec r AnyArgs); [assumption|discriminate]. }
    intros (alts & r & who & p & I1 & I2 & I3 & Q & _).
    assert (Q' : In p (Default :: ps)) by (destruct Q as [->|Q]; [left; reflexivity|right; exact Q]).
    destruct (in_split _ _ Q') as (before & after & E). exists before, p, after. split; [exact E|]. split.
    + exists alts, who. rewrite (P alts r who I1 I2) in I2. exact (conj I1 (conj I2 I3)).
    + intros q _ (alts' & r' & who' & J1 & J2 & _ & J4). exact (J4 (P alts' r' who' J1 J2)).
Qed.

(** * The best order *)

Lemma only_stdio_checks : forallb (fun p => forallb (fun f => negb (plain f) || forallb (fun q => forallb (fun g =>
  negb (fst (rule_of f) =? fst (rule_of g)) || plain g || promise_eqb q StdIO) (pfilters q)) all_promises) (pfilters p)) all_promises = true.
Proof. vm_compute. reflexivity. Qed.

Lemma checks_stdio : forall p q nr, plain_rule p nr -> checked_rule q nr -> q = StdIO.
Proof.
  intros p q nr P Q. apply plain_iff in P. apply checked_iff in Q. destruct P as (f & If & Ef & Pf), Q as (g & Ig & Eg & Pg).
  pose proof only_stdio_checks as T. rewrite forallb_forall in T. specialize (T p (all_promises_complete p)).
  rewrite forallb_forall in T. specialize (T f If). rewrite Pf in T. cbn [negb orb] in T. rewrite forallb_forall in T.
  specialize (T q (all_promises_complete q)). rewrite forallb_forall in T. specialize (T g Ig).
  rewrite Ef, Eg, N.eqb_refl, Pg in T. apply promise_eqb_eq. exact T.
Qed.

Lemma not_both : forall p nr, plain_rule p nr -> checked_rule p nr -> False.
Proof.
  intros p nr P Q. apply plain_iff in P. apply checked_iff in Q. destruct P as (f & If & Ef & Pf), Q as (g & Ig & Eg & Pg).
  assert (plain f = plain g) by (apply (same_kind p f g If Ig); congruence). congruence.
Qed.

Lemma c125_best : forall ps nr,
  (forall before p after, ps = before ++ p :: after -> In StdIO before -> p = StdIO) ->
  (number_decides (Default :: ps) nr <-> exists p, In p (Default :: ps) /\ plain_rule p nr).
Proof.
  intros ps nr L. split.
  - intros (before & p & after & E & P & _). exists p. split; [|exact P]. rewrite E. apply in_or_app. right. left. reflexivity.
  - intros (p & I & P). destruct (in_split _ _ I) as (before & after & E). exists before, p, after. split; [exact E|]. split; [exact P|].
    intros q Hq C. assert (q = StdIO) by exact (checks_stdio p q nr P C). subst q.
    destruct before as [|b before]; [destruct Hq|]. injection E as <- E.
    destruct Hq as [Hq|Hq]; [discriminate|]. assert (p = StdIO) by exact (L before p after E Hq). subst p.
    exact (not_both StdIO nr P C).
Qed.
