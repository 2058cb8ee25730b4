(** Proofs of C50-C52: assembled programs in the kernel, width of what compile() emits, linking
    separately assembled programs. *)
From Coq Require Import NArith ZArith String List Bool Lia.
From Verif Require Import Libc Machine Bpf SeccompRet Asm Vm Promises Filters Kernel World Testkit Spec
  FragProofs VmProofs KernelVmProofs AsmProofs.
Import ListNotations.
Local Open Scope N_scope.

(** * What every emitted instruction satisfies *)
Lemma mapM_Forall : forall E A B (f : A -> res E B) (P : A -> Prop) (Q : B -> Prop) l r,
  (forall a b, P a -> f a = Ok b -> Q b) -> Forall P l -> mapM f l = Ok r -> Forall Q r.
Proof.
  intros E A B f P Q. induction l as [|a l IH]; intros r H F M; cbn [mapM] in M.
  - injection M as <-. constructor.
  - inversion F as [|? ? F1 F2]; subst. destruct (f a) as [b| | |] eqn:Ea; cbn [bind] in M; try discriminate.
    destruct (mapM f l) as [bs| | |] eqn:El; cbn [bind] in M; try discriminate. injection M as <-.
    constructor; [exact (H a b F1 Ea)|exact (IH bs H F2 eq_refl)].
Qed.
Lemma enumerate_Forall : forall A (P : A -> Prop) l n,
  Forall P l -> Forall (fun p => P (snd p)) (enumerate n l).
Proof.
  induction l as [|a l IH]; intros n F; cbn [enumerate]; [constructor|].
  inversion F; subst. constructor; [assumption|apply IH; assumption].
Qed.
Lemma Forall_strip : forall P prog, Forall P prog -> Forall P (strip prog).
Proof.
  intros P prog F. unfold strip. induction F as [|op prog H F IH]; [constructor|].
  cbn [filter]. destruct (negb (is_label op)); [constructor; assumption|assumption].
Qed.
Lemma compile_Forall : forall prof prog code (P : Operation -> Prop) (Q : sock_filter -> Prop),
  (forall n op f, P op -> to_sock_filter prof n op (map_labels prog) = Ok f -> Q f) ->
  Forall P prog -> compile prof prog = Ok code -> Forall Q code.
Proof.
  intros prof prog code P Q H F C. unfold compile in C.
  apply (mapM_Forall _ _ _ _ (fun p => P (snd p)) Q _ _) in C; [exact C| |].
  - intros [n op] f Hp Hf. exact (H n op f Hp Hf).
  - apply enumerate_Forall. exact (Forall_strip _ _ F).
Qed.

(** * C51 *)
Lemma jmp_calc_code : forall prof labels lo n op f,
  (v <- jmp_calc prof labels lo n ;; Ok (bpf_jmp JA (as_u32 v) 0 0)) = Ok f -> op = f ->
  sf_code f = 5 /\ sf_jt f = 0 /\ sf_jf f = 0 /\ word (sf_k f).
Proof.
  intros prof labels lo n op f H _. destruct (jmp_calc _ _ _ _); cbn [bind] in H; try discriminate.
  injection H as <-. cbn [sf_code sf_jt sf_jf sf_k bpf_jmp]. repeat split.
  unfold as_u32, word. apply N.mod_lt. discriminate.
Qed.

Lemma c51 : forall prof prog code,
  Forall word_token prog -> compile prof prog = Ok code -> Forall wf_insn code.
Proof.
  intros prof prog code W C. refine (compile_Forall _ _ _ word_token wf_insn _ W C).
  intros n op f Hw Hf. unfold wf_insn.
  destruct op as [l|m v|m v|m v|m v|o s v|s v|l|o k lt lf]; cbn [to_sock_filter word_token] in *.
  - discriminate.
  - injection Hf as <-. destruct m; repeat split; try reflexivity; exact Hw.
  - injection Hf as <-. destruct m; repeat split; try reflexivity; exact Hw.
  - injection Hf as <-. destruct m; repeat split; try reflexivity; exact Hw.
  - injection Hf as <-. destruct m; repeat split; try reflexivity; exact Hw.
  - injection Hf as <-. destruct o, s; repeat split; try reflexivity; exact Hw.
  - injection Hf as <-. destruct s; repeat split; try reflexivity; exact Hw.
  - destruct (jmp_calc_code _ _ _ _ f f Hf eq_refl) as (A & B & D & K). rewrite A, B, D.
    repeat split; try reflexivity. exact K.
  - destruct (jmp_calc prof (map_labels prog) lt n); cbn [bind] in Hf; try discriminate.
    destruct (jmp_calc prof (map_labels prog) lf n); cbn [bind] in Hf; try discriminate.
    injection Hf as <-. cbn [sf_code sf_jt sf_jf sf_k bpf_jmp].
    repeat split; try exact Hw; apply N.mod_lt; discriminate.
Qed.

(** The build profile never changes the code: a build with overflow checks produces the same
    instructions or panics. *)
Lemma sub_debug : forall m a b, sub_mod (E := bpf_error) m Debug a b = Panic \/
  sub_mod (E := bpf_error) m Debug a b = sub_mod m Release a b.
Proof. intros m a b. unfold sub_mod. destruct (b <=? a); [right|left]; reflexivity. Qed.
Lemma jmp_calc_debug : forall labels lo n, jmp_calc Debug labels lo n = Panic \/
  jmp_calc Debug labels lo n = jmp_calc Release labels lo n.
Proof.
  intros labels [l|] n; cbn [jmp_calc]; [|right; reflexivity].
  destruct (lm_get labels l) as [off|]; [|right; reflexivity]. unfold sub_usize.
  destruct (sub_debug usize_mod off n) as [->| ->]; [left; reflexivity|].
  destruct (sub_mod usize_mod Release off n) as [d| | |]; cbn [bind]; try (right; reflexivity).
  apply sub_debug.
Qed.
Lemma to_sock_filter_debug : forall labels n op, to_sock_filter Debug n op labels = Panic \/
  to_sock_filter Debug n op labels = to_sock_filter Release n op labels.
Proof.
  intros labels n op. destruct op as [l|m v|m v|m v|m v|o s v|s v|l|o k lt lf];
    cbn [to_sock_filter]; try (right; reflexivity).
  - destruct (jmp_calc_debug labels (Some l) n) as [->| ->]; [left|right]; reflexivity.
  - destruct (jmp_calc_debug labels lt n) as [->| ->]; [left; reflexivity|].
    destruct (jmp_calc Release labels lt n); cbn [bind]; try (right; reflexivity).
    destruct (jmp_calc_debug labels lf n) as [->| ->]; [left|right]; reflexivity.
Qed.
Lemma mapM_debug : forall E A B (f g : A -> res E B) l,
  (forall a, f a = Panic \/ f a = g a) -> mapM f l = Panic \/ mapM f l = mapM g l.
Proof.
  intros E A B f g l H. induction l as [|a l IH]; [right; reflexivity|]. cbn [mapM].
  destruct (H a) as [->| ->]; [left; reflexivity|].
  destruct (g a); cbn [bind]; try (right; reflexivity).
  destruct IH as [->| ->]; [left|right]; reflexivity.
Qed.
Lemma c51_profiles : forall prog,
  compile Debug prog = Panic \/ compile Debug prog = compile Release prog.
Proof.
  intros prog. unfold compile. apply mapM_debug. intros [n op]. apply to_sock_filter_debug.
Qed.

(** * C50 *)
Lemma well_formed_Forall : forall prog, well_formed prog -> Forall encodable prog.
Proof.
  intros prog W. apply Forall_forall. intros op Hin. apply in_split in Hin.
  destruct Hin as [pre [post E]]. exact (proj1 (W pre op post E)).
Qed.

Lemma emitted_subset : forall prof n op labels f,
  encodable op -> to_sock_filter prof n op labels = Ok f -> vm_subset f.
Proof.
  intros prof n op labels f He Hf. unfold vm_subset.
  destruct op as [l|m v|m v|m v|m v|o s v|s v|l|o k lt lf]; cbn [to_sock_filter encodable] in *.
  - discriminate.
  - injection Hf as <-. destruct m; exact I.
  - injection Hf as <-. destruct m; exact I.
  - injection Hf as <-. destruct m; exact I.
  - injection Hf as <-. destruct m; exact I.
  - injection Hf as <-. destruct o, s; try contradiction; exact I.
  - injection Hf as <-. destruct s; exact I.
  - destruct (jmp_calc_code _ _ _ _ f f Hf eq_refl) as (A & _). rewrite A. exact I.
  - destruct (jmp_calc prof labels lt n); cbn [bind] in Hf; try discriminate.
    destruct (jmp_calc prof labels lf n); cbn [bind] in Hf; try discriminate.
    injection Hf as <-. destruct o; exact I.
Qed.
Lemma emitted_divides : forall prof n op labels f,
  encodable op -> (forall v, op <> Alu DIV Idx v) -> to_sock_filter prof n op labels = Ok f ->
  ~ divides_by_index f.
Proof.
  intros prof n op labels f He Hd Hf D. unfold divides_by_index in D.
  destruct op as [l|m v|m v|m v|m v|o s v|s v|l|o k lt lf]; cbn [to_sock_filter encodable] in *.
  - discriminate.
  - injection Hf as <-. destruct m; discriminate D.
  - injection Hf as <-. destruct m; discriminate D.
  - injection Hf as <-. destruct m; discriminate D.
  - injection Hf as <-. destruct m; discriminate D.
  - injection Hf as <-. destruct o, s; try contradiction; try discriminate D.
    exact (Hd v eq_refl).
  - injection Hf as <-. destruct s; discriminate D.
  - destruct (jmp_calc_code _ _ _ _ f f Hf eq_refl) as (A & _). rewrite A in D. discriminate D.
  - destruct (jmp_calc prof labels lt n); cbn [bind] in Hf; try discriminate.
    destruct (jmp_calc prof labels lf n); cbn [bind] in Hf; try discriminate.
    injection Hf as <-. destruct o; discriminate D.
Qed.

Lemma c50_exact : forall prof prog code d beyond mem,
  well_formed prog -> Forall word_token prog -> (forall v, ~ In (Alu DIV Idx v) prog) ->
  compile prof prog = Ok code -> kernel_accepts code = true ->
  length beyond = 48%nat -> words beyond -> length mem = 16%nat ->
  interp Release prog None t_zero (any_to_data d beyond) = Ok (kernel_eval_mem mem code d).
Proof.
  intros prof prog code d beyond mem W Ww Nd C K Lb Wb Lm.
  assert (CR : compile Release prog = Ok code).
  { destruct prof; [|exact C]. destruct (c51_profiles prog) as [P|P]; congruence. }
  destruct (c01 Release prog W) as [code' [C' R]].
  assert (code' = code) by congruence. subst code'.
  pose proof (well_formed_Forall _ W) as We.
  assert (S : Forall vm_subset code).
  { refine (compile_Forall _ _ _ encodable _ _ We CR). intros. eapply emitted_subset; eassumption. }
  assert (D : Forall (fun f => ~ divides_by_index f) code).
  { refine (compile_Forall _ _ _ (fun op => encodable op /\ forall v, op <> Alu DIV Idx v) _ _ _ CR).
    - intros n op f [A B] E. exact (emitted_divides _ _ _ _ _ A B E).
    - apply Forall_forall. intros op Hin. split; [exact (proj1 (Forall_forall _ _) We op Hin)|].
      intros v E. subst op. exact (Nd v Hin). }
  destruct (vm_new code) as [vm| | |] eqn:V; try (unfold vm_new in V; destruct (_ <? _) in V; discriminate).
  2: { unfold vm_new in V. destruct (N.ltb_spec 65535 (N.of_nat (length code))) as [L|L]; [|discriminate].
       unfold kernel_accepts in K. rewrite !andb_true_iff in K. destruct K as [[[[_ K] _] _] _].
       apply N.leb_le in K. unfold BPF_MAXINSNS in K. lia. }
  assert (Hv : vm_prog vm = code).
  { unfold vm_new in V. destruct (_ <? _) in V; [discriminate|]. injection V as <-. reflexivity. }
  pose proof (R vm (any_to_data d beyond) Hv) as R1.
  rewrite (c10_release code vm d beyond mem K (c51 _ _ _ Ww CR) S) in R1;
    try assumption.
  - congruence.
  - intros X. apply Exists_exists in X. destruct X as [f [Hin Hf]].
    exact (proj1 (Forall_forall _ _) D f Hin Hf).
Qed.

(** With divisions by X, in both profiles. *)
Definition div_idx (op : Operation) : bool :=
  match op with Alu DIV Idx _ => true | _ => false end.
Lemma c50 : forall prof prog code d beyond mem,
  well_formed prog -> Forall word_token prog ->
  compile prof prog = Ok code -> kernel_accepts code = true ->
  length beyond = 48%nat -> words beyond -> length mem = 16%nat ->
  match interp prof prog None t_zero (any_to_data d beyond) with
  | Ok v => kernel_eval_mem mem code d = v
  | Panic => prof = Debug \/ (kernel_eval_mem mem code d = 0 /\ exists v, In (Alu DIV Idx v) prog)
  | Err _ | Died _ => False
  end.
Proof.
  intros prof prog code d beyond mem W Ww C K Lb Wb Lm.
  destruct (c01 prof prog W) as [code' [C' R]].
  assert (code' = code) by congruence. subst code'.
  pose proof (well_formed_Forall _ W) as We.
  assert (S : Forall vm_subset code).
  { refine (compile_Forall _ _ _ encodable _ _ We C). intros. eapply emitted_subset; eassumption. }
  destruct (vm_new code) as [vm| | |] eqn:V; try (unfold vm_new in V; destruct (_ <? _) in V; discriminate).
  2: { unfold vm_new in V. destruct (N.ltb_spec 65535 (N.of_nat (length code))) as [L|L]; [|discriminate].
       unfold kernel_accepts in K. rewrite !andb_true_iff in K. destruct K as [[[[_ K] _] _] _].
       apply N.leb_le in K. unfold BPF_MAXINSNS in K. lia. }
  assert (Hv : vm_prog vm = code).
  { unfold vm_new in V. destruct (_ <? _) in V; [discriminate|]. injection V as <-. reflexivity. }
  pose proof (R vm (any_to_data d beyond) Hv) as R1.
  destruct (c10 prof code vm d beyond mem K (c51 _ _ _ Ww C) S Hv Lb Wb Lm) as [r [E M]].
  rewrite E in R1. injection R1 as <-. destruct r as [v|e| |dd]; try exact M.
  destruct M as [M|[M X]]; [left; exact M|right]. split; [exact M|].
  destruct (existsb div_idx prog) eqn:B.
  - apply existsb_exists in B. destruct B as (op & I & B).
    destruct op as [| | | | |a src v| | |]; try discriminate. destruct a, src; try discriminate. eauto.
  - exfalso. apply Exists_exists in X. destruct X as [f [Hin Hf]].
    assert (D : Forall (fun f => ~ divides_by_index f) code).
    { refine (compile_Forall _ _ _ (fun op => encodable op /\ forall v, op <> Alu DIV Idx v) _ _ _ C).
      - intros n op g [A B1] E1. exact (emitted_divides _ _ _ _ _ A B1 E1).
      - apply Forall_forall. intros op I. split; [exact (proj1 (Forall_forall _ _) We op I)|].
        intros v ->. assert (Y : existsb div_idx prog = true) by (apply existsb_exists; eauto). congruence. }
    exact (proj1 (Forall_forall _ _) D f Hin Hf).
Qed.

(** * C52 *)
Lemma jmp_calc_link_left : forall prof p q l n, ~ In (Label l) q ->
  jmp_calc prof (map_labels (p ++ q)) (Some l) n = jmp_calc prof (map_labels p) (Some l) n.
Proof.
  intros prof p q l n H. cbn [jmp_calc]. rewrite !map_labels_get, distance_app.
  apply distance_None in H. rewrite H. reflexivity.
Qed.
Lemma sub_shift : forall m prof k a b,
  sub_mod (E := bpf_error) m prof (k + a) (k + b) = sub_mod m prof a b.
Proof.
  intros m prof k a b. unfold sub_mod.
  destruct (N.leb_spec (k + b) (k + a)) as [L|L], (N.leb_spec b a) as [L'|L']; try lia.
  - f_equal. lia.
  - destruct prof; [reflexivity|]. do 2 f_equal. lia.
Qed.
Lemma jmp_calc_link_right : forall prof p q l n, In (Label l) q \/ ~ In (Label l) p ->
  jmp_calc prof (map_labels (p ++ q)) (Some l) (instructions p + n)
  = jmp_calc prof (map_labels q) (Some l) n.
Proof.
  intros prof p q l n H. cbn [jmp_calc]. rewrite !map_labels_get, distance_app.
  destruct (distance l q) as [k|] eqn:E.
  - unfold sub_usize. rewrite sub_shift. reflexivity.
  - apply distance_None in E. destruct H as [H|H]; [contradiction|].
    apply distance_None in H. rewrite H. reflexivity.
Qed.

Lemma mapM_app : forall E A B (f : A -> res E B) l1 l2,
  mapM f (l1 ++ l2) = (a <- mapM f l1 ;; b <- mapM f l2 ;; Ok (a ++ b)).
Proof.
  intros E A B f. induction l1 as [|x l1 IH]; intros l2; cbn [app mapM bind].
  - destruct (mapM f l2); reflexivity.
  - destruct (f x); cbn [bind]; try reflexivity. rewrite IH.
    destruct (mapM f l1); cbn [bind]; try reflexivity. destruct (mapM f l2); reflexivity.
Qed.
Lemma enumerate_app : forall A (l1 l2 : list A) n,
  enumerate n (l1 ++ l2) = enumerate n l1 ++ enumerate (n + N.of_nat (length l1)) l2.
Proof.
  induction l1 as [|a l1 IH]; intros l2 n; cbn [app enumerate length].
  - replace (n + N.of_nat 0) with n by lia. reflexivity.
  - rewrite IH. do 2 f_equal. f_equal. lia.
Qed.
Lemma mapM_enum_ext : forall E A B (f g : N * A -> res E B) k l n,
  (forall m a, In a l -> f (k + m, a) = g (m, a)) ->
  mapM f (enumerate (k + n) l) = mapM g (enumerate n l).
Proof.
  intros E A B f g k. induction l as [|a l IH]; intros n H; [reflexivity|].
  cbn [enumerate mapM]. rewrite H by (left; reflexivity).
  replace (k + n + 1) with (k + (n + 1)) by lia. rewrite IH; [reflexivity|].
  intros. apply H. right. assumption.
Qed.

Lemma c52 : forall prof p q, linkable p q ->
  compile prof (p ++ q) = (a <- compile prof p ;; b <- compile prof q ;; Ok (a ++ b)).
Proof.
  intros prof p q [Hp Hq]. unfold compile. fold (strip p) (strip q) (strip (p ++ q)).
  assert (E : strip (p ++ q) = strip p ++ strip q) by (unfold strip; apply filter_app).
  rewrite E, enumerate_app, mapM_app, <- instructions_strip. 
  replace (0 + instructions p) with (instructions p + 0) by lia.
  assert (Ss : forall op l, In op (strip l) -> In op l).
  { intros op l H. unfold strip in H. apply filter_In in H. exact (proj1 H). }
  replace (mapM (fun p0 => to_sock_filter prof (fst p0) (snd p0) (map_labels (p ++ q))) (enumerate 0 (strip p)))
    with (mapM (fun p0 => to_sock_filter prof (fst p0) (snd p0) (map_labels p)) (enumerate 0 (strip p))).
  2: { change 0 with (0 + 0). symmetry. apply mapM_enum_ext. intros m op Hin. cbn [fst snd].
       rewrite N.add_0_l. pose proof (Hp op (Ss _ _ Hin)) as R. clear Hin.
       destruct op as [l|mo v|mo v|mo v|mo v|o s v|s v|l|o k lt lf]; try reflexivity; cbn [to_sock_filter].
       - rewrite jmp_calc_link_left by (apply R; left; reflexivity). reflexivity.
       - assert (L : forall x, x = lt \/ x = lf -> jmp_calc prof (map_labels (p ++ q)) x m
                                                   = jmp_calc prof (map_labels p) x m).
         { intros [x|] Hx; [|reflexivity]. apply jmp_calc_link_left, R.
           cbn [op_refs]. apply in_or_app.
           destruct Hx as [<-|<-]; [left|right]; left; reflexivity. }
         rewrite (L lt), (L lf) by auto. reflexivity. }
  rewrite (mapM_enum_ext _ _ _ _ (fun p0 => to_sock_filter prof (fst p0) (snd p0) (map_labels q))).
  - reflexivity.
  - intros m op Hin. cbn [fst snd]. pose proof (Hq op (Ss _ _ Hin)) as R. clear Hin.
    destruct op as [l|mo v|mo v|mo v|mo v|o s v|s v|l|o k lt lf]; try reflexivity; cbn [to_sock_filter].
    + rewrite jmp_calc_link_right by (apply R; left; reflexivity). reflexivity.
    + assert (L : forall x, x = lt \/ x = lf -> jmp_calc prof (map_labels (p ++ q)) x (instructions p + m)
                                                = jmp_calc prof (map_labels q) x m).
      { intros [x|] Hx; [|reflexivity]. apply jmp_calc_link_right, R.
        cbn [op_refs]. apply in_or_app.
        destruct Hx as [<-|<-]; [left|right]; left; reflexivity. }
      rewrite (L lt), (L lf) by auto. reflexivity.
Qed.
