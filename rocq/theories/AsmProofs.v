(** The assembler. *)
From Coq Require Import NArith ZArith String List Bool Lia.
From Verif Require Import Libc Machine Bpf SeccompRet Asm Vm Kernel Spec VmProofs.
Import ListNotations.
Local Open Scope N_scope.

(** * Labels *)

Definition strip (prog : list Operation) : list Operation :=
  filter (fun op => negb (is_label op)) prog.

Lemma instructions_strip : forall prog, instructions prog = N.of_nat (length (strip prog)).
Proof.
  intros prog. unfold instructions, strip. do 2 f_equal. apply filter_ext. intros []; reflexivity.
Qed.
Lemma instructions_app : forall p q, instructions (p ++ q) = instructions p + instructions q.
Proof. intros. unfold instructions. rewrite filter_app, app_length. lia. Qed.
Lemma instructions_cons : forall op p,
  instructions (op :: p) = (if is_label op then 0 else 1) + instructions p.
Proof. intros [] p; unfold instructions; cbn [filter length is_label]; lia. Qed.

Lemma map_labels_loop_get : forall l post line labels,
  lm_get (map_labels_loop post line labels) l =
  match distance l post with Some k => Some (line + k) | None => lm_get labels l end.
Proof.
  intros l. induction post as [|op post IH]; intros line labels; [reflexivity|].
  assert (J : lm_get (map_labels_loop post (line + 1) labels) l =
    match match distance l post with Some n => Some (n + 1) | None => None end with
    | Some k => Some (line + k) | None => lm_get labels l end).
  { rewrite IH. destruct (distance l post); [f_equal; lia|reflexivity]. }
  destruct op as [l'| | | | | | | | ]; cbn [map_labels_loop distance]; try exact J.
  rewrite IH. destruct (distance l post); [reflexivity|]. cbn [lm_insert lm_get].
  unfold lm_insert. cbn [lm_get]. destruct (String.eqb l l'); [f_equal; lia|reflexivity].
Qed.

Lemma map_labels_get : forall l prog, lm_get (map_labels prog) l = distance l prog.
Proof.
  intros. unfold map_labels. rewrite map_labels_loop_get. destruct (distance l prog); reflexivity.
Qed.

Lemma distance_app : forall l pre post,
  distance l (pre ++ post) =
  match distance l post with
  | Some k => Some (instructions pre + k)
  | None => distance l pre
  end.
Proof.
  intros l. induction pre as [|op pre IH]; intros post.
  - cbn. destruct (distance l post); [f_equal; unfold instructions; cbn; lia|reflexivity].
  - rewrite instructions_cons. destruct op as [l'| | | | | | | | ];
      cbn [app distance is_label]; rewrite IH; destruct (distance l post);
      first [f_equal; lia | reflexivity].
Qed.

Lemma distance_le : forall l prog k, distance l prog = Some k -> k <= instructions prog.
Proof.
  intros l. induction prog as [|op prog IH]; intros k H; [discriminate|].
  rewrite instructions_cons. destruct op as [l'| | | | | | | | ]; cbn [distance is_label] in *;
    destruct (distance l prog) as [n|]; try discriminate;
    try (injection H as <-; specialize (IH n eq_refl); lia).
  destruct (String.eqb l l'); [injection H as <-; lia|discriminate].
Qed.

Lemma distance_In : forall l prog, distance l prog <> None <-> In (Label l) prog.
Proof.
  intros l. induction prog as [|op prog IH]; [cbn; tauto|].
  destruct op as [l'| | | | | | | | ]; cbn [distance In];
    destruct (distance l prog) as [n|].
  all: try (assert (In (Label l) prog) by (apply IH; discriminate); split; [tauto|discriminate]).
  2-9: assert (~ In (Label l) prog) by (intros H; apply IH in H; apply H; reflexivity);
    split; [congruence|intros [H1|H1]; [discriminate|contradiction]].
  assert (~ In (Label l) prog) by (intros H; apply IH in H; apply H; reflexivity).
  destruct (String.eqb_spec l l') as [->|Hne]; split; try tauto; try discriminate.
  intros [H1|H1]; [congruence|contradiction].
Qed.
Lemma distance_None : forall l prog, distance l prog = None <-> ~ In (Label l) prog.
Proof.
  intros. rewrite <- distance_In. destruct (distance l prog); split; intros; try congruence.
  exfalso. apply H. discriminate.
Qed.

(** * Offsets *)

(** A label defined after the jump. *)
Lemma jmp_calc_forward : forall prof pre op post l k,
  is_label op = false -> distance l post = Some k ->
  jmp_calc prof (map_labels (pre ++ op :: post)) (Some l) (instructions pre) = Ok k.
Proof.
  intros prof pre op post l k Ho Hd. cbn [jmp_calc]. rewrite map_labels_get.
  replace (pre ++ op :: post) with ((pre ++ [op]) ++ post) by (rewrite <- app_assoc; reflexivity).
  rewrite distance_app, Hd, instructions_app, instructions_cons, Ho.
  replace (instructions []) with 0 by reflexivity.
  unfold sub_usize, sub_mod.
  destruct (N.leb_spec (instructions pre) (instructions pre + (1 + 0) + k)); [|lia].
  cbn [bind]. destruct (N.leb_spec 1 (instructions pre + (1 + 0) + k - instructions pre)); [|lia].
  f_equal. lia.
Qed.

(** A label defined only before it. *)
Lemma jmp_calc_backward : forall prof pre op post l,
  is_label op = false -> distance l post = None -> In (Label l) (pre ++ op :: post) ->
  jmp_calc prof (map_labels (pre ++ op :: post)) (Some l) (instructions pre) =
  match prof with
  | Debug => Panic
  | Release => jmp_calc Release (map_labels (pre ++ op :: post)) (Some l) (instructions pre)
  end /\
  exists v, jmp_calc Release (map_labels (pre ++ op :: post)) (Some l) (instructions pre) = Ok v.
Proof.
  intros prof pre op post l Ho Hd Hin. cbn [jmp_calc]. rewrite map_labels_get.
  apply distance_In in Hin.
  assert (E : distance l (pre ++ op :: post) = distance l pre).
  { rewrite distance_app. replace (distance l (op :: post)) with (@None N); [reflexivity|].
    destruct op; cbn [distance is_label] in *; try discriminate; rewrite Hd; reflexivity. }
  rewrite E in *. destruct (distance l pre) as [k|] eqn:Hk; [|congruence].
  apply distance_le in Hk. unfold sub_usize, sub_mod.
  destruct (N.leb_spec (instructions pre) k) as [L|L].
  - assert (k = instructions pre) by lia. subst k. rewrite N.sub_diag. cbn [bind].
    destruct prof; cbn; split; eauto.
  - cbn [bind]. split; [destruct prof; reflexivity|].
    destruct (1 <=? (k + usize_mod - instructions pre) mod usize_mod); cbn; eauto.
Qed.

Lemma jmp_calc_undefined : forall prof prog l n,
  ~ In (Label l) prog ->
  jmp_calc prof (map_labels prog) (Some l) n = Err (UnknownLabelReference l).
Proof.
  intros prof prog l n H. apply distance_None in H. cbn [jmp_calc]. rewrite map_labels_get, H.
  reflexivity.
Qed.

(** * C02 *)

Lemma mapM_length : forall E A B (f : A -> res E B) l r, mapM f l = Ok r -> length r = length l.
Proof.
  induction l as [|a l IH]; intros r H; cbn [mapM] in H.
  - injection H as <-. reflexivity.
  - destruct (f a); cbn [bind] in H; try discriminate.
    destruct (mapM f l); cbn [bind] in H; try discriminate. injection H as <-.
    cbn. f_equal. auto.
Qed.
Lemma enumerate_length : forall A (l : list A) n, length (enumerate n l) = length l.
Proof. induction l as [|a l IH]; intros n; cbn; auto. Qed.

Lemma c02_length : forall prof prog code,
  compile prof prog = Ok code -> N.of_nat (length code) = instructions prog.
Proof.
  intros prof prog code H. unfold compile in H. apply mapM_length in H.
  rewrite H, enumerate_length, instructions_strip. reflexivity.
Qed.

Section Rename.
Variable f : string -> string.
Hypothesis inj : forall a b, f a = f b -> a = b.

Lemma distance_rename : forall l prog, distance (f l) (map (rename_op f) prog) = distance l prog.
Proof.
  intros l. induction prog as [|op prog IH]; [reflexivity|].
  destruct op as [l'| | | | | | | | ]; cbn [map rename_op distance]; rewrite IH; try reflexivity.
  destruct (String.eqb_spec (f l) (f l')) as [E|E], (String.eqb_spec l l') as [E'|E'];
    try reflexivity; [elim E'; auto|subst; contradiction].
Qed.

Lemma jmp_calc_rename : forall prof prog lo n,
  jmp_calc prof (map_labels (map (rename_op f) prog)) (option_map f lo) n =
  map_err (rename_error f) (jmp_calc prof (map_labels prog) lo n).
Proof.
  intros prof prog [l|] n; cbn [option_map jmp_calc]; [|reflexivity].
  rewrite !map_labels_get, distance_rename. destruct (distance l prog) as [k|]; [|reflexivity].
  unfold sub_usize, sub_mod.
  destruct (n <=? k), prof; cbn; try reflexivity;
    repeat match goal with |- context [if ?b then _ else _] => destruct b end; reflexivity.
Qed.

Lemma to_sock_filter_rename : forall prof prog n op,
  to_sock_filter prof n (rename_op f op) (map_labels (map (rename_op f) prog)) =
  map_err (rename_error f) (to_sock_filter prof n op (map_labels prog)).
Proof.
  intros prof prog n op.
  destruct op as [l| | | | | | |l|o k lt lf]; cbn [rename_op to_sock_filter]; try reflexivity.
  - change (Some (f l)) with (option_map f (Some l)). rewrite jmp_calc_rename.
    destruct (jmp_calc prof (map_labels prog) (Some l) n); reflexivity.
  - rewrite !jmp_calc_rename.
    destruct (jmp_calc prof (map_labels prog) lt n); cbn [map_err bind]; try reflexivity.
    destruct (jmp_calc prof (map_labels prog) lf n); reflexivity.
Qed.

Lemma strip_rename : forall prog, strip (map (rename_op f) prog) = map (rename_op f) (strip prog).
Proof.
  unfold strip. induction prog as [|op prog IH]; [reflexivity|].
  destruct op; cbn [map filter is_label negb rename_op]; rewrite IH; reflexivity.
Qed.

Lemma mapM_rename : forall prof labels labels' ops n,
  (forall m op, to_sock_filter prof m (rename_op f op) labels' =
                map_err (rename_error f) (to_sock_filter prof m op labels)) ->
  mapM (fun p => to_sock_filter prof (fst p) (snd p) labels') (enumerate n (map (rename_op f) ops)) =
  map_err (rename_error f)
    (mapM (fun p => to_sock_filter prof (fst p) (snd p) labels) (enumerate n ops)).
Proof.
  intros prof labels labels'. induction ops as [|op ops IH]; intros n H; [reflexivity|].
  cbn [map enumerate mapM fst snd]. rewrite H.
  destruct (to_sock_filter prof n op labels); cbn [map_err bind]; try reflexivity.
  rewrite IH by exact H. destruct (mapM _ (enumerate (n + 1) ops)); reflexivity.
Qed.

Lemma compile_rename : forall prof prog,
  compile prof (map (rename_op f) prog) = map_err (rename_error f) (compile prof prog).
Proof.
  intros prof prog. unfold compile. fold (strip prog). fold (strip (map (rename_op f) prog)).
  rewrite strip_rename. apply mapM_rename. intros. apply to_sock_filter_rename.
Qed.
End Rename.

Lemma c02_rename : forall f prof prog, (forall a b, f a = f b -> a = b) ->
  compile prof (map (rename_op f) prog) = map_err (rename_error f) (compile prof prog).
Proof. intros. apply compile_rename. assumption. Qed.

(** * C03 *)

(** What the references of a program suffix make of it. *)
Inductive outcome := OAll | OUndef (l : string) | OBack.
Fixpoint scan (prof : profile) (prog : list Operation) (rs : list (string * list Operation)) : outcome :=
  match rs with
  | [] => OAll
  | (l, post) :: rs' =>
      match distance l post with
      | Some _ => scan prof prog rs'
      | None => match distance l prog with
                | None => OUndef l
                | Some _ => match prof with Debug => OBack | Release => scan prof prog rs' end
                end
      end
  end.

Definition agrees {A} (r : res bpf_error A) (o : outcome) : Prop :=
  match o with
  | OAll => exists a, r = Ok a
  | OUndef l => r = Err (UnknownLabelReference l)
  | OBack => r = Panic
  end.

Lemma jmp_calc_scan : forall prof pre op post l, is_label op = false ->
  agrees (jmp_calc prof (map_labels (pre ++ op :: post)) (Some l) (instructions pre))
         (scan prof (pre ++ op :: post) [(l, post)]).
Proof.
  intros prof pre op post l Ho. cbn [scan]. destruct (distance l post) as [k|] eqn:Hd.
  - exists k. apply jmp_calc_forward; assumption.
  - destruct (distance l (pre ++ op :: post)) as [j|] eqn:Hj.
    + assert (Hin : In (Label l) (pre ++ op :: post)) by (apply distance_In; congruence).
      destruct (jmp_calc_backward prof pre op post l Ho Hd Hin) as [E1 E2].
      destruct prof; [exact E1|exact E2].
    + apply jmp_calc_undefined. apply distance_None. exact Hj.
Qed.

Lemma scan_app : forall prof prog rs rs',
  scan prof prog (rs ++ rs') =
  match scan prof prog rs with OAll => scan prof prog rs' | o => o end.
Proof.
  intros prof prog. induction rs as [|[l post] rs IH]; intros rs'; [reflexivity|].
  cbn [app scan]. destruct (distance l post); [apply IH|].
  destruct (distance l prog); [|reflexivity]. destruct prof; [reflexivity|apply IH].
Qed.

Lemma emit_scan : forall prof pre op post, is_label op = false ->
  agrees (to_sock_filter prof (instructions pre) op (map_labels (pre ++ op :: post)))
         (scan prof (pre ++ op :: post) (map (fun l => (l, post)) (op_refs op))).
Proof.
  intros prof pre op post Ho.
  destruct op as [l| | | | | | |l|o k lt lf]; try discriminate;
    try (eexists; reflexivity).
  - pose proof (jmp_calc_scan prof pre (JumpTo l) post l Ho) as H. cbn [to_sock_filter op_refs map].
    destruct (scan prof _ [(l, post)]) as [|l'|]; cbn [agrees] in *.
    + destruct H as [a ->]. eexists. reflexivity.
    + rewrite H. reflexivity.
    + rewrite H. reflexivity.
  - cbn [to_sock_filter op_refs]. rewrite map_app, scan_app.
    set (P := pre ++ Jump o k lt lf :: post) in *.
    assert (T : forall lo, agrees (jmp_calc prof (map_labels P) lo (instructions pre))
      (scan prof P (map (fun l => (l, post)) match lo with Some l => [l] | None => [] end))).
    { intros [l|]; [apply jmp_calc_scan; exact Ho|]. eexists. reflexivity. }
    pose proof (T lt) as H1. pose proof (T lf) as H2.
    destruct (scan prof P (map _ match lt with Some l => [l] | None => [] end)) as [|l'|];
      cbn [agrees] in H1.
    + destruct H1 as [a ->]. cbn [bind].
      destruct (scan prof P (map _ match lf with Some l => [l] | None => [] end)) as [|l'|];
        cbn [agrees] in *.
      * destruct H2 as [b ->]. eexists. reflexivity.
      * rewrite H2. reflexivity.
      * rewrite H2. reflexivity.
    + cbn [agrees]. rewrite H1. reflexivity.
    + cbn [agrees]. rewrite H1. reflexivity.
Qed.

Definition emitted (prof : profile) (prog : list Operation) (n : N) (suffix : list Operation)
  : res bpf_error (list sock_filter) :=
  mapM (fun p => to_sock_filter prof (fst p) (snd p) (map_labels prog)) (enumerate n (strip suffix)).

Lemma compile_emitted : forall prof prog, compile prof prog = emitted prof prog 0 prog.
Proof. reflexivity. Qed.

Lemma emitted_cons : forall prof prog n op post, is_label op = false ->
  emitted prof prog n (op :: post) =
  (f <- to_sock_filter prof n op (map_labels prog) ;;
   rest <- emitted prof prog (n + 1) post ;; Ok (f :: rest)).
Proof.
  intros prof prog n op post H. unfold emitted, strip. cbn [filter]. rewrite H. reflexivity.
Qed.
Lemma emitted_label : forall prof prog n l post,
  emitted prof prog n (Label l :: post) = emitted prof prog n post.
Proof. reflexivity. Qed.

Lemma snoc_instructions : forall pre op, is_label op = false ->
  instructions (pre ++ [op]) = instructions pre + 1.
Proof. intros pre op H. rewrite instructions_app, instructions_cons, H. reflexivity. Qed.
Lemma snoc_label : forall pre l, instructions (pre ++ [Label l]) = instructions pre.
Proof. intros. rewrite instructions_app, instructions_cons. cbn. lia. Qed.
Lemma snoc : forall (pre : list Operation) op post, pre ++ op :: post = (pre ++ [op]) ++ post.
Proof. intros. rewrite <- app_assoc. reflexivity. Qed.

Lemma emitted_scan : forall prof post pre,
  agrees (emitted prof (pre ++ post) (instructions pre) post) (scan prof (pre ++ post) (refs post)).
Proof.
  intros prof. induction post as [|op post IH]; intros pre; [eexists; reflexivity|].
  destruct (is_label op) eqn:Ho.
  - destruct op; try discriminate. rewrite emitted_label. cbn [refs op_refs map app].
    rewrite snoc, <- (snoc_label pre l). apply IH.
  - rewrite emitted_cons by exact Ho. cbn [refs]. rewrite scan_app.
    pose proof (emit_scan prof pre op post Ho) as H1.
    specialize (IH (pre ++ [op])). rewrite snoc_instructions in IH by exact Ho. rewrite <- snoc in IH.
    destruct (scan prof (pre ++ op :: post) (map _ (op_refs op))); cbn [agrees] in H1.
    + destruct H1 as [f ->]. cbn [bind].
      destruct (scan prof (pre ++ op :: post) (refs post)); cbn [agrees] in *.
      * destruct IH as [c ->]. eexists. reflexivity.
      * rewrite IH. reflexivity.
      * rewrite IH. reflexivity.
    + cbn [agrees]. rewrite H1. reflexivity.
    + cbn [agrees]. rewrite H1. reflexivity.
Qed.

Lemma compile_scan : forall prof prog, agrees (compile prof prog) (scan prof prog (refs prog)).
Proof. intros. exact (emitted_scan prof prog []). Qed.

Lemma passable_scan1 : forall prof prog l post,
  (passable prof prog (l, post) /\ scan prof prog [(l, post)] = OAll) \/
  (~ passable prof prog (l, post) /\ ~ In (Label l) prog /\ ~ In (Label l) post /\
   scan prof prog [(l, post)] = OUndef l) \/
  (~ passable prof prog (l, post) /\ prof = Debug /\ In (Label l) prog /\ ~ In (Label l) post /\
   scan prof prog [(l, post)] = OBack).
Proof.
  intros prof prog l post. unfold passable. cbn [scan fst snd].
  destruct (distance l post) eqn:E1.
  - left. split; [left; apply distance_In; congruence|reflexivity].
  - apply distance_None in E1. destruct (distance l prog) eqn:E2.
    + assert (In (Label l) prog) by (apply distance_In; congruence). destruct prof.
      * right. right. repeat split; auto. intros [H1|[H1 _]]; [contradiction|discriminate].
      * left. split; [right; auto|reflexivity].
    + apply distance_None in E2. right. left. repeat split; auto. tauto.
Qed.

Lemma scan_first : forall prof prog rs,
  match scan prof prog rs with
  | OAll => Forall (passable prof prog) rs
  | OUndef l => exists r1 post r2, rs = r1 ++ (l, post) :: r2 /\ Forall (passable prof prog) r1 /\
                  ~ In (Label l) post /\ ~ In (Label l) prog
  | OBack => prof = Debug /\ exists r1 l post r2, rs = r1 ++ (l, post) :: r2 /\
                  Forall (passable prof prog) r1 /\ ~ In (Label l) post /\ In (Label l) prog
  end.
Proof.
  intros prof prog. induction rs as [|[l post] rs IH]; [constructor|].
  change ((l, post) :: rs) with ([(l, post)] ++ rs). rewrite scan_app.
  destruct (passable_scan1 prof prog l post) as [[P ->]|[(P & H1 & H2 & ->)|(P & Hp & H1 & H2 & ->)]].
  - destruct (scan prof prog rs).
    + constructor; assumption.
    + destruct IH as (r1 & p & r2 & -> & F & Q). exists ((l, post) :: r1), p, r2.
      split; [reflexivity|]. split; [constructor; assumption|exact Q].
    + destruct IH as (Hp & r1 & l' & p & r2 & -> & F & Q). split; [exact Hp|].
      exists ((l, post) :: r1), l', p, r2. split; [reflexivity|].
      split; [constructor; assumption|exact Q].
  - exists [], post, rs. repeat split; auto.
  - split; [exact Hp|]. exists [], l, post, rs. repeat split; auto.
Qed.

Lemma first_unique : forall A (P : A -> Prop) r1 a r2 s1 b s2,
  r1 ++ a :: r2 = s1 ++ b :: s2 -> Forall P r1 -> Forall P s1 -> ~ P a -> ~ P b -> a = b.
Proof.
  intros A P. induction r1 as [|x r1 IH]; intros a r2 [|y s1] b s2 E F G Ha Hb; cbn in E.
  - congruence.
  - injection E as -> _. inversion G; contradiction.
  - injection E as -> _. inversion F; contradiction.
  - injection E as -> E. inversion F; inversion G; subst. eapply IH; eauto.
Qed.

Lemma c03 : forall prof prog,
  ((exists code, compile prof prog = Ok code) <-> Forall (passable prof prog) (refs prog)) /\
  (forall e, compile prof prog = Err e <->
     exists before l post after, refs prog = before ++ (l, post) :: after /\
       Forall (passable prof prog) before /\ ~ In (Label l) prog /\ e = UnknownLabelReference l) /\
  (compile prof prog = Panic <->
     prof = Debug /\ exists before l post after, refs prog = before ++ (l, post) :: after /\
       Forall (passable prof prog) before /\ In (Label l) prog /\ ~ In (Label l) post) /\
  (forall d, compile prof prog <> Died d).
Proof.
  intros prof prog. pose proof (compile_scan prof prog) as C.
  pose proof (scan_first prof prog (refs prog)) as F.
  assert (SUF : forall p l post, In (l, post) (refs p) -> incl post p).
  { induction p as [|op p IH]; cbn [refs]; intros l post H; [contradiction|].
    apply in_app_iff in H. destruct H as [H|H].
    - apply in_map_iff in H. destruct H as [l' [E _]]. injection E as _ <-.
      intros x Hx. right. exact Hx.
    - intros x Hx. right. eapply IH; eauto. }
  assert (UND : forall l post before after, refs prog = before ++ (l, post) :: after ->
    ~ In (Label l) prog -> ~ passable prof prog (l, post)).
  { intros l post b a E H [H1|[_ H1]]; cbn [fst snd] in H1; [|contradiction].
    apply H. apply (SUF prog l post); [rewrite E; apply in_elt|exact H1]. }
  assert (BCK : forall l post, prof = Debug -> ~ In (Label l) post -> ~ passable prof prog (l, post)).
  { intros l post -> H [H1|[H1 _]]; [contradiction|discriminate]. }
  destruct (scan prof prog (refs prog)) as [|l|]; cbn [agrees] in C.
  - destruct C as [code C]. rewrite C. repeat split; try discriminate; try tauto.
    + intros _. eexists. reflexivity.
    + intros (b & l & p & a & E & _ & H & _). exfalso. apply (UND l p b a E H).
      rewrite Forall_forall in F. apply F. rewrite E. apply in_elt.
    + intros (Hd & b & l & p & a & E & _ & _ & H). exfalso. apply (BCK l p Hd H).
      rewrite Forall_forall in F. apply F. rewrite E. apply in_elt.
  - destruct F as (r1 & p & r2 & E & F & Hp & Hl). rewrite C.
    repeat split; try discriminate.
    + intros [? H]. discriminate.
    + intros H. exfalso. rewrite Forall_forall in H. apply (UND l p r1 r2 E Hl). apply H. rewrite E.
      apply in_elt.
    + intros H. injection H as <-. exists r1, l, p, r2. auto.
    + intros (b & l' & p' & a & E' & F' & Hl' & ->). do 2 f_equal.
      assert (X : (l, p) = (l', p')); [|congruence].
      pose proof E' as E2. rewrite E in E2.
      exact (first_unique _ _ _ _ _ _ _ _ E2 F F' (UND _ _ _ _ E Hl) (UND _ _ _ _ E' Hl')).
    + intros (Hd & b & l' & p' & a & E' & F' & Hl' & Hp').
      assert (X : (l, p) = (l', p')).
      { pose proof E' as E2. rewrite E in E2.
        exact (first_unique _ _ _ _ _ _ _ _ E2 F F' (UND _ _ _ _ E Hl) (BCK _ _ Hd Hp')). }
      injection X as -> ->. contradiction.
  - destruct F as (Hd & r1 & l & p & r2 & E & F & Hp & Hl). rewrite C.
    repeat split; try discriminate.
    + intros [? H]. discriminate.
    + intros H. exfalso. rewrite Forall_forall in H. apply (BCK l p Hd Hp). apply H. rewrite E.
      apply in_elt.
    + intros (b & l' & p' & a & E' & F' & Hl' & ->). exfalso.
      assert (X : (l, p) = (l', p')).
      { pose proof E' as E2. rewrite E in E2.
        exact (first_unique _ _ _ _ _ _ _ _ E2 F F' (BCK _ _ Hd Hp) (UND _ _ _ _ E' Hl')). }
      injection X as -> ->. contradiction.
    + exact Hd.
    + exists r1, l, p, r2. auto.
Qed.

(** * C04 *)

Lemma emitted_nth : forall prof prog suffix n code pre op post,
  emitted prof prog n suffix = Ok code -> suffix = pre ++ op :: post -> is_label op = false ->
  exists f, nth_error code (N.to_nat (instructions pre)) = Some f /\
            to_sock_filter prof (n + instructions pre) op (map_labels prog) = Ok f.
Proof.
  intros prof prog. induction suffix as [|o suffix IH]; intros n code pre op post H E Ho.
  - destruct pre; discriminate.
  - destruct pre as [|o' pre]; cbn [app] in E; injection E as -> ->.
    + rewrite emitted_cons in H by exact Ho.
      destruct (to_sock_filter prof n op (map_labels prog)) eqn:T; cbn [bind] in H; try discriminate.
      destruct (emitted prof prog (n + 1) post); cbn [bind] in H; try discriminate.
      injection H as <-. exists a. split; [reflexivity|].
      replace (n + instructions []) with n by (cbn; lia). exact T.
    + rewrite instructions_cons. destruct (is_label o') eqn:Ho'.
      * destruct o'; try discriminate. rewrite emitted_label in H.
        destruct (IH n code pre op post H eq_refl Ho) as [f [F1 F2]].
        exists f. split; [exact F1|]. rewrite N.add_0_l. exact F2.
      * rewrite emitted_cons in H by exact Ho'.
        destruct (to_sock_filter prof n o' (map_labels prog)); cbn [bind] in H; try discriminate.
        destruct (emitted prof prog (n + 1) (pre ++ op :: post)) as [c| | |] eqn:Ec;
          cbn [bind] in H; try discriminate.
        injection H as <-. destruct (IH (n + 1) c pre op post Ec eq_refl Ho) as [f [F1 F2]].
        exists f. replace (N.to_nat (1 + instructions pre)) with (S (N.to_nat (instructions pre))) by lia.
        split; [exact F1|]. replace (n + (1 + instructions pre)) with (n + 1 + instructions pre) by lia.
        exact F2.
Qed.

Lemma lands_offset : forall prof pre op post l v m, is_label op = false -> 0 < m ->
  jmp_calc prof (map_labels (pre ++ op :: post)) (Some l) (instructions pre) = Ok v ->
  (distance l (pre ++ op :: post) = Some (instructions pre + 1 + v mod m) <->
   exists n, distance l post = Some n /\ n <= m - 1).
Proof.
  intros prof pre op post l v m Ho Hm H. destruct (distance l post) as [k|] eqn:Hk.
  - rewrite (jmp_calc_forward prof pre op post l k Ho Hk) in H. injection H as <-.
    rewrite snoc, distance_app, Hk, snoc_instructions by exact Ho. split.
    + intros E. injection E as E. exists k. split; [reflexivity|].
      assert (M : k mod m < m) by (apply N.mod_lt; lia). lia.
    + intros [n [E L]]. injection E as <-. rewrite N.mod_small by lia. reflexivity.
  - split; [|intros [n [E _]]; discriminate]. intros E.
    rewrite snoc, distance_app, Hk, distance_app in E.
    replace (distance l [op]) with (@None N) in E by (destruct op; try discriminate; reflexivity).
    apply distance_le in E. revert E. generalize (v mod m). intros w E. lia.
Qed.

Lemma u8_is : u8_mod = 256. Proof. reflexivity. Qed.

Lemma c04_partial : forall prof prog code pre post,
  compile prof prog = Ok code ->
  (forall l, prog = pre ++ JumpTo l :: post ->
     exists f, nth_error code (N.to_nat (instructions pre)) = Some f /\ sf_code f = 0x05 /\
     (distance l prog = Some (instructions pre + 1 + sf_k f) <-> reaches post l (2 ^ 32 - 1))) /\
  (forall o k lt lf, prog = pre ++ Jump o k lt lf :: post ->
     exists f, nth_error code (N.to_nat (instructions pre)) = Some f /\ sf_k f = k /\
     (forall l, lt = Some l ->
        (distance l prog = Some (instructions pre + 1 + sf_jt f) <-> reaches post l 255)) /\
     (forall l, lf = Some l ->
        (distance l prog = Some (instructions pre + 1 + sf_jf f) <-> reaches post l 255)) /\
     (lt = None -> sf_jt f = 0) /\ (lf = None -> sf_jf f = 0)).
Proof.
  intros prof prog code pre post H. split.
  - intros l E. destruct (emitted_nth prof prog prog 0 code pre (JumpTo l) post H E eq_refl)
      as [f [F1 F2]]. exists f. split; [exact F1|]. cbn [to_sock_filter] in F2.
    rewrite N.add_0_l in F2.
    destruct (jmp_calc prof (map_labels prog) (Some l) (instructions pre)) as [v|e| |d] eqn:J;
      try discriminate. cbn [bind] in F2. injection F2 as <-. split; [reflexivity|].
    subst prog. apply (lands_offset prof pre (JumpTo l) post l v u32_mod); [reflexivity| |exact J].
    reflexivity.
  - intros o k lt lf E.
    destruct (emitted_nth prof prog prog 0 code pre (Jump o k lt lf) post H E eq_refl)
      as [f [F1 F2]]. exists f. split; [exact F1|]. cbn [to_sock_filter] in F2.
    rewrite N.add_0_l in F2.
    destruct (jmp_calc prof (map_labels prog) lt (instructions pre)) as [v|e| |d] eqn:J;
      try discriminate. cbn [bind] in F2.
    destruct (jmp_calc prof (map_labels prog) lf (instructions pre)) as [w|e| |d] eqn:K;
      try discriminate. cbn [bind] in F2. injection F2 as <-. split; [reflexivity|].
    subst prog. cbn [bpf_jmp sf_jt sf_jf]. repeat split.
    + intros D. apply (lands_offset prof pre (Jump o k lt lf) post l v u8_mod); auto; try reflexivity.
      congruence.
    + intros D. apply (lands_offset prof pre (Jump o k lt lf) post l v u8_mod) in D; auto; try reflexivity.
      congruence.
    + intros D. apply (lands_offset prof pre (Jump o k lt lf) post l w u8_mod); auto; try reflexivity.
      congruence.
    + intros D. apply (lands_offset prof pre (Jump o k lt lf) post l w u8_mod) in D; auto; try reflexivity.
      congruence.
    + intros ->. cbn [jmp_calc] in J. injection J as <-. reflexivity.
    + intros ->. cbn [jmp_calc] in K. injection K as <-. reflexivity.
Qed.

(** A conditional jump over 257 instructions: compiles, and its offset is 1. *)
Definition far_prog : list Operation :=
  [Load ABS 0; Jump JEQ 59 (Some "deny"%string) None]
  ++ repeat (Load IMM 0) 256 ++ [Return Const 0x7fff0000; Label "deny"%string; Return Const 0x80000000].

Lemma c04_refuted_far : forall prof, exists prog code l f,
  compile prof prog = Ok code /\
  prog = [Load ABS 0] ++ Jump JEQ 59 (Some l) None :: skipn 2 prog /\
  nth_error code 1 = Some f /\ distance l prog = Some 259 /\ sf_jt f = 1.
Proof.
  intros prof. exists far_prog. destruct prof.
  - eexists. exists "deny"%string. eexists. split; [vm_compute; reflexivity|].
    split; [reflexivity|]. split; [reflexivity|]. split; vm_compute; reflexivity.
  - eexists. exists "deny"%string. eexists. split; [vm_compute; reflexivity|].
    split; [reflexivity|]. split; [reflexivity|]. split; vm_compute; reflexivity.
Qed.

(** A backward jump without overflow checks: becomes a forward one (here out of the program). *)
Definition back_prog : list Operation :=
  [Label "top"%string; Load ABS 0; Jump JEQ 59 (Some "top"%string) None; Return Const 0x7fff0000].

Lemma c04_refuted_back : exists prog code l f,
  compile Release prog = Ok code /\
  prog = [Label l; Load ABS 0] ++ Jump JEQ 59 (Some l) None :: [Return Const 0x7fff0000] /\
  nth_error code 1 = Some f /\ distance l prog = Some 0 /\ sf_jt f = 254.
Proof.
  exists back_prog. eexists. exists "top"%string. eexists. split; [vm_compute; reflexivity|].
  split; [reflexivity|]. split; [reflexivity|]. split; vm_compute; reflexivity.
Qed.

(** * C05 *)

Lemma ltb_0_land : forall a k, (0 <? N.land a k) = negb (N.land a k =? 0).
Proof.
  intros. destruct (N.eqb_spec (N.land a k) 0) as [->|H]; [reflexivity|].
  apply N.ltb_lt. cbn. lia.
Qed.

Lemma to_sock_filter_jump : forall prof n o k lt lf labels f,
  to_sock_filter prof n (Jump o k lt lf) labels = Ok f ->
  exists jt jf, f = bpf_jmp o k jt jf.
Proof.
  intros prof n o k lt lf labels f H. cbn [to_sock_filter] in H.
  destruct (jmp_calc prof labels lt n); cbn [bind] in H; try discriminate.
  destruct (jmp_calc prof labels lf n); cbn [bind] in H; try discriminate.
  injection H as <-. eauto.
Qed.

Lemma cell_index : forall m k, length m = 16%nat -> cell m k = index m k.
Proof. intros m k H. unfold cell, index. rewrite H. reflexivity. Qed.
Lemma input_index : forall data k, input_word data k = index data (k / 4).
Proof. intros. rewrite index_cases. reflexivity. Qed.

(** The specification's arithmetic is the machine's. *)
Lemma alu_meaning_machine : forall prof op a b, alu_meaning prof op a b =
  match op with
  | ADD => add_u32 prof a b
  | SUB => sub_u32 prof a b
  | MUL => mul_u32 prof a b
  | DIV => div_u32 a b
  | OR => Ok (N.lor a b)
  | AND => Ok (N.land a b)
  | LSH => shl_u32 prof a b
  | RSH => shr_u32 prof a b
  | MOD => rem_u32 a b
  | XOR => Ok (N.lxor a b)
  end.
Proof.
  intros prof op a b. destruct op; cbn [alu_meaning].
  - unfold add_u32. destruct prof; reflexivity.
  - unfold sub_u32, sub_mod. rewrite (N.add_comm a u32_mod). destruct prof; reflexivity.
  - unfold mul_u32. destruct prof; reflexivity.
  - reflexivity.
  - reflexivity.
  - reflexivity.
  - unfold shl_u32. rewrite !N.shiftl_mul_pow2. destruct prof; reflexivity.
  - unfold shr_u32. rewrite !N.shiftr_div_pow2. destruct prof; reflexivity.
  - reflexivity.
  - reflexivity.
Qed.

Lemma written_list_set : forall (m : list N) i v, (i < length m)%nat ->
  (firstn i m ++ v :: skipn (S i) m)%list = list_set m i v.
Proof.
  induction m as [|a m IH]; intros i v H; [cbn in H; lia|].
  destruct i; [reflexivity|]. cbn [firstn skipn list_set app]. f_equal. apply IH. cbn in H. lia.
Qed.
Lemma written_set : forall m k v, length m = 16%nat -> k < 16 ->
  written m k v = list_set m (N.to_nat k) v.
Proof. intros. unfold written. apply written_list_set. lia. Qed.

Lemma c05_partial : forall prof n op labels f vm data,
  encodable op -> to_sock_filter prof n op labels = Ok f -> length (vm_mem vm) = 16%nat ->
  exec_insn prof f vm data = exec_token prof op f vm data.
Proof.
  intros prof n op labels f [pc a x m pr] data He Hf Hm. cbn [vm_mem] in Hm.
  destruct op as [l|mo v|mo v|mo v|mo v|o s v|s v|l|o k lt lf].
  - discriminate.
  - injection Hf as <-. destruct mo; unfold exec_token, token_effect; unfold vm_state; cbn [t_mem t_idx vm_mem vm_idx vm_acc];
      rewrite ?cell_index, ?input_index by exact Hm.
    + reflexivity.
    + change (exec_insn prof (bpf_ld ABS v) (mkVM pc a x m pr) data)
        with (match index (E := bpf_error) data (v / 4) with
              | Ok w => (Ok (@None N), mkVM pc w x m pr)
              | Err e => (Err e, mkVM pc a x m pr)
              | Panic => (Panic, mkVM pc a x m pr)
              | Died d => (Died d, mkVM pc a x m pr) end).
      destruct (index data (v / 4)); reflexivity.
    + change (exec_insn prof (bpf_ld IND v) (mkVM pc a x m pr) data)
        with (match (o <- add_u32 prof x v ;; index (E := bpf_error) data (o / 4)) with
              | Ok w => (Ok (@None N), mkVM pc w x m pr)
              | Err e => (Err e, mkVM pc a x m pr)
              | Panic => (Panic, mkVM pc a x m pr)
              | Died d => (Died d, mkVM pc a x m pr) end).
      rewrite alu_meaning_machine. destruct (add_u32 prof x v); cbn [bind]; try reflexivity.
      rewrite input_index. destruct (index data (a0 / 4)); reflexivity.
    + change (exec_insn prof (bpf_ld MEM v) (mkVM pc a x m pr) data)
        with (match index (E := bpf_error) m v with
              | Ok w => (Ok (@None N), mkVM pc w x m pr)
              | Err e => (Err e, mkVM pc a x m pr)
              | Panic => (Panic, mkVM pc a x m pr)
              | Died d => (Died d, mkVM pc a x m pr) end).
      destruct (index m v); reflexivity.
    + reflexivity.
  - injection Hf as <-. destruct mo; unfold exec_token, token_effect; unfold vm_state; cbn [t_mem vm_mem vm_idx vm_acc];
      rewrite ?cell_index by exact Hm.
    + reflexivity.
    + reflexivity.
    + reflexivity.
    + change (exec_insn prof (bpf_ldx MEM v) (mkVM pc a x m pr) data)
        with (match index (E := bpf_error) m v with
              | Ok w => (Ok (@None N), mkVM pc a w m pr)
              | Err e => (Err e, mkVM pc a x m pr)
              | Panic => (Panic, mkVM pc a x m pr)
              | Died d => (Died d, mkVM pc a x m pr) end).
      destruct (index m v); reflexivity.
    + reflexivity.
  - injection Hf as <-. unfold exec_token, token_effect.
    replace (exec_insn prof (bpf_st mo v) (mkVM pc a x m pr) data)
      with (match index_set (E := bpf_error) m v a with
            | Ok w => (Ok (@None N), mkVM pc a x w pr)
            | Err e => (Err e, mkVM pc a x m pr)
            | Panic => (Panic, mkVM pc a x m pr)
            | Died d => (Died d, mkVM pc a x m pr) end) by (destruct mo; reflexivity).
    unfold index_set. rewrite Hm. change (N.of_nat 16) with 16.
    destruct (v <? 16) eqn:B; [|reflexivity]. apply N.ltb_lt in B.
    unfold vm_state, with_state. cbn [vm_mem t_mem vm_acc t_acc vm_idx t_idx vm_pc vm_prog]. rewrite written_set by assumption. reflexivity.
  - injection Hf as <-. unfold exec_token, token_effect.
    replace (exec_insn prof (bpf_stx mo v) (mkVM pc a x m pr) data)
      with (match index_set (E := bpf_error) m v x with
            | Ok w => (Ok (@None N), mkVM pc a x w pr)
            | Err e => (Err e, mkVM pc a x m pr)
            | Panic => (Panic, mkVM pc a x m pr)
            | Died d => (Died d, mkVM pc a x m pr) end) by (destruct mo; reflexivity).
    unfold index_set. rewrite Hm. change (N.of_nat 16) with 16.
    destruct (v <? 16) eqn:B; [|reflexivity]. apply N.ltb_lt in B.
    unfold vm_state, with_state. cbn [vm_mem t_mem vm_acc t_acc vm_idx t_idx vm_pc vm_prog]. rewrite written_set by assumption. reflexivity.
  - injection Hf as <-. unfold exec_token, token_effect.
    assert (X : exec_insn prof (bpf_alu o s v) (mkVM pc a x m pr) data =
      match alu_meaning prof o a (src_value s v (mkT a x m)) with
      | Ok w => (Ok (@None N), mkVM pc w x m pr)
      | Err e => (Err e, mkVM pc a x m pr)
      | Panic => (Panic, mkVM pc a x m pr)
      | Died d => (Died d, mkVM pc a x m pr) end)
      by (rewrite alu_meaning_machine; destruct s; [destruct o; reflexivity|destruct o; reflexivity|contradiction]).
    rewrite X. unfold vm_state. cbn [vm_acc t_acc vm_idx vm_mem].
    destruct (alu_meaning prof o a (src_value s v (mkT a x m))); reflexivity.
  - injection Hf as <-. destruct s; reflexivity.
  - cbn [to_sock_filter] in Hf.
    destruct (jmp_calc prof labels (Some l) n); cbn [bind] in Hf; try discriminate.
    injection Hf as <-. reflexivity.
  - destruct (to_sock_filter_jump _ _ _ _ _ _ _ _ Hf) as [jt [jf ->]].
    destruct o; try contradiction; try reflexivity.
    unfold exec_token, cmp_meaning. rewrite <- ltb_0_land. reflexivity.
Qed.

(** ADD with the accumulator is emitted as SUB of the constant. *)
Lemma c05_refuted_alu : forall prof, exists op f vm,
  op = Alu ADD Acc 0 /\ to_sock_filter prof 0 op [] = Ok f /\ length (vm_mem vm) = 16%nat /\
  token_effect prof op (vm_state vm) [] = Ok (mkT 2 0 (repeat 0 16)) /\
  exec_insn prof f vm [] = (Ok None, with_state vm (mkT 1 0 (repeat 0 16))).
Proof.
  intros prof. exists (Alu ADD Acc 0). eexists. exists (mkVM 0 1 0 (repeat 0 16) []).
  repeat split.
Qed.

(** A conditional jump with operator JA goes to the constant, not to its label. *)
Lemma c05_refuted_ja : forall prof, exists op f vm,
  op = Jump JA 7 (Some "l"%string) (Some "l"%string) /\
  to_sock_filter prof 0 op [("l"%string, 3)] = Ok f /\ sf_jt f = 2 /\ sf_jf f = 2 /\
  vm_pc (snd (exec_insn prof f vm [])) = vm_pc vm + 7.
Proof.
  intros prof. exists (Jump JA 7 (Some "l"%string) (Some "l"%string)). eexists.
  exists (mkVM 0 1 0 (repeat 0 16) []). destruct prof; repeat split; vm_compute; reflexivity.
Qed.

(** * C01 *)

Lemma token_effect_mem : forall prof op st data st', length (t_mem st) = 16%nat ->
  token_effect prof op st data = Ok st' -> length (t_mem st') = 16%nat.
Proof.
  intros prof op [a x m] data st' H E. cbn [t_mem] in H.
  destruct op as [l|mo v|mo v|mo v|mo v|o s v|s v|l|o k lt lf]; cbn [token_effect t_acc t_idx t_mem] in E.
  - injection E as <-. exact H.
  - destruct mo; cbn [t_idx t_mem] in E;
      repeat match type of E with
      | bind ?r _ = _ => destruct r; cbn [bind] in E; try discriminate
      end; injection E as <-; exact H.
  - destruct mo; cbn [t_idx t_mem] in E;
      repeat match type of E with
      | bind ?r _ = _ => destruct r; cbn [bind] in E; try discriminate
      end; try discriminate; injection E as <-; exact H.
  - destruct (v <? 16) eqn:B; [|discriminate]. apply N.ltb_lt in B. injection E as <-. cbn [t_mem].
    rewrite written_set, list_set_length by assumption. exact H.
  - destruct (v <? 16) eqn:B; [|discriminate]. apply N.ltb_lt in B. injection E as <-. cbn [t_mem].
    rewrite written_set, list_set_length by assumption. exact H.
  - destruct (alu_meaning _ _ _ _); cbn [bind] in E; try discriminate. injection E as <-. exact H.
  - injection E as <-. exact H.
  - injection E as <-. exact H.
  - injection E as <-. exact H.
Qed.

Definition plain (op : Operation) : bool :=
  match op with Label _ | Return _ _ | JumpTo _ | Jump _ _ _ _ => false | _ => true end.

Lemma interp_plain : forall prof op rest st data, plain op = true ->
  interp prof (op :: rest) None st data =
  (st' <- token_effect prof op st data ;; interp prof rest None st' data).
Proof. intros prof [] rest st data H; try discriminate; reflexivity. Qed.

Lemma interp_skip : forall prof op rest l st data, is_label op = false ->
  interp prof (op :: rest) (Some l) st data = interp prof rest (Some l) st data.
Proof. intros prof op rest l st data H; destruct op; try discriminate; reflexivity. Qed.

Definition related (prof : profile) (post : list Operation) (code : list sock_filter) : Prop :=
  forall st data, length (t_mem st) = 16%nat ->
    interp prof post None st data = go prof code 0 (t_acc st) (t_idx st) (t_mem st) data /\
    forall l k, distance l post = Some k ->
      interp prof post (Some l) st data = go prof code k (t_acc st) (t_idx st) (t_mem st) data.

Lemma sim_asm : forall prof post pre,
  (forall pre' op post', post = pre' ++ op :: post' -> encodable op /\ jumps_ok op post') ->
  exists code, emitted prof (pre ++ post) (instructions pre) post = Ok code /\ related prof post code.
Proof.
  intros prof. induction post as [|op post IH]; intros pre W.
  - exists []. split; [reflexivity|]. intros st data Hm. split; [reflexivity|]. discriminate.
  - destruct (is_label op) eqn:Ho.
    + destruct op as [l'| | | | | | | | ]; try discriminate. rewrite emitted_label.
      destruct (IH (pre ++ [Label l'])) as [code [E R]].
      { intros pre' op post' ->. apply (W (Label l' :: pre') op post' eq_refl). }
      rewrite snoc_label, <- snoc in E. exists code. split; [exact E|].
      intros st data Hm. destruct (R st data Hm) as [R1 R2]. split; [exact R1|].
      intros l k D. cbn [distance interp] in *.
      destruct (distance l post) as [n|] eqn:Dn.
      * rewrite andb_false_r. injection D as <-. apply R2. exact Dn.
      * destruct (String.eqb l l'); [|discriminate]. injection D as <-. exact R1.
    + destruct (W [] op post eq_refl) as [We Wj].
      destruct (IH (pre ++ [op])) as [code [E R]].
      { intros pre' op' post' ->. apply (W (op :: pre') op' post' eq_refl). }
      rewrite snoc_instructions in E by exact Ho. rewrite <- snoc in E.
      (* the head instruction *)
      assert (Hf : exists f, to_sock_filter prof (instructions pre) op (map_labels (pre ++ op :: post)) = Ok f /\
        match op with
        | JumpTo l => distance l post = Some (sf_k f)
        | Jump _ _ lt lf =>
            match lt with Some l => distance l post = Some (sf_jt f) | None => sf_jt f = 0 end /\
            match lf with Some l => distance l post = Some (sf_jf f) | None => sf_jf f = 0 end
        | _ => True end).
      { destruct op as [l'| | | | | | |l'|o k lt lf]; try (eexists; split; [reflexivity|exact I]).
        - discriminate.
        - destruct Wj as [n [D L]]. cbn [to_sock_filter].
          rewrite (jmp_calc_forward prof pre (JumpTo l') post l' n eq_refl D). cbn [bind].
          eexists. split; [reflexivity|]. cbn [bpf_jmp sf_k]. unfold as_u32.
          rewrite N.mod_small; [exact D|]. change u32_mod with (2 ^ 32). lia.
        - destruct Wj as [Wt Wf]. cbn [to_sock_filter].
          assert (G : forall lo, (forall l, lo = Some l -> reaches post l 255) ->
            exists v, jmp_calc prof (map_labels (pre ++ Jump o k lt lf :: post)) lo (instructions pre) = Ok v /\
              match lo with Some l => distance l post = Some (as_u8 v) | None => as_u8 v = 0 end).
          { intros [l|] Hr; [|exists 0; split; reflexivity].
            destruct (Hr l eq_refl) as [n [D L]]. exists n.
            split; [apply jmp_calc_forward; [reflexivity|exact D]|].
            unfold as_u8. rewrite N.mod_small; [exact D|]. change u8_mod with 256. lia. }
          destruct (G lt Wt) as [vt [-> Ht]]. destruct (G lf Wf) as [vf [-> Hf]]. cbn [bind].
          eexists. split; [reflexivity|]. cbn [bpf_jmp sf_jt sf_jf]. auto. }
      destruct Hf as [f [Hf Hj]].
      exists (f :: code). split; [rewrite emitted_cons, Hf, E by exact Ho; reflexivity|].
      intros st data Hm. split.
      * cbn [go N.eqb].
        rewrite (c05_partial prof (instructions pre) op (map_labels (pre ++ op :: post)) f
          (st_vm (t_acc st) (t_idx st) (t_mem st)) data We Hf Hm).
        destruct (plain op) eqn:Hp.
        -- rewrite interp_plain by exact Hp.
           replace (exec_token prof op f (st_vm (t_acc st) (t_idx st) (t_mem st)) data)
             with (match token_effect prof op st data with
                   | Ok st' => (Ok (@None N), st_vm (t_acc st') (t_idx st') (t_mem st'))
                   | Err e => (Err e, st_vm (t_acc st) (t_idx st) (t_mem st))
                   | Panic => (Panic, st_vm (t_acc st) (t_idx st) (t_mem st))
                   | Died d => (Died d, st_vm (t_acc st) (t_idx st) (t_mem st)) end)
             by (destruct st; destruct op; try discriminate; reflexivity).
           destruct (token_effect prof op st data) as [st'|e| |d] eqn:T; cbn [bind]; try reflexivity.
           cbn [vm_pc vm_acc vm_idx vm_mem st_vm].
           apply R. eapply token_effect_mem; eauto.
        -- destruct op as [l'| | | | | |s v|l'|o k lt lf]; try discriminate.
           ++ destruct st. reflexivity.
           ++ cbn [interp exec_token set_pc vm_pc vm_acc vm_idx vm_mem st_vm]. rewrite N.add_0_l.
              apply R; assumption.
           ++ cbn [interp exec_token set_pc vm_pc vm_acc vm_idx vm_mem st_vm]. rewrite N.add_0_l.
              destruct Hj as [Ht Hfl].
              destruct (cmp_meaning o (t_acc st) k).
              ** destruct lt as [l|]; [apply R; assumption|]. rewrite Ht. apply R. exact Hm.
              ** destruct lf as [l|]; [apply R; assumption|]. rewrite Hfl. apply R. exact Hm.
      * intros l k D. rewrite interp_skip by exact Ho.
        assert (D' : exists n, distance l post = Some n /\ k = n + 1).
        { destruct op; try discriminate; cbn [distance] in D; destruct (distance l post);
            try discriminate; injection D as <-; eauto. }
        destruct D' as [n [D' ->]]. cbn [go].
        destruct (N.eqb_spec (n + 1) 0); [lia|]. replace (n + 1 - 1) with n by lia.
        apply R; assumption.
Qed.

Lemma c01 : forall prof prog, well_formed prog ->
  exists code, compile prof prog = Ok code /\
    forall vm data, vm_prog vm = code ->
      fst (vm_run prof vm data) = Finished (interp prof prog None t_zero data).
Proof.
  intros prof prog W. destruct (sim_asm prof prog [] W) as [code [E R]].
  exists code. split; [exact E|]. intros vm data Hv. rewrite vm_run_go, Hv. f_equal.
  symmetry. apply (R t_zero data eq_refl).
Qed.
