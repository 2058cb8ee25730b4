(** The VM: termination, invariants, and a skip-count view of its loop. *)
From Coq Require Import NArith ZArith String List Bool Lia.
From Verif Require Import Libc Machine Bpf SeccompRet Asm Vm Kernel Spec.
Import ListNotations.
Local Open Scope N_scope.

Lemma index_Ok : forall E A (l : list A) i a,
  index (E := E) l i = Ok a <-> nth_error l (N.to_nat i) = Some a.
Proof.
  intros E A l i a. unfold index. destruct (N.ltb_spec i (N.of_nat (length l))) as [H|H].
  - destruct (nth_error l (N.to_nat i)); split; congruence.
  - split; [discriminate|]. intros Hn.
    assert (nth_error l (N.to_nat i) <> None) as Hx by congruence.
    apply nth_error_Some in Hx. lia.
Qed.

Lemma index_cases : forall E A (l : list A) i,
  index (E := E) l i = match nth_error l (N.to_nat i) with Some a => Ok a | None => Panic end.
Proof.
  intros E A l i. destruct (nth_error l (N.to_nat i)) as [a|] eqn:H.
  - apply index_Ok. exact H.
  - unfold index. destruct (N.ltb_spec i (N.of_nat (length l))) as [L|L]; [|reflexivity].
    rewrite H. reflexivity.
Qed.

Lemma list_set_length : forall A (l : list A) i v, length (list_set l i v) = length l.
Proof. induction l as [|a l IH]; intros [|i] v; cbn; auto. Qed.

(** * Effect of one instruction, independent of pc and program *)

(** Move the pc of a state and install another program. *)
Definition at_pc (p : N) (pr : list sock_filter) (vm : BpfVM) : BpfVM :=
  mkVM (p + vm_pc vm) (vm_acc vm) (vm_idx vm) (vm_mem vm) pr.

Definition st_vm (a x : N) (m : list N) : BpfVM := mkVM 0 a x m [].

Lemma exec_insn_at : forall prof f p a x m pr data,
  exec_insn prof f (mkVM p a x m pr) data =
  (fst (exec_insn prof f (st_vm a x m) data),
   at_pc p pr (snd (exec_insn prof f (st_vm a x m) data))).
Proof.
  intros prof f p a x m pr data. unfold exec_insn, st_vm, at_pc.
  cbn [vm_pc vm_acc vm_idx vm_mem vm_prog].
  repeat match goal with
  | |- context [if ?b then _ else _] => destruct b
  end; unfold fetch_src; cbn [vm_pc vm_acc vm_idx vm_mem vm_prog];
  repeat match goal with
  | |- context [if ?b then _ else _] => destruct b
  end;
  repeat match goal with
  | |- context [match ?r with Ok _ => _ | Err _ => _ | Panic => _ | Died _ => _ end] => destruct r
  end; unfold set_pc, set_acc, set_idx, set_mem; cbn [fst snd vm_pc vm_acc vm_idx vm_mem vm_prog];
  rewrite ?N.add_0_r, ?N.add_0_l; reflexivity.
Qed.

(** * Skip-count semantics of machine code *)

Fixpoint go (prof : profile) (code : list sock_filter) (skip : N) (a x : N) (m data : list N)
  : res bpf_error N :=
  match code with
  | [] => Ok 0
  | f :: rest =>
      if skip =? 0 then
        match exec_insn prof f (st_vm a x m) data with
        | (Ok None, vm') => go prof rest (vm_pc vm') (vm_acc vm') (vm_idx vm') (vm_mem vm') data
        | (Ok (Some v), _) => Ok v
        | (Err e, _) => Err e
        | (Panic, _) => Panic
        | (Died d, _) => Died d
        end
      else go prof rest (skip - 1) a x m data
  end.

Lemma go_past : forall prof code skip a x m data,
  N.of_nat (length code) <= skip -> go prof code skip a x m data = Ok 0.
Proof.
  induction code as [|f code IH]; intros skip a x m data H; [reflexivity|].
  cbn [go length] in *. destruct (N.eqb_spec skip 0); [lia|]. apply IH. lia.
Qed.

Lemma nth_error_mid : forall A (pre : list A) a post, nth_error (pre ++ a :: post) (length pre) = Some a.
Proof. intros. rewrite nth_error_app2 by lia. rewrite Nat.sub_diag. reflexivity. Qed.

Lemma run_go : forall prof data code pre skip a x m fuel,
  (length code <= fuel)%nat ->
  fst (run_loop fuel prof (mkVM (N.of_nat (length pre) + skip) a x m (pre ++ code)) data) =
  Finished (go prof code skip a x m data).
Proof.
  induction code as [|f code IH]; intros pre skip a x m fuel Hf.
  - rewrite app_nil_r. destruct fuel; cbn [run_loop vm_pc vm_prog];
      (destruct (N.ltb_spec (N.of_nat (length pre) + skip) (N.of_nat (length pre))); [lia|reflexivity]).
  - cbn [go]. destruct (N.eqb_spec skip 0) as [->|Hs].
    + rewrite N.add_0_r. destruct fuel as [|fuel]; [cbn in Hf; lia|]. cbn [length] in Hf.
      cbn [run_loop vm_pc vm_prog].
      destruct (N.ltb_spec (N.of_nat (length pre)) (N.of_nat (length (pre ++ f :: code)))) as [L|L];
        [|rewrite app_length in L; cbn [length] in L; lia].
      unfold execute. cbn [vm_pc vm_prog]. rewrite index_cases, Nat2N.id, nth_error_mid.
      unfold set_pc. cbn [vm_pc vm_acc vm_idx vm_mem vm_prog]. rewrite exec_insn_at.
      destruct (exec_insn prof f (st_vm a x m) data) as [[[v|]|e| |d] vm'] eqn:E;
        cbn [fst snd]; try reflexivity.
      unfold at_pc.
      replace (pre ++ f :: code) with ((pre ++ [f]) ++ code) by (rewrite <- app_assoc; reflexivity).
      replace (N.of_nat (length pre) + 1) with (N.of_nat (length (pre ++ [f])))
        by (rewrite app_length; cbn [length]; lia).
      apply IH. lia.
    + replace (pre ++ f :: code) with ((pre ++ [f]) ++ code) by (rewrite <- app_assoc; reflexivity).
      replace (N.of_nat (length pre) + skip) with (N.of_nat (length (pre ++ [f])) + (skip - 1))
        by (rewrite app_length; cbn [length]; lia).
      apply IH. cbn [length] in Hf. lia.
Qed.

Lemma vm_run_go : forall prof vm data,
  fst (vm_run prof vm data) =
  Finished (go prof (vm_prog vm) 0 0 0 (repeat 0 16) data).
Proof.
  intros prof vm data. unfold vm_run, vm_reset.
  exact (run_go prof data (vm_prog vm) [] 0 0 0 (repeat 0 16) (length (vm_prog vm)) (le_n _)).
Qed.

(** * C06 *)

Lemma exec_insn_grows : forall prof f vm data,
  vm_pc vm <= vm_pc (snd (exec_insn prof f vm data)) /\
  vm_prog (snd (exec_insn prof f vm data)) = vm_prog vm.
Proof.
  intros prof f [p a x m pr] data. rewrite exec_insn_at. unfold at_pc.
  cbn [snd vm_pc vm_prog]. split; [lia|reflexivity].
Qed.

Lemma execute_advances : forall prof vm data vm',
  execute prof vm data = (Ok None, vm') -> vm_pc vm < vm_pc vm' /\ vm_prog vm' = vm_prog vm.
Proof.
  intros prof vm data vm' H. unfold execute in H. rewrite index_cases in H.
  destruct (nth_error (vm_prog vm) (N.to_nat (vm_pc vm))) as [f|]; [|discriminate].
  pose proof (exec_insn_grows prof f (set_pc vm (vm_pc vm + 1)) data) as [G P].
  rewrite H in G, P. cbn [snd] in *. unfold set_pc in *. cbn [vm_pc vm_prog] in *. split; [lia|exact P].
Qed.

Lemma execute_prog : forall prof vm data, vm_prog (snd (execute prof vm data)) = vm_prog vm.
Proof.
  intros. unfold execute. destruct (index _ _); try reflexivity.
  destruct (exec_insn_grows prof a (set_pc vm (vm_pc vm + 1)) data) as [_ ->]. reflexivity.
Qed.

Lemma executed_bound : forall n prof vm data vm',
  executed n prof vm data = Some vm' ->
  (N.of_nat n + vm_pc vm <= N.max (vm_pc vm) (N.of_nat (length (vm_prog vm)))).
Proof.
  induction n as [|n IH]; intros prof vm data vm' H; [lia|].
  cbn [executed] in H. destruct (N.ltb_spec (vm_pc vm) (N.of_nat (length (vm_prog vm)))) as [L|]; [|discriminate].
  destruct (execute prof vm data) as [[[v|]|e| |d] vm1] eqn:E; try discriminate.
  apply execute_advances in E. destruct E as [A P]. apply IH in H. rewrite P in H. lia.
Qed.

Lemma c06_terminates : forall prof vm data,
  exists r, fst (vm_run prof vm data) = Finished r /\ forall fuel,
    (length (vm_prog vm) <= fuel)%nat -> fst (run_loop fuel prof (vm_reset vm) data) = Finished r.
Proof.
  intros prof vm data. exists (go prof (vm_prog vm) 0 0 0 (repeat 0 16) data).
  split; [apply vm_run_go|]. intros fuel Hf. unfold vm_reset.
  exact (run_go prof data (vm_prog vm) [] 0 0 0 (repeat 0 16) fuel Hf).
Qed.

Lemma c06_bound : forall n prof vm data vm',
  executed n prof (vm_reset vm) data = Some vm' -> (n <= length (vm_prog vm))%nat.
Proof.
  intros n prof vm data vm' H. apply executed_bound in H. unfold vm_reset in H.
  cbn [vm_pc vm_prog] in H. lia.
Qed.

Lemma c06_increases : forall prof vm data vm',
  execute prof vm data = (Ok None, vm') -> vm_pc vm < vm_pc vm'.
Proof. intros prof vm data vm' H. apply (execute_advances _ _ _ _ H). Qed.

(** * C07 *)

Lemma run_loop_prog : forall fuel prof vm data,
  vm_prog (snd (run_loop fuel prof vm data)) = vm_prog vm.
Proof.
  induction fuel as [|fuel IH]; intros prof vm data; cbn [run_loop];
    destruct (_ <? _); try reflexivity.
  pose proof (execute_prog prof vm data) as P.
  destruct (execute prof vm data) as [[[v|]|e| |d] vm1]; cbn [snd] in *; try exact P.
  rewrite IH. exact P.
Qed.

Lemma vm_apply_prog : forall prof vm o, vm_prog (vm_apply prof vm o) = vm_prog vm.
Proof.
  intros prof vm [data| |data]; cbn [vm_apply].
  - unfold vm_run. rewrite run_loop_prog. reflexivity.
  - reflexivity.
  - apply execute_prog.
Qed.

Lemma fold_apply_prog : forall prof ops vm,
  vm_prog (fold_left (vm_apply prof) ops vm) = vm_prog vm.
Proof.
  induction ops as [|o ops IH]; intros vm; [reflexivity|].
  cbn [fold_left]. rewrite IH. apply vm_apply_prog.
Qed.

Lemma c07 : forall prof ops vm data,
  vm_run prof (fold_left (vm_apply prof) ops vm) data = vm_run prof vm data /\
  vm_prog (fold_left (vm_apply prof) ops vm) = vm_prog vm.
Proof.
  intros prof ops vm data. split; [|apply fold_apply_prog].
  unfold vm_run, vm_reset. rewrite fold_apply_prog. reflexivity.
Qed.

(** * C08 *)
Lemma c08 : forall prog,
  (N.of_nat (length prog) <= 65535 ->
   exists vm, vm_new prog = Ok vm /\ vm_pc vm = 0 /\ vm_acc vm = 0 /\ vm_idx vm = 0 /\
     vm_mem vm = repeat 0 16 /\ vm_prog vm = prog) /\
  (65535 < N.of_nat (length prog) ->
   vm_new prog = Err (ProgramTooLong (N.of_nat (length prog)))).
Proof.
  intros prog. unfold vm_new. destruct (N.ltb_spec 65535 (N.of_nat (length prog))); split; intros; try lia.
  - reflexivity.
  - eexists. split; [reflexivity|]. repeat split.
Qed.

(** * C09 *)

Definition wf_vm (vm : BpfVM) : Prop :=
  word (vm_acc vm) /\ word (vm_idx vm) /\ words (vm_mem vm) /\ length (vm_mem vm) = 16%nat.

Lemma words_nth : forall l i v, words l -> nth_error l i = Some v -> word v.
Proof. intros l i v H E. apply nth_error_In in E. unfold words in H. rewrite Forall_forall in H. auto. Qed.

Lemma words_set : forall l i v, words l -> word v -> words (list_set l i v).
Proof.
  induction l as [|a l IH]; intros [|i] v H Hv; cbn; auto; inversion H; subst; constructor; auto.
  apply IH; assumption.
Qed.

Lemma word_mod : forall n, word (n mod u32_mod).
Proof. intros n. apply N.mod_lt. discriminate. Qed.

Lemma word_bound : forall n, word n <-> N.log2 n < 32 \/ n = 0.
Proof.
  intros n. unfold word. destruct (N.eq_dec n 0) as [->|H].
  - split; [auto|reflexivity].
  - rewrite N.log2_lt_pow2 by lia. intuition.
Qed.

Lemma word_land : forall a b, word a -> word (N.land a b).
Proof.
  intros a b H. apply word_bound in H. apply word_bound.
  destruct H as [H| ->]; [|right; apply N.land_0_l].
  left. pose proof (N.log2_land a b). lia.
Qed.
Lemma word_lor : forall a b, word a -> word b -> word (N.lor a b).
Proof.
  intros a b Ha Hb. apply word_bound in Ha, Hb. apply word_bound.
  destruct Ha as [Ha| ->]; [|rewrite N.lor_0_l; exact Hb].
  destruct Hb as [Hb| ->]; [|rewrite N.lor_0_r; auto].
  left. rewrite N.log2_lor. lia.
Qed.
Lemma word_lxor : forall a b, word a -> word b -> word (N.lxor a b).
Proof.
  intros a b Ha Hb. apply word_bound in Ha, Hb. apply word_bound.
  destruct Ha as [Ha| ->]; [|rewrite N.lxor_0_l; exact Hb].
  destruct Hb as [Hb| ->]; [|rewrite N.lxor_0_r; auto].
  left. pose proof (N.log2_lxor a b). lia.
Qed.
Lemma word_le : forall a b, b <= a -> word a -> word b.
Proof. unfold word. intros. lia. Qed.
Lemma word_shiftr : forall a n, word a -> word (N.shiftr a n).
Proof.
  intros a n H. apply word_le with a; [|exact H]. rewrite N.shiftr_div_pow2.
  apply N.div_le_upper_bound; [apply N.pow_nonzero; discriminate|].
  pose proof (N.pow_nonzero 2 n ltac:(discriminate)). nia.
Qed.

Lemma alu_word : forall prof inst op a b v,
  word a -> word b -> alu prof inst op a b = Ok v -> word v.
Proof.
  intros prof inst op a b v Ha Hb. unfold alu, add_u32, sub_u32, sub_mod, mul_u32, div_u32, rem_u32,
    shl_u32, shr_u32.
  repeat match goal with
  | |- (if ?c then _ else _) = _ -> _ => destruct c eqn:?
  end; try destruct prof; intros H; try discriminate; injection H as <-;
  rewrite ?N.ltb_lt, ?N.leb_le, ?N.eqb_neq in *;
  auto using word_mod, word_lor, word_land, word_lxor, word_shiftr.
  all: apply word_le with a; [|exact Ha].
  all: first [ lia | apply N.mod_le; assumption
             | apply N.div_le_upper_bound; [assumption|nia] ].
Qed.

Lemma exec_insn_wf : forall prof f vm data,
  wf_insn f -> words data -> wf_vm vm -> wf_vm (snd (exec_insn prof f vm data)).
Proof.
  intros prof f vm data (_ & _ & _ & Hk) Hd Hvm.
  pose proof Hvm as (Ha & Hx & Hm & Hl).
  assert (acc : forall v, word v -> wf_vm (set_acc vm v)) by (intros; repeat split; assumption).
  assert (idx : forall v, word v -> wf_vm (set_idx vm v)) by (intros; repeat split; assumption).
  assert (pc : forall v, wf_vm (set_pc vm v)) by (intros; repeat split; assumption).
  assert (len : word (as_u32 (N.of_nat (length data)))) by apply word_mod.
  assert (fd : forall o s v, fetch_data data o s = Ok v -> word v).
  { intros o s v. unfold fetch_data, fetch_u32, fetch_u16, fetch_u8.
    repeat match goal with |- (if ?c then _ else _) = _ -> _ => destruct c end; try discriminate.
    rewrite index_cases. destruct (nth_error data _) eqn:E; [|discriminate].
    intros H. injection H as <-. exact (words_nth _ _ _ Hd E). }
  assert (mm : forall i v, index (E := bpf_error) (vm_mem vm) i = Ok v -> word v).
  { intros i v H. apply index_Ok in H. exact (words_nth _ _ _ Hm H). }
  assert (st : forall r, word r -> forall i m', index_set (E := bpf_error) (vm_mem vm) i r = Ok m' ->
                 wf_vm (set_mem vm m')).
  { intros r Hr i m' H. unfold index_set in H. destruct (_ <? _); [|discriminate].
    injection H as <-. repeat split; cbn; auto using words_set.
    rewrite list_set_length. exact Hl. }
  assert (fs : forall s v, fetch_src vm s f = Ok v -> word v).
  { intros s v. unfold fetch_src.
    repeat match goal with |- (if ?c then _ else _) = _ -> _ => destruct c end;
      intros H; try discriminate; injection H as <-; assumption. }
  unfold exec_insn.
  destruct (_ =? BPF_LD).
  { match goal with |- context [match ?r with Ok _ => _ | Err _ => _ | Panic => _ | Died _ => _ end] =>
      destruct r as [v| | |] eqn:E end; cbn [snd]; try exact Hvm.
    apply acc. revert E.
    repeat match goal with |- (if ?c then _ else _) = _ -> _ => destruct c end; intros E; try discriminate.
    - injection E as <-. exact Hk.
    - exact (fd _ _ _ E).
    - unfold bind in E. destruct (add_u32 prof (vm_idx vm) (sf_k f)); try discriminate. exact (fd _ _ _ E).
    - exact (mm _ _ E).
    - injection E as <-. exact len. }
  destruct (_ =? BPF_LDX).
  { match goal with |- context [match ?r with Ok _ => _ | Err _ => _ | Panic => _ | Died _ => _ end] =>
      destruct r as [v| | |] eqn:E end; cbn [snd]; try exact Hvm.
    apply idx. revert E.
    repeat match goal with |- (if ?c then _ else _) = _ -> _ => destruct c end; intros E; try discriminate.
    - injection E as <-. exact Hk.
    - exact (mm _ _ E).
    - injection E as <-. exact len. }
  destruct (_ =? BPF_ST).
  { destruct (index_set _ _ _) as [m'| | |] eqn:E; cbn [snd]; try exact Hvm. exact (st _ Ha _ _ E). }
  destruct (_ =? BPF_STX).
  { destruct (index_set _ _ _) as [m'| | |] eqn:E; cbn [snd]; try exact Hvm. exact (st _ Hx _ _ E). }
  destruct (_ =? BPF_ALU).
  { unfold bind. destruct (fetch_src vm _ f) as [sv| | |] eqn:F; cbn [snd]; try exact Hvm.
    destruct (alu _ _ _ _ _) as [v| | |] eqn:E; cbn [snd]; try exact Hvm.
    apply acc. exact (alu_word _ _ _ _ _ _ Ha (fs _ _ F) E). }
  destruct (_ =? BPF_JMP).
  { repeat match goal with |- context [if ?c then _ else _] => destruct c end; cbn [snd]; auto. }
  destruct (_ =? BPF_RET).
  { destruct (fetch_src vm _ f); exact Hvm. }
  destruct (_ =? BPF_MISC); exact Hvm.
Qed.

Lemma execute_wf : forall prof vm data,
  Forall wf_insn (vm_prog vm) -> words data -> wf_vm vm -> wf_vm (snd (execute prof vm data)).
Proof.
  intros prof vm data Hp Hd Hv. unfold execute. rewrite index_cases.
  destruct (nth_error _ _) as [f|] eqn:E; [|exact Hv].
  apply exec_insn_wf; auto. apply nth_error_In in E. rewrite Forall_forall in Hp. auto.
Qed.

Lemma run_loop_wf : forall fuel prof vm data,
  Forall wf_insn (vm_prog vm) -> words data -> wf_vm vm -> wf_vm (snd (run_loop fuel prof vm data)).
Proof.
  induction fuel as [|fuel IH]; intros prof vm data Hp Hd Hv; cbn [run_loop];
    destruct (_ <? _); try exact Hv.
  pose proof (execute_wf prof vm data Hp Hd Hv) as W.
  pose proof (execute_prog prof vm data) as P.
  destruct (execute prof vm data) as [[[v|]|e| |d] vm1]; cbn [snd] in *; try exact W.
  apply IH; [rewrite P; exact Hp|exact Hd|exact W].
Qed.

Lemma reset_wf : forall vm, wf_vm (vm_reset vm).
Proof.
  intros vm. repeat split; cbn; try reflexivity.
  unfold words. repeat constructor.
Qed.

Lemma c09 : forall prof ops prog vm0,
  Forall wf_insn prog -> vm_new prog = Ok vm0 -> (forall o, In o ops -> words (vm_op_data o)) ->
  let vm := fold_left (vm_apply prof) ops vm0 in
  vm_acc vm < 2 ^ 32 /\ vm_idx vm < 2 ^ 32 /\ length (vm_mem vm) = 16%nat /\
  Forall (fun c => c < 2 ^ 32) (vm_mem vm).
Proof.
  intros prof ops prog vm0 Hp Hn Ho.
  assert (W : wf_vm vm0 /\ vm_prog vm0 = prog).
  { unfold vm_new in Hn. destruct (_ <? _); [discriminate|]. injection Hn as <-.
    split; [|reflexivity]. exact (reset_wf (mkVM 0 0 0 [] [])). }
  destruct W as [W P]. rewrite <- P in Hp. clear Hn P.
  assert (G : wf_vm (fold_left (vm_apply prof) ops vm0)).
  { revert vm0 W Hp. induction ops as [|o ops IH]; intros vm0 W Hp; [exact W|].
    cbn [fold_left]. apply IH.
    - intros o' Ho'. apply Ho. right. exact Ho'.
    - specialize (Ho o (or_introl eq_refl)). destruct o as [data| |data]; cbn [vm_apply vm_op_data] in *.
      + unfold vm_run. apply run_loop_wf; [exact Hp|exact Ho|apply reset_wf].
      + apply reset_wf.
      + apply execute_wf; assumption.
    - rewrite vm_apply_prog. exact Hp. }
  destruct G as (A & X & M & L). repeat split; assumption.
Qed.
