(** Proofs for C113: exact cost of a call. *)
From Coq Require Import NArith ZArith String List Bool Lia Permutation.
From Verif Require Import Libc Machine Bpf SeccompRet Asm Vm Promises Filters Kernel World Spec FragProofs
  PolicyProofs CodeProofs CostSpec.
Import ListNotations.
Local Open Scope N_scope.

(** * Code whose jumps end in it or right behind it *)

Definition inner (c : list sock_filter) (f : sock_filter) : bool :=
  let n := N.of_nat (length c) in
  let code := sf_code f in
  (code =? 32) || (code =? 84) || (code =? 6) ||
  (((code =? 21) || (code =? 37)) && ((sf_jt f <=? n) && (sf_jf f <=? n))) ||
  ((code =? 5) && (sf_k f <=? n)).
Fixpoint closed (c : list sock_filter) : bool :=
  match c with [] => true | f :: c' => inner c' f && closed c' end.

(** The accumulator with which the code is left at its end, if it is. *)
Fixpoint kexit (c : list sock_filter) (skip a : N) (w : list N) : option N :=
  match c with
  | [] => Some a
  | f :: c' =>
      if negb (skip =? 0) then kexit c' (skip - 1) a w
      else match sf_code f with
      | 32 => kexit c' 0 (nth (N.to_nat (sf_k f / 4)) w 0) w
      | 84 => kexit c' 0 (N.land a (sf_k f)) w
      | 21 => kexit c' (if a =? sf_k f then sf_jt f else sf_jf f) a w
      | 37 => kexit c' (if sf_k f <? a then sf_jt f else sf_jf f) a w
      | 5 => kexit c' (sf_k f) a w
      | _ => None
      end
  end.

Ltac inner_cases f H :=
  destruct f as [code jt jf k]; unfold inner in H; cbn [sf_code sf_jt sf_jf sf_k] in *;
  assert (CC : code = 32 \/ code = 84 \/ code = 6 \/ code = 21 \/ code = 37 \/ code = 5)
    by (rewrite !orb_true_iff, !andb_true_iff, !orb_true_iff, !N.eqb_eq in H; tauto);
  destruct CC as [->|[->|[->|[->|[->| ->]]]]];
  cbn [N.eqb Pos.eqb orb andb] in H; rewrite ?orb_false_r in H.

Lemma ktrace_app : forall c rest skip a x mem w, closed c = true -> skip <= N.of_nat (length c) ->
  ktrace (c ++ rest) skip a x mem w =
  ktrace c skip a x mem w ++
  match kexit c skip a w with Some a' => ktrace rest 0 a' x mem w | None => [] end.
Proof.
  induction c as [|f c IH]; intros rest skip a x mem w C L.
  - cbn [length] in L. assert (skip = 0) as -> by lia. reflexivity.
  - cbn [closed] in C. apply andb_true_iff in C. destruct C as [I C].
    cbn [app ktrace kexit length] in *. rewrite Nat2N.inj_succ in L.
    destruct (N.eqb_spec skip 0) as [->|Z]; cbn [negb].
    + inner_cases f I; cbn [kdecode].
      * rewrite IH by (assumption || lia). reflexivity.
      * cbn [kalu_eval]. rewrite IH by (assumption || lia). reflexivity.
      * reflexivity.
      * apply andb_true_iff in I. rewrite !N.leb_le in I. destruct I as [I1 I2].
        cbn [kcmp_eval]. rewrite IH by (assumption || (destruct (a =? k); assumption)). reflexivity.
      * apply andb_true_iff in I. rewrite !N.leb_le in I. destruct I as [I1 I2].
        cbn [kcmp_eval]. rewrite IH by (assumption || (destruct (k <? a); assumption)). reflexivity.
      * apply N.leb_le in I. rewrite IH by assumption. reflexivity.
    + apply IH; [assumption|lia].
Qed.
Lemma keval_app : forall c rest skip a x mem w, closed c = true -> skip <= N.of_nat (length c) ->
  keval (c ++ rest) skip a x mem w =
  match kexit c skip a w with
  | Some a' => keval rest 0 a' x mem w
  | None => keval c skip a x mem w
  end.
Proof.
  induction c as [|f c IH]; intros rest skip a x mem w C L.
  - cbn [length] in L. assert (skip = 0) as -> by lia. reflexivity.
  - cbn [closed] in C. apply andb_true_iff in C. destruct C as [I C].
    cbn [app keval kexit length] in *. rewrite Nat2N.inj_succ in L.
    destruct (N.eqb_spec skip 0) as [->|Z]; cbn [negb].
    + inner_cases f I; cbn [kdecode].
      * apply IH; (assumption || lia).
      * cbn [kalu_eval]. apply IH; (assumption || lia).
      * reflexivity.
      * apply andb_true_iff in I. rewrite !N.leb_le in I. destruct I as [I1 I2].
        cbn [kcmp_eval]. apply IH; [assumption|destruct (a =? k); assumption].
      * apply andb_true_iff in I. rewrite !N.leb_le in I. destruct I as [I1 I2].
        cbn [kcmp_eval]. apply IH; [assumption|destruct (k <? a); assumption].
      * apply N.leb_le in I. apply IH; assumption.
    + apply IH; [assumption|lia].
Qed.
Lemma ktrace_nonempty : forall c skip a x mem w, skip < N.of_nat (length c) ->
  ktrace c skip a x mem w <> [].
Proof.
  induction c as [|f c IH]; intros skip a x mem w L; cbn [length] in L; [lia|].
  rewrite Nat2N.inj_succ in L. cbn [ktrace].
  destruct (N.eqb_spec skip 0) as [->|Z]; cbn [negb]; [discriminate|]. apply IH. lia.
Qed.

(** * Fragments *)

Lemma frag_closed : forall pid tid f, closed (frag pid tid f) = true.
Proof. intros pid tid f. destruct f; reflexivity. Qed.

Lemma frag_exit : forall pid tid f d,
  kexit (frag pid tid f) 0 (lo32 (sd_nr d)) (sd_words d) =
  if ruleb pid tid d f then None else Some (lo32 (sd_nr d)).
Proof.
  intros pid tid f d.
  assert (A : forall rest, match kexit (frag pid tid f) 0 (lo32 (sd_nr d)) (sd_words d) with
    | Some a' => keval rest 0 a' 0 [] (sd_words d)
    | None => keval (frag pid tid f) 0 (lo32 (sd_nr d)) 0 [] (sd_words d) end =
    if ruleb pid tid d f then 0x7fff0000 else keval rest 0 (lo32 (sd_nr d)) 0 [] (sd_words d)).
  { intros rest. rewrite <- keval_app by (apply frag_closed || lia). apply frag_run. }
  destruct (kexit (frag pid tid f) 0 (lo32 (sd_nr d)) (sd_words d)) as [a'|];
    destruct (ruleb pid tid d f); try reflexivity.
  - specialize (A [SockFilter 6 0 0 1]). discriminate A.
  - specialize (A [SockFilter 0x16 0 0 0]). cbn in A. congruence.
  - pose proof (A [SockFilter 6 0 0 1]) as A1. pose proof (A [SockFilter 6 0 0 2]) as A2.
    cbn [keval] in A1, A2. rewrite A1 in A2. discriminate A2.
Qed.

Definition scan_of (f : Filtered) : nat := match f with Whitelist _ => 1 | _ => 2 end.

(** The first instruction compares the number; every rule but a plain one ends with another. *)
Lemma frag_head : forall pid tid f, exists jf c,
  frag pid tid f = SockFilter 21 0 jf (as_u32 (fst (rule_of f))) :: c /\
  match f with
  | Whitelist _ => length c = 1%nat /\ jf = 1
  | _ => (1 < length c)%nat /\ jf = N.of_nat (length c) - 1
  end.
Proof.
  intros pid tid f.
  destruct f; expose_frag; eexists _, _; (split; [reflexivity|]); cbn [length]; split; (lia || reflexivity).
Qed.

Lemma ktrace_past : forall c skip a x mem w, N.of_nat (length c) <= skip -> ktrace c skip a x mem w = [].
Proof.
  induction c as [|f c IH]; intros skip a x mem w L; [reflexivity|].
  cbn [length] in L. rewrite Nat2N.inj_succ in L. cbn [ktrace].
  destruct (N.eqb_spec skip 0) as [->|Z]; [lia|]. cbn [negb]. apply IH. lia.
Qed.
Lemma ktrace_last : forall c skip a x mem w, N.of_nat (length c) = skip + 1 ->
  length (ktrace c skip a x mem w) = 1%nat.
Proof.
  induction c as [|f c IH]; intros skip a x mem w L; [cbn in L; lia|].
  cbn [length] in L. rewrite Nat2N.inj_succ in L. cbn [ktrace].
  destruct (N.eqb_spec skip 0) as [->|Z]; cbn [negb]; [|apply IH; lia].
  assert (length c = 0%nat) as Z by lia. apply length_zero_iff_nil in Z. subst c. cbn [ktrace length].
  f_equal. destruct (kdecode (sf_code f)) as [i|]; [|reflexivity].
  destruct i as [ | | | | | | | | |op sx| | |c sx| | | | ]; try reflexivity.
  destruct (kalu_eval op a (if sx then x else sf_k f)); reflexivity.
Qed.

Lemma scan_miss : forall pid tid f x mem d, lo32 (sd_nr d) <> as_u32 (fst (rule_of f)) ->
  length (ktrace (frag pid tid f) 0 (lo32 (sd_nr d)) x mem (sd_words d)) = scan_of f.
Proof.
  intros pid tid f x mem d N. apply N.eqb_neq in N.
  destruct (frag_head pid tid f) as (jf & c & E & S). rewrite E.
  cbn [ktrace N.eqb negb kdecode sf_code sf_jt sf_jf sf_k kcmp_eval length]. rewrite N.
  assert (D : scan_of f = 1%nat /\ length c = 1%nat /\ jf = 1 \/
              scan_of f = 2%nat /\ (1 < length c)%nat /\ jf = N.of_nat (length c) - 1).
  { destruct f; (right; split; [reflexivity|exact S]) || (left; split; [reflexivity|exact S]). }
  destruct D as [(-> & L & ->)|(-> & L & ->)].
  - rewrite ktrace_past by lia. reflexivity.
  - rewrite ktrace_last by lia. reflexivity.
Qed.
Lemma scan_left : forall pid tid f x mem d, ruleb pid tid d f = false ->
  (scan_of f <= length (ktrace (frag pid tid f) 0 (lo32 (sd_nr d)) x mem (sd_words d)))%nat.
Proof.
  intros pid tid f x mem d H. destruct (frag_head pid tid f) as (jf & c & E & S). rewrite E.
  cbn [ktrace N.eqb negb kdecode sf_code sf_jt sf_jf sf_k kcmp_eval length].
  assert (W : forall skip a, skip < N.of_nat (length c) ->
    (1 <= length (ktrace c skip a x mem (sd_words d)))%nat).
  { intros skip a L. pose proof (ktrace_nonempty c skip a x mem (sd_words d) L) as P.
    destruct (ktrace c skip a x mem (sd_words d)); [congruence|cbn; lia]. }
  assert (D : (exists n, f = Whitelist n) \/ scan_of f = 2%nat /\ (1 < length c)%nat /\ jf = N.of_nat (length c) - 1).
  { destruct f; (right; split; [reflexivity|exact S]) || (left; eexists; reflexivity). }
  destruct D as [[n ->]|(-> & L & J)].
  - cbn [scan_of]. lia.
  - apply le_n_S. apply W. destruct (lo32 (sd_nr d) =? as_u32 (fst (rule_of f))); lia.
Qed.

(** * Whole filters *)

Notation code pid tid fs v := (List.concat (map (frag pid tid) fs) ++ [SockFilter 6 0 0 (ret_into v)]).
Fixpoint scans (fs : list Filtered) : nat :=
  match fs with [] => 0 | f :: fs' => scan_of f + scans fs' end.

Lemma trace_step : forall pid tid f rest x mem d,
  ktrace (frag pid tid f ++ rest) 0 (lo32 (sd_nr d)) x mem (sd_words d) =
  ktrace (frag pid tid f) 0 (lo32 (sd_nr d)) x mem (sd_words d) ++
  (if ruleb pid tid d f then [] else ktrace rest 0 (lo32 (sd_nr d)) x mem (sd_words d)).
Proof.
  intros. rewrite ktrace_app by (apply frag_closed || lia). rewrite frag_exit.
  destruct (ruleb pid tid d f); reflexivity.
Qed.

Lemma code_miss : forall pid tid fs v x mem d,
  (forall f, In f fs -> lo32 (sd_nr d) <> as_u32 (fst (rule_of f))) ->
  length (ktrace (code pid tid fs v) 0 (lo32 (sd_nr d)) x mem (sd_words d)) = S (scans fs).
Proof.
  intros pid tid fs v x mem d. induction fs as [|f fs IH]; intros H; [reflexivity|].
  cbn [map List.concat]. rewrite <- app_assoc, trace_step, app_length.
  rewrite scan_miss by (apply H; left; reflexivity).
  assert (ruleb pid tid d f = false) as ->.
  { unfold ruleb. destruct (N.eqb_spec (lo32 (sd_nr d)) (as_u32 (fst (rule_of f)))) as [E|]; [|reflexivity].
    exfalso. apply (H f); [left; reflexivity|exact E]. }
  rewrite IH by (intros g G; apply H; right; exact G). cbn [scans]. lia.
Qed.
Lemma code_left : forall pid tid fs v x mem d, existsb (ruleb pid tid d) fs = false ->
  (S (scans fs) <= length (ktrace (code pid tid fs v) 0 (lo32 (sd_nr d)) x mem (sd_words d)))%nat.
Proof.
  intros pid tid fs v x mem d. induction fs as [|f fs IH]; intros H; [cbn; lia|].
  cbn [existsb] in H. apply orb_false_iff in H. destruct H as [H1 H2].
  cbn [map List.concat]. rewrite <- app_assoc, trace_step, app_length, H1.
  pose proof (scan_left pid tid f x mem d H1). specialize (IH H2). cbn [scans]. lia.
Qed.
Lemma code_early : forall pid tid fs gs v v' x mem d, existsb (ruleb pid tid d) fs = true ->
  ktrace (code pid tid (fs ++ gs) v) 0 (lo32 (sd_nr d)) x mem (sd_words d) =
  ktrace (code pid tid fs v') 0 (lo32 (sd_nr d)) x mem (sd_words d).
Proof.
  intros pid tid fs gs v v' x mem d. induction fs as [|f fs IH]; intros H; [discriminate|].
  cbn [existsb] in H. cbn [app map List.concat]. rewrite <- !app_assoc, !trace_step.
  destruct (ruleb pid tid d f); [reflexivity|]. rewrite IH by exact H. reflexivity.
Qed.

Lemma kt_ld : forall jt jf k rest a x mem w,
  ktrace (SockFilter 32 jt jf k :: rest) 0 a x mem w =
  SockFilter 32 jt jf k :: ktrace rest 0 (nth (N.to_nat (k / 4)) w 0) x mem w.
Proof. reflexivity. Qed.
Lemma kt_jeq : forall jt jf k rest a x mem w,
  ktrace (SockFilter 21 jt jf k :: rest) 0 a x mem w =
  SockFilter 21 jt jf k :: ktrace rest (if a =? k then jt else jf) a x mem w.
Proof. reflexivity. Qed.
Lemma kt_ret : forall jt jf k rest a x mem w,
  ktrace (SockFilter 6 jt jf k :: rest) 0 a x mem w = [SockFilter 6 jt jf k].
Proof. reflexivity. Qed.
Lemma kt_one : forall f rest a x mem w,
  ktrace (f :: rest) 1 a x mem w = ktrace rest 0 a x mem w.
Proof. reflexivity. Qed.

Lemma header_trace : forall rest mem d, native d ->
  ktrace (header_code ++ rest) 0 0 0 mem (sd_words d) =
  [SockFilter 32 0 0 4; SockFilter 21 1 0 X86_64; SockFilter 32 0 0 0] ++
  ktrace rest 0 (lo32 (sd_nr d)) 0 mem (sd_words d).
Proof.
  intros rest mem d [_ A]. unfold header_code. cbn [app]. rewrite kt_ld, kt_jeq.
  change (nth (N.to_nat (4 / 4)) (sd_words d) 0) with (lo32 (sd_arch d)). rewrite A.
  change (lo32 X86_64) with X86_64. rewrite N.eqb_refl, kt_one, kt_ld. reflexivity.
Qed.
Lemma foreign_trace : forall rest mem d, wf_data d -> sd_arch d <> X86_64 ->
  length (ktrace (header_code ++ rest) 0 0 0 mem (sd_words d)) = 3%nat.
Proof.
  intros rest mem d (_ & W & _) A. unfold header_code. cbn [app]. rewrite kt_ld, kt_jeq.
  change (nth (N.to_nat (4 / 4)) (sd_words d) 0) with (lo32 (sd_arch d)).
  rewrite lo32_small by exact W. apply N.eqb_neq in A. rewrite A, kt_ret. reflexivity.
Qed.

Lemma scans_app : forall a b, scans (a ++ b) = (scans a + scans b)%nat.
Proof. induction a as [|f a IH]; intros b; cbn; [reflexivity|]. rewrite IH. lia. Qed.
Lemma promise_scans : forall p, N.of_nat (scans (pfilters p)) = promise_scan p.
Proof. destruct p; vm_compute; reflexivity. Qed.
Lemma all_scans : forall ps,
  N.of_nat (scans (all_filters ps)) = promises_scan (Default :: ps).
Proof.
  intros ps. unfold all_filters. generalize (Default :: ps) as l.
  induction l as [|p l IH]; [reflexivity|].
  cbn [map List.concat promises_scan]. rewrite scans_app, Nat2N.inj_add, IH, promise_scans. reflexivity.
Qed.

Lemma unnamed_miss : forall ps d f, wf_data d -> unnamed ps (sd_nr d) -> In f (all_filters ps) ->
  lo32 (sd_nr d) <> as_u32 (fst (rule_of f)).
Proof.
  intros ps d f (Hnr & _) U Hf Hn. rewrite lo32_small in Hn by exact Hnr.
  unfold all_filters in Hf. apply in_concat in Hf. destruct Hf as [fs [Hfs Hf]].
  apply in_map_iff in Hfs. destruct Hfs as [p [<- Hp]].
  pose proof table_in_policy as T. rewrite forallb_forall in T.
  specialize (T p (all_promises_complete p)). rewrite forallb_forall in T. specialize (T f Hf).
  pose proof table_small as S. rewrite forallb_forall in S.
  specialize (S p (all_promises_complete p)). rewrite forallb_forall in S.
  specialize (S f Hf). apply N.ltb_lt in S.
  unfold as_u32 in Hn. rewrite N.mod_small in Hn by (rewrite u32_mod_val; lia).
  unfold listed in T. rewrite existsb_exists in T. destruct T as [[nr alts] [Hrow T]].
  cbn [fst snd] in T. apply andb_true_iff in T. destruct T as [Tn T]. apply N.eqb_eq in Tn.
  rewrite existsb_exists in T. destruct T as [[r who] [Halt T]]. cbn [fst snd] in T.
  apply andb_true_iff in T. destruct T as [_ T].
  rewrite existsb_exists in T. destruct T as [q [Hq T]]. apply promise_eqb_eq in T. subst q.
  rewrite <- Tn in Hn. rewrite <- Hn in Hrow.
  destruct (U _ _ _ _ Hrow Halt Hq) as [D I]. destruct Hp as [Hp|Hp]; [congruence|contradiction].
Qed.

Lemma exec_code : forall pid tid ps v mem d, native d ->
  insns_executed (pcode pid tid ps v) mem d =
  3 + N.of_nat (length (ktrace (code pid tid (all_filters ps) v) 0 (lo32 (sd_nr d)) 0 mem (sd_words d))).
Proof.
  intros pid tid ps v mem d N. unfold insns_executed, pcode, fcode.
  rewrite header_trace by exact N. rewrite app_length. cbn [length]. lia.
Qed.

(** * C113 *)

Lemma c113 : forall prof pid tid ps v prog mem d,
  filter_for prof pid tid ps v prog -> wf_data d ->
  (sd_arch d <> X86_64 -> insns_executed prog mem d = 3) /\
  (sd_arch d = X86_64 -> unnamed ps (sd_nr d) ->
     insns_executed prog mem d = 5 + promises_scan ps) /\
  (sd_arch d = X86_64 -> ~ granted ps pid tid d -> 5 + promises_scan ps <= insns_executed prog mem d) /\
  (sd_arch d = X86_64 -> sd_nr d = SYS_exit -> insns_executed prog mem d = 5).
Proof.
  intros prof pid tid ps v prog mem d F W. pose proof (filter_for_pcode _ _ _ _ _ _ F) as ->. clear F.
  pose proof (all_scans ps) as S. cbn [promises_scan promise_scan] in S.
  split; [|split; [|split]].
  - intros A. unfold insns_executed, pcode, fcode. rewrite foreign_trace by assumption. reflexivity.
  - intros A U. rewrite exec_code by (split; assumption).
    rewrite code_miss by (intros f I; exact (unnamed_miss ps d f W U I)). lia.
  - intros A G. rewrite exec_code by (split; assumption).
    assert (E : existsb (ruleb pid tid d) (all_filters ps) = false).
    { destruct (existsb (ruleb pid tid d) (all_filters ps)) eqn:E; [|reflexivity].
      apply fgrant in E; [contradiction|exact W]. }
    pose proof (code_left pid tid (all_filters ps) v 0 mem d E). lia.
  - intros A E. rewrite exec_code by (split; assumption).
    change (all_filters ps) with (Whitelist SYS_exit :: List.concat (map pfilters ps)).
    cbn [map List.concat]. rewrite <- app_assoc, frag_whitelist. rewrite E.
    reflexivity.
Qed.

Lemma c113_early : forall prof prof' pid tid ps qs v v' prog prog' mem d,
  filter_for prof pid tid ps v prog -> filter_for prof' pid tid (ps ++ qs) v' prog' ->
  native d -> granted ps pid tid d ->
  ktrace prog' 0 0 0 mem (sd_words d) = ktrace prog 0 0 0 mem (sd_words d).
Proof.
  intros prof prof' pid tid ps qs v v' prog prog' mem d F F' N G.
  pose proof (filter_for_pcode _ _ _ _ _ _ F) as ->. pose proof (filter_for_pcode _ _ _ _ _ _ F') as ->.
  clear F F'. unfold pcode, fcode. rewrite !header_trace by exact N. f_equal.
  assert (E : all_filters (ps ++ qs) = all_filters ps ++ List.concat (map pfilters qs)).
  { unfold all_filters. rewrite app_comm_cons, map_app, concat_app. reflexivity. }
  rewrite E. apply code_early. apply fgrant; [apply N|exact G].
Qed.

Lemma code_add : forall pid tid fs gs v v' v'' x mem d, existsb (ruleb pid tid d) fs = false ->
  (length (ktrace (code pid tid (fs ++ gs) v'') 0 (lo32 (sd_nr d)) x mem (sd_words d)) + 1 =
   length (ktrace (code pid tid fs v) 0 (lo32 (sd_nr d)) x mem (sd_words d)) +
   length (ktrace (code pid tid gs v') 0 (lo32 (sd_nr d)) x mem (sd_words d)))%nat.
Proof.
  intros pid tid fs gs v v' v'' x mem d. induction fs as [|f fs IH]; intros H.
  - cbn [app map List.concat]. rewrite kt_ret. cbn [length].
    assert (E : forall u u', length (ktrace (code pid tid gs u) 0 (lo32 (sd_nr d)) x mem (sd_words d)) =
                             length (ktrace (code pid tid gs u') 0 (lo32 (sd_nr d)) x mem (sd_words d))).
    { intros u u'. induction gs as [|g gs IHg]; [reflexivity|]. cbn [map List.concat]. rewrite <- !app_assoc, !trace_step, !app_length.
      destruct (ruleb pid tid d g); [reflexivity|]. rewrite IHg. reflexivity. }
    rewrite (E v'' v'). lia.
  - cbn [existsb] in H. apply orb_false_iff in H. destruct H as [H1 H2].
    cbn [app map List.concat]. rewrite <- !app_assoc, !trace_step, !app_length, !H1. specialize (IH H2). lia.
Qed.

Lemma refused_rules : forall ps pid tid d, wf_data d -> ~ granted ps pid tid d ->
  existsb (ruleb pid tid d) (all_filters ps) = false.
Proof.
  intros ps pid tid d W G. destruct (existsb (ruleb pid tid d) (all_filters ps)) eqn:E; [|reflexivity].
  apply fgrant in E; [contradiction|exact W].
Qed.

Lemma c113_add : forall prof prof' prof'' pid tid ps qs v v' v'' prog prog' prog'' mem d,
  filter_for prof pid tid ps v prog -> filter_for prof' pid tid qs v' prog' ->
  filter_for prof'' pid tid (ps ++ qs) v'' prog'' -> native d -> ~ granted ps pid tid d ->
  insns_executed prog'' mem d + 5 = insns_executed prog mem d + insns_executed prog' mem d.
Proof.
  intros prof prof' prof'' pid tid ps qs v v' v'' prog prog' prog'' mem d F F' F'' N G.
  pose proof (filter_for_pcode _ _ _ _ _ _ F) as ->. pose proof (filter_for_pcode _ _ _ _ _ _ F') as ->.
  pose proof (filter_for_pcode _ _ _ _ _ _ F'') as ->. clear F F' F''. rewrite !exec_code by exact N.
  assert (E : all_filters (ps ++ qs) = all_filters ps ++ List.concat (map pfilters qs)).
  { unfold all_filters. rewrite app_comm_cons, map_app, concat_app. reflexivity. }
  rewrite E. pose proof (refused_rules ps pid tid d (proj1 N) G) as R.
  pose proof (code_add pid tid (all_filters ps) (List.concat (map pfilters qs)) v v' v'' 0 mem d R) as A.
  assert (Q : all_filters qs = [Whitelist SYS_exit] ++ List.concat (map pfilters qs)) by reflexivity.
  rewrite Q.
  assert (R1 : existsb (ruleb pid tid d) [Whitelist SYS_exit] = false).
  { change (all_filters ps) with ([Whitelist SYS_exit] ++ List.concat (map pfilters ps)) in R.
    rewrite existsb_app in R. apply orb_false_iff in R. apply R. }
  pose proof (code_add pid tid [Whitelist SYS_exit] (List.concat (map pfilters qs)) v v' v' 0 mem d R1) as B.
  assert (L : length (ktrace (code pid tid [Whitelist SYS_exit] v) 0 (lo32 (sd_nr d)) 0 mem (sd_words d)) = 2%nat).
  { cbn [map List.concat]. rewrite app_nil_r, trace_step, app_length. cbn [existsb] in R1. apply orb_false_iff in R1.
    rewrite (proj1 R1). rewrite scan_miss; [reflexivity|]. intros X. destruct R1 as [R1 _]. unfold ruleb in R1. rewrite X, N.eqb_refl in R1.
    cbn in R1. discriminate R1. }
  lia.
Qed.

Lemma sum_perm : forall (g : Filtered -> nat) fs gs, Permutation fs gs -> list_sum (map g fs) = list_sum (map g gs).
Proof.
  intros g fs gs P. induction P; cbn [map list_sum fold_right] in *; [reflexivity| |lia|congruence].
  unfold list_sum in *. cbn [fold_right]. rewrite IHP. reflexivity.
Qed.
Lemma code_sum : forall pid tid fs v x mem d, existsb (ruleb pid tid d) fs = false ->
  length (ktrace (code pid tid fs v) 0 (lo32 (sd_nr d)) x mem (sd_words d)) =
  S (list_sum (map (fun f => length (ktrace (frag pid tid f) 0 (lo32 (sd_nr d)) x mem (sd_words d))) fs)).
Proof.
  intros pid tid fs v x mem d. induction fs as [|f fs IH]; intros H; [reflexivity|].
  cbn [existsb] in H. apply orb_false_iff in H. destruct H as [H1 H2].
  cbn [map List.concat]. rewrite <- app_assoc, trace_step, app_length, H1, IH by exact H2. unfold list_sum. cbn [fold_right]. rewrite Nat.add_succ_r. reflexivity.
Qed.

Lemma c113_order : forall prof prof' pid tid ps qs v v' prog prog' mem d,
  filter_for prof pid tid ps v prog -> filter_for prof' pid tid qs v' prog' -> Permutation.Permutation ps qs ->
  native d -> ~ granted ps pid tid d ->
  insns_executed prog mem d = insns_executed prog' mem d.
Proof.
  intros prof prof' pid tid ps qs v v' prog prog' mem d F F' P N G.
  pose proof (filter_for_pcode _ _ _ _ _ _ F) as ->. pose proof (filter_for_pcode _ _ _ _ _ _ F') as ->.
  clear F F'. rewrite !exec_code by exact N.
  pose proof (refused_rules ps pid tid d (proj1 N) G) as R.
  assert (PP : Permutation (all_filters ps) (all_filters qs)).
  { unfold all_filters. rewrite <- !flat_map_concat_map. apply Permutation_flat_map. constructor. exact P. }
  assert (R' : existsb (ruleb pid tid d) (all_filters qs) = false).
  { destruct (existsb (ruleb pid tid d) (all_filters qs)) eqn:E; [|reflexivity].
    apply existsb_exists in E. destruct E as (f & I & E). apply Permutation_sym in PP.
    rewrite <- R. symmetry. apply existsb_exists. exists f. split; [exact (Permutation_in f PP I)|exact E]. }
  rewrite !code_sum by assumption. rewrite (sum_perm _ _ _ PP). reflexivity.
Qed.
