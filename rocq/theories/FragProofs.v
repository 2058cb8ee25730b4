(** Execution of the filter fragments, and of whole filters, against boolean rules. *)
From Coq Require Import NArith ZArith String List Bool Lia.
From Verif Require Import Libc Machine Bpf SeccompRet Asm Vm Promises Filters Kernel World Spec.
Import ListNotations.
Local Open Scope N_scope.

(** * Boolean form of the argument rules *)

Definition memb (x : N) (l : list N) : bool := existsb (N.eqb x) l.

Definition argsb (r : argrule) (pid tid : N) (d : seccomp_data) : bool :=
  let a0 := lo32 (sd_a0 d) in let a1 := lo32 (sd_a1 d) in let a2 := lo32 (sd_a2 d) in
  let a3 := lo32 (sd_a3 d) in
  match r with
  | AnyArgs => true
  | FcntlBasic => (a1 =? 1030) || negb (4 <? a1)
  | FcntlLocks => memb a1 [5; 6; 7]
  | MapNoExec => negb (2 <? a2) && (N.land a3 0x5a000 =? 0)
  | MapAny => N.land a3 0x52000 =? 0
  | ProtNoExec => N.land a2 0xfffffffc =? 0
  | SendNoAddr => (lo32 (sd_a4 d) =? 0) && (hi32 (sd_a4 d) =? 0)
  | IoctlFile => memb a1 [0x541b; 0x5421; 0x5451; 0x5450]
  | IoctlTerm => memb a1 ioctl_term
  | IoctlSock => memb a1 [0x8905]
  | SelfPid => a0 =? pid
  | SelfTid => a0 =? as_u32 tid
  | PrctlBasic => memb a0 [15; 16; 21; 22; 38; 23; 24]
  | NewThread => (N.land a0 0x10f00 =? 0x10f00) && (N.land a0 0x822000 =? 0)
  | NewTask => N.land a0 0x822000 =? 0
  | LimitPtrLow => a2 =? 0
  | OpenRead => (N.land a2 3 =? 0) && (N.land a2 0x400240 =? 0)
  | OpenWrite =>
      ((N.land a2 3 =? 1) || (N.land a2 3 =? 2)) && (N.land a2 0x400040 =? 0)
  | OpenCreate =>
      if (N.land a2 0x40 =? 0x40) || (N.land a2 0x400000 =? 0x400000)
      then N.land a3 0xe00 =? 0 else true
  | ModeArg1 => N.land a1 0xe00 =? 0
  | SockInet =>
      ((a0 =? 2) || (a0 =? 10)) &&
      ((N.land a1 0xfff7f7ff =? 1) || (N.land a1 0xfff7f7ff =? 2)) &&
      memb a2 [0; 1; 6; 17]
  | SockUnix =>
      (a0 =? 1) &&
      ((N.land a1 0xfff7f7ff =? 1) || (N.land a1 0xfff7f7ff =? 2)) &&
      (a2 =? 0)
  | OptGet => memb a1 getsockopt_levels && memb a2 getsockopt_options
  | OptSet => memb a1 setsockopt_levels && memb a2 setsockopt_options
  end.

(** System call and argument rule of each fragment. *)
Definition rule_of (f : Filtered) : N * argrule :=
  match f with
  | Whitelist nr => (nr, AnyArgs)
  | FcntlStdio => (SYS_fcntl, FcntlBasic)
  | MmapNoexec => (SYS_mmap, MapNoExec)
  | MprotectNoexec => (SYS_mprotect, ProtNoExec)
  | SendtoAddrless => (SYS_sendto, SendNoAddr)
  | IoctlRestrict => (SYS_ioctl, IoctlFile)
  | KillSelf => (SYS_kill, SelfPid)
  | TkillSelf => (SYS_tkill, SelfTid)
  | PrctlStdio => (SYS_prctl, PrctlBasic)
  | CloneThread => (SYS_clone, NewThread)
  | Prlimit64Stdio => (SYS_prlimit64, LimitPtrLow)
  | OpenReadonly => (SYS_open, OpenRead)
  | OpenatReadonly => (SYS_openat, OpenRead)
  | OpenWriteonly => (SYS_open, OpenWrite)
  | OpenatWriteonly => (SYS_openat, OpenWrite)
  | ChmodNobits => (SYS_chmod, ModeArg1)
  | FchmodNobits => (SYS_fchmod, ModeArg1)
  | FchmodatNobits => (SYS_fchmodat, ModeArg1)
  | OpenCreateonly => (SYS_open, OpenCreate)
  | OpenatCreateonly => (SYS_openat, OpenCreate)
  | CreatRestrict => (SYS_creat, ModeArg1)
  | FcntlLock => (SYS_fcntl, FcntlLocks)
  | SocketInet => (SYS_socket, SockInet)
  | IoctlInet => (SYS_ioctl, IoctlSock)
  | GetsockoptRestrict => (SYS_getsockopt, OptGet)
  | SetsockoptRestrict => (SYS_getsockopt, OptSet)
  | SocketUnix => (SYS_socket, SockUnix)
  | IoctlTty => (SYS_ioctl, IoctlTerm)
  | CloneRestrict => (SYS_clone, NewTask)
  | MmapExec => (SYS_mmap, MapAny)
  end.

Definition ruleb (pid tid : N) (d : seccomp_data) (f : Filtered) : bool :=
  (lo32 (sd_nr d) =? as_u32 (fst (rule_of f))) && argsb (snd (rule_of f)) pid tid d.

(** * Compiled fragments *)

Definition ids (pid tid : N) : sysenv := mkEnv (Ok pid) (Ok tid).

Definition frag (pid tid : N) (f : Filtered) : list sock_filter :=
  match filter_to_bpf Release (ids pid tid) f with Ok c => c | _ => [] end.

Lemma frag_ok : forall prof pid tid f,
  filter_to_bpf prof (ids pid tid) f = Ok (frag pid tid f).
Proof. intros prof pid tid f. destruct f, prof; reflexivity. Qed.

Lemma frags_ok : forall prof pid tid fs,
  mapM (filter_to_bpf prof (ids pid tid)) fs = Ok (map (frag pid tid) fs).
Proof.
  intros prof pid tid fs. induction fs as [|f fs IH]; [reflexivity|].
  cbn [mapM map]. rewrite frag_ok, IH. reflexivity.
Qed.

Definition header_code : list sock_filter :=
  [SockFilter 32 0 0 4; SockFilter 21 1 0 X86_64; SockFilter 6 0 0 0x80000000;
   SockFilter 32 0 0 0].
Lemma header_ok : forall prof, bpf_header prof = Ok header_code.
Proof. destruct prof; reflexivity. Qed.
Lemma footer_ok : forall prof v, bpf_footer prof v = Ok [SockFilter 6 0 0 (ret_into v)].
Proof. destruct prof; reflexivity. Qed.

Definition fcode (pid tid : N) (fs : list Filtered) (v : SeccompReturn) : list sock_filter :=
  header_code ++ List.concat (map (frag pid tid) fs) ++ [SockFilter 6 0 0 (ret_into v)].

(** The same with different ids for each rule. *)
Definition rfrag (r : Filtered * (N * N)) : list sock_filter :=
  frag (fst (snd r)) (snd (snd r)) (fst r).
Definition gcode (rs : list (Filtered * (N * N))) (v : SeccompReturn) : list sock_filter :=
  header_code ++ List.concat (map rfrag rs) ++ [SockFilter 6 0 0 (ret_into v)].
Definition with_same (pid tid : N) (f : Filtered) : Filtered * (N * N) := (f, (pid, tid)).
Lemma fcode_gcode : forall pid tid fs v,
  fcode pid tid fs v = gcode (map (with_same pid tid) fs) v.
Proof. intros. unfold fcode, gcode. rewrite map_map. reflexivity. Qed.

Lemma assemble_ok : forall prof cs v,
  assemble_parts prof cs v = Ok (header_code ++ List.concat cs ++ [SockFilter 6 0 0 (ret_into v)]).
Proof. intros. unfold assemble_parts. rewrite header_ok. cbn [bind]. rewrite footer_ok. reflexivity. Qed.

Lemma filters_to_prog_ok : forall prof pid tid fs v,
  filters_to_prog prof (ids pid tid) fs v = Ok (fcode pid tid fs v).
Proof.
  intros. unfold filters_to_prog. rewrite frags_ok. cbn [bind]. apply assemble_ok.
Qed.

(** The table is total. *)
Definition pfilters (p : Promise) : list Filtered :=
  match promises_get p with Some fs => fs | None => [] end.
Lemma promise_filters_ok : forall p, promise_filters p = Ok (pfilters p).
Proof. destruct p; reflexivity. Qed.
Definition all_filters (ps : list Promise) : list Filtered :=
  List.concat (map pfilters (Default :: ps)).

Lemma mapM_promise_filters : forall ps, mapM promise_filters ps = Ok (map pfilters ps).
Proof.
  induction ps as [|p ps IH]; [reflexivity|].
  cbn [mapM map]. rewrite promise_filters_ok, IH. reflexivity.
Qed.

Definition pcode (pid tid : N) (ps : list Promise) (v : SeccompReturn) : list sock_filter :=
  fcode pid tid (all_filters ps) v.

Lemma pcode_gcode : forall pid tid ps v,
  pcode pid tid ps v = gcode (map (with_same pid tid) (all_filters ps)) v.
Proof. intros. apply fcode_gcode. Qed.

Lemma promises_to_filters_ok : forall ps, promises_to_filters ps = Ok (all_filters ps).
Proof. intros. unfold promises_to_filters. rewrite mapM_promise_filters. reflexivity. Qed.

Lemma promises_to_prog_ok : forall prof pid tid ps v,
  promises_to_prog prof (ids pid tid) ps v = Ok (pcode pid tid ps v).
Proof.
  intros. unfold promises_to_prog. rewrite promises_to_filters_ok. cbn [bind].
  apply filters_to_prog_ok.
Qed.

(** * Execution *)

Lemma kev_skip : forall f rest p a x mem w,
  keval (f :: rest) (N.pos p) a x mem w = keval rest (N.pos p - 1) a x mem w.
Proof. reflexivity. Qed.
Lemma kev_ld : forall jt jf k rest a x mem w,
  keval (SockFilter 32 jt jf k :: rest) 0 a x mem w =
  keval rest 0 (nth (N.to_nat (k / 4)) w 0) x mem w.
Proof. reflexivity. Qed.
Lemma kev_and : forall jt jf k rest a x mem w,
  keval (SockFilter 84 jt jf k :: rest) 0 a x mem w = keval rest 0 (N.land a k) x mem w.
Proof. reflexivity. Qed.
Lemma kev_jeq : forall jt jf k rest a x mem w,
  keval (SockFilter 21 jt jf k :: rest) 0 a x mem w =
  keval rest (if a =? k then jt else jf) a x mem w.
Proof. reflexivity. Qed.
Lemma kev_jgt : forall jt jf k rest a x mem w,
  keval (SockFilter 37 jt jf k :: rest) 0 a x mem w =
  keval rest (if k <? a then jt else jf) a x mem w.
Proof. reflexivity. Qed.
Lemma kev_ja : forall jt jf k rest a x mem w,
  keval (SockFilter 5 jt jf k :: rest) 0 a x mem w = keval rest k a x mem w.
Proof. reflexivity. Qed.
Lemma kev_ret : forall jt jf k rest a x mem w,
  keval (SockFilter 6 jt jf k :: rest) 0 a x mem w = k.
Proof. reflexivity. Qed.

Ltac kstep :=
  first
  [ rewrite kev_ret
  | rewrite kev_skip;
    match goal with
    | |- context [N.pos ?p - 1] => let v := eval vm_compute in (N.pos p - 1) in
                                   change (N.pos p - 1) with v
    end
  | rewrite kev_ld;
    match goal with
    | |- context [nth (N.to_nat (?k / 4)) (sd_words ?d) 0] =>
        let i := eval vm_compute in (N.to_nat (k / 4)) in
        change (N.to_nat (k / 4)) with i; cbn [nth sd_words]
    end
  | rewrite kev_and
  | rewrite kev_ja
  | (rewrite kev_jeq || rewrite kev_jgt);
    match goal with
    | H : ?b = _ |- context [keval _ (if ?b then _ else _) _ _ _ _] => rewrite H
    | |- context [keval _ (if ?b then _ else _) _ _ _ _] =>
        let E := fresh "E" in destruct b eqn:E; cbn [andb orb negb]
    end ].

Lemma frag_whitelist : forall pid tid nr,
  frag pid tid (Whitelist nr) = [SockFilter 21 0 1 (as_u32 nr); SockFilter 6 0 0 0x7fff0000].
Proof. reflexivity. Qed.
Lemma frag_kill : forall pid tid,
  frag pid tid KillSelf =
  [SockFilter 21 0 5 SYS_kill; SockFilter 32 0 0 16; SockFilter 21 1 0 pid; SockFilter 5 0 0 2;
   SockFilter 6 0 0 0x7fff0000; SockFilter 6 0 0 0x7fff0000; SockFilter 32 0 0 0].
Proof. reflexivity. Qed.
Lemma frag_tkill : forall pid tid,
  frag pid tid TkillSelf =
  [SockFilter 21 0 5 SYS_tkill; SockFilter 32 0 0 16; SockFilter 21 1 0 (as_u32 tid);
   SockFilter 5 0 0 2;
   SockFilter 6 0 0 0x7fff0000; SockFilter 6 0 0 0x7fff0000; SockFilter 32 0 0 0].
Proof. reflexivity. Qed.

Ltac expose_frag :=
  match goal with
  | |- context [frag ?p ?t (Whitelist ?n)] => rewrite frag_whitelist
  | |- context [frag ?p ?t KillSelf] => rewrite frag_kill
  | |- context [frag ?p ?t TkillSelf] => rewrite frag_tkill
  | |- context [frag ?p ?t ?f] =>
      let c := eval vm_compute in (frag p t f) in change (frag p t f) with c
  end.
Ltac expose_nr :=
  cbn [rule_of fst snd];
  match goal with
  | |- context [as_u32 (?n)] =>
      let v := eval vm_compute in (as_u32 n) in
      lazymatch v with N.pos _ => change (as_u32 n) with v | N0 => change (as_u32 n) with v end
  | |- _ => idtac
  end.

Lemma frag_run : forall pid tid f rest x mem d,
  keval (frag pid tid f ++ rest) 0 (lo32 (sd_nr d)) x mem (sd_words d) =
  if ruleb pid tid d f then 0x7fff0000
  else keval rest 0 (lo32 (sd_nr d)) x mem (sd_words d).
Proof.
  intros pid tid f rest x mem d. unfold ruleb.
  destruct f; expose_frag; expose_nr;
    cbv [argsb memb ioctl_term getsockopt_levels getsockopt_options setsockopt_levels
         setsockopt_options existsb SYS_kill SYS_tkill SOL_SOCKET SOL_TCP SOL_IP
         TCP_NODELAY TCP_CORK TCP_KEEPIDLE TCP_KEEPINTVL SO_TYPE SO_ERROR SO_DONTROUTE
         SO_REUSEPORT SO_REUSEADDR SO_KEEPALIVE SO_RCVTIMEO SO_SNDTIMEO IP_RECVTTL IP_RECVERR
         TCP_FASTOPEN TCP_FASTOPEN_CONNECT];
    cbn [app];
    rewrite kev_jeq;
    match goal with |- context [keval _ (if ?b then _ else _) _ _ _ _] => destruct b end;
    cbn [andb orb negb];
    repeat kstep; reflexivity.
Qed.

(** * Bit arithmetic *)

Lemma u32_mod_val : u32_mod = 2 ^ 32.
Proof. reflexivity. Qed.

Lemma lo32_lt : forall n, lo32 n < 2 ^ 32.
Proof. intros n. apply N.mod_lt. discriminate. Qed.

Lemma lo32_small : forall n, n < 2 ^ 32 -> lo32 n = n.
Proof. intros n H. apply N.mod_small. exact H. Qed.

Lemma lo32_land : forall n m, m < 2 ^ 32 -> N.land (lo32 n) m = N.land n m.
Proof.
  intros n m H. unfold lo32. rewrite u32_mod_val, <- N.land_ones.
  rewrite <- N.land_assoc. f_equal. rewrite N.land_comm, N.land_ones.
  apply N.mod_small. exact H.
Qed.

Lemma land_not_u32 : forall x m, x < 2 ^ 32 -> N.land x (N.lxor m 0xffffffff) = N.ldiff x m.
Proof.
  intros x m H. change 0xffffffff with (N.ones 32).
  apply N.bits_inj. intros i. rewrite N.land_spec, N.lxor_spec, N.ldiff_spec.
  destruct (N.lt_ge_cases i 32) as [Hi|Hi].
  - rewrite N.ones_spec_low by exact Hi. rewrite xorb_true_r. reflexivity.
  - assert (E : N.testbit x i = false).
    { destruct (N.eq_dec x 0) as [->|Hx]; [apply N.bits_0|].
      apply N.bits_above_log2. apply N.log2_lt_pow2; [lia|].
      apply N.lt_le_trans with (2 ^ 32); [exact H|]. apply N.pow_le_mono_r; [discriminate|exact Hi]. }
    rewrite E. reflexivity.
Qed.

Lemma has_bits : forall m v, has m v <-> forall i, N.testbit m i = true -> N.testbit v i = true.
Proof.
  intros m v. unfold has. split.
  - intros H i Hi. rewrite <- H, N.land_spec in Hi. apply andb_true_iff in Hi. apply Hi.
  - intros H. apply N.bits_inj. intros i. rewrite N.land_spec.
    destruct (N.testbit m i) eqn:E; [rewrite (H i E); reflexivity|apply andb_false_r].
Qed.

Lemma has_lor : forall m n v, has (N.lor m n) v <-> has m v /\ has n v.
Proof.
  intros m n v. rewrite !has_bits. split.
  - intros H. split; intros i Hi; apply H; rewrite N.lor_spec, Hi; auto using orb_true_r.
  - intros [H1 H2] i Hi. rewrite N.lor_spec in Hi. apply orb_true_iff in Hi.
    destruct Hi; auto.
Qed.

Lemma clear_lor : forall m n v, clear (N.lor m n) v <-> clear m v /\ clear n v.
Proof. intros m n v. unfold clear. rewrite N.land_lor_distr_r. apply N.lor_eq_0_iff. Qed.

Lemma one_bit : forall k v, clear (2 ^ k) v \/ has (2 ^ k) v.
Proof.
  intros k v. destruct (N.testbit v k) eqn:E.
  - right. apply has_bits. intros i Hi. destruct (N.eq_dec k i) as [->|H]; [exact E|].
    rewrite N.pow2_bits_false in Hi by exact H. discriminate.
  - left. unfold clear. apply N.bits_inj. intros i. rewrite N.land_spec, N.bits_0.
    destruct (N.eq_dec k i) as [->|H]; [rewrite E; reflexivity|].
    rewrite N.pow2_bits_false by exact H. apply andb_false_r.
Qed.

Lemma clear_has : forall m v, m <> 0 -> clear m v -> has m v -> False.
Proof. unfold clear, has. intros. congruence. Qed.

Lemma small_iff_high_clear : forall x, x < 2 ^ 32 -> (N.land x 0xfffffffc = 0 <-> x <= 3).
Proof.
  intros x H. change 0xfffffffc with (N.lxor 3 0xffffffff).
  rewrite land_not_u32 by exact H. change 3 with (N.ones 2) at 1.
  rewrite N.ldiff_ones_r, N.shiftl_mul_pow2, N.shiftr_div_pow2.
  change (2 ^ 2) with 4. pose proof (N.div_mod x 4 ltac:(discriminate)) as D.
  pose proof (N.mod_lt x 4 ltac:(discriminate)). split; intros.
  - assert (x / 4 = 0) by lia. lia.
  - assert (x / 4 = 0) by (apply N.div_small; lia). lia.
Qed.

Lemma memb_In : forall x l, memb x l = true <-> In x l.
Proof.
  intros x l. unfold memb. rewrite existsb_exists. split.
  - intros [y [Hy E]]. apply N.eqb_eq in E. subst. exact Hy.
  - intros H. exists x. split; [exact H|apply N.eqb_refl].
Qed.

Lemma u64_zero : forall n, n < 2 ^ 64 -> (lo32 n = 0 /\ hi32 n = 0 <-> n = 0).
Proof.
  intros n H. unfold lo32, hi32. rewrite u32_mod_val.
  pose proof (N.div_mod n (2 ^ 32) ltac:(discriminate)) as D.
  assert (n / 2 ^ 32 < 2 ^ 32).
  { apply N.div_lt_upper_bound; [discriminate|]. exact H. }
  rewrite (N.mod_small (n / 2 ^ 32)) by assumption.
  split; [intros [A B]; rewrite A, B in D; lia|intros ->; split; reflexivity].
Qed.

Lemma argsb_spec : forall r pid tid d, wf_data d ->
  argsb r pid tid d = true <-> args_ok r pid tid d.
Proof.
  intros r pid tid d Hd.
  destruct Hd as (_ & _ & _ & H0 & H1 & H2 & H3 & H4 & H5).
  destruct r; cbn [argsb args_ok];
    rewrite ?andb_true_iff, ?orb_true_iff, ?negb_true_iff, ?memb_In, ?N.ltb_ge, ?N.eqb_eq.
  - tauto.
  - tauto.
  - reflexivity.
  - rewrite lo32_land by reflexivity. reflexivity.
  - rewrite lo32_land by reflexivity. reflexivity.
  - apply small_iff_high_clear. apply lo32_lt.
  - apply u64_zero. exact H4.
  - unfold ioctl_file. cbn [In]. tauto.
  - reflexivity.
  - reflexivity.
  - reflexivity.
  - reflexivity.
  - reflexivity.
  - rewrite !lo32_land by reflexivity.
    change (N.land (sd_a0 d) 69376 = 69376) with (has 69376 (sd_a0 d)).
    change 69376 with (N.lor CLONE_VM (N.lor CLONE_FS (N.lor CLONE_FILES
                       (N.lor CLONE_THREAD CLONE_SIGHAND)))).
    change (N.land (sd_a0 d) 8527872 = 0) with (clear 8527872 (sd_a0 d)).
    change 8527872 with (N.lor CLONE_NEWNS (N.lor CLONE_PTRACE CLONE_UNTRACED)).
    rewrite !has_lor, !clear_lor. tauto.
  - rewrite !lo32_land by reflexivity.
    change (N.land (sd_a0 d) 8527872 = 0) with (clear 8527872 (sd_a0 d)).
    change 8527872 with (N.lor CLONE_NEWNS (N.lor CLONE_PTRACE CLONE_UNTRACED)).
    rewrite !clear_lor. tauto.
  - reflexivity.
  - rewrite !lo32_land by reflexivity.
    change (N.land (sd_a2 d) 4194880 = 0) with (clear 4194880 (sd_a2 d)).
    change 4194880 with (N.lor O_CREAT (N.lor O_TRUNC (2 ^ 22))).
    rewrite !clear_lor. unfold clear, O_ACCMODE. tauto.
  - rewrite !lo32_land by reflexivity.
    change (N.land (sd_a2 d) 4194368 = 0) with (clear 4194368 (sd_a2 d)).
    change 4194368 with (N.lor O_CREAT (2 ^ 22)).
    rewrite !clear_lor. unfold clear, O_ACCMODE. tauto.
  - rewrite !lo32_land by reflexivity. change (O_CREAT + 2 ^ 22) with (N.lor (2 ^ 6) (2 ^ 22)).
    rewrite clear_lor. change 64 with (2 ^ 6). change 4194304 with (2 ^ 22).
    pose proof (one_bit 6 (sd_a2 d)) as B6. pose proof (one_bit 22 (sd_a2 d)) as B22.
    pose proof (clear_has (2 ^ 6) (sd_a2 d) ltac:(discriminate)) as C6.
    pose proof (clear_has (2 ^ 22) (sd_a2 d) ltac:(discriminate)) as C22.
    destruct (N.eqb_spec (N.land (sd_a2 d) (2 ^ 6)) (2 ^ 6)) as [E6|E6];
      destruct (N.eqb_spec (N.land (sd_a2 d) (2 ^ 22)) (2 ^ 22)) as [E22|E22];
      fold (has (2 ^ 6) (sd_a2 d)) in E6; fold (has (2 ^ 22) (sd_a2 d)) in E22;
      cbn [orb]; rewrite ?N.eqb_eq; change (N.land (sd_a3 d) 3584 = 0) with (clear suid_bits (sd_a3 d));
      tauto.
  - rewrite !lo32_land by reflexivity. reflexivity.
  - unfold sock_type. change (2 ^ 11 + 2 ^ 19) with 0x80800.
    rewrite <- !land_not_u32 by apply lo32_lt.
    change (N.lxor 0x80800 0xffffffff) with 0xfff7f7ff. tauto.
  - unfold sock_type. change (2 ^ 11 + 2 ^ 19) with 0x80800.
    rewrite <- !land_not_u32 by apply lo32_lt.
    change (N.lxor 0x80800 0xffffffff) with 0xfff7f7ff. tauto.
  - reflexivity.
  - reflexivity.
Qed.

(** * The promise table is the policy *)

Definition argrule_eq_dec (r s : argrule) : {r = s} + {r <> s}.
Proof. decide equality. Defined.

Definition all_promises : list Promise :=
  [ Default; StdIO; RPath; WPath; CPath; DPath; FLock; FAttr; Inet; Unix; Dns; Tty; RecvFd;
    SendFd; Proc; Id; Chown; SetTime; ProtExec; Exec; VmInfo; TmpPath; Unveil ].
Lemma all_promises_complete : forall p, In p all_promises.
Proof. destruct p; cbn; tauto. Qed.

Lemma promise_eqb_eq : forall p q, promise_eqb p q = true <-> p = q.
Proof. intros p q. unfold promise_eqb. destruct (promise_eq_dec p q); split; congruence. Qed.

(** Does the policy list promise [p] for system call [nr] under rule [r]? *)
Definition listed (p : Promise) (nr : N) (r : argrule) : bool :=
  existsb (fun row => (fst row =? nr) &&
    existsb (fun alt => (if argrule_eq_dec (fst alt) r then true else false)
                        && existsb (promise_eqb p) (snd alt)) (snd row)) policy.

Lemma table_in_policy :
  forallb (fun p => forallb (fun f => listed p (fst (rule_of f)) (snd (rule_of f))) (pfilters p))
          all_promises = true.
Proof. vm_compute. reflexivity. Qed.

Lemma policy_in_table :
  forallb (fun row => forallb (fun alt => forallb (fun p =>
    existsb (fun f => (fst (rule_of f) =? fst row)
                      && (if argrule_eq_dec (snd (rule_of f)) (fst alt) then true else false))
            (pfilters p)) (snd alt)) (snd row)) policy = true.
Proof. vm_compute. reflexivity. Qed.

Lemma policy_small : forallb (fun row => fst row <? 512) policy = true.
Proof. vm_compute. reflexivity. Qed.

Lemma table_small :
  forallb (fun p => forallb (fun f => fst (rule_of f) <? 512) (pfilters p)) all_promises = true.
Proof. vm_compute. reflexivity. Qed.

Lemma fgrant : forall ps pid tid d, wf_data d ->
  existsb (ruleb pid tid d) (all_filters ps) = true <-> granted ps pid tid d.
Proof.
  intros ps pid tid d Hd. pose proof Hd as (Hnr & _).
  rewrite existsb_exists. unfold all_filters, granted. split.
  - intros [f [Hf Hr]]. apply in_concat in Hf. destruct Hf as [fs [Hfs Hf]].
    apply in_map_iff in Hfs. destruct Hfs as [p [<- Hp]].
    unfold ruleb in Hr. apply andb_true_iff in Hr. destruct Hr as [Hn Ha].
    apply N.eqb_eq in Hn. rewrite lo32_small in Hn by exact Hnr.
    pose proof table_in_policy as T. rewrite forallb_forall in T.
    specialize (T p (all_promises_complete p)). rewrite forallb_forall in T.
    specialize (T f Hf).
    pose proof table_small as S. rewrite forallb_forall in S.
    specialize (S p (all_promises_complete p)). rewrite forallb_forall in S.
    specialize (S f Hf). apply N.ltb_lt in S.
    unfold as_u32 in Hn. rewrite N.mod_small in Hn by (rewrite u32_mod_val; lia).
    unfold listed in T. rewrite existsb_exists in T. destruct T as [[nr alts] [Hrow T]].
    cbn [fst snd] in T. apply andb_true_iff in T. destruct T as [Tn T]. apply N.eqb_eq in Tn.
    rewrite existsb_exists in T. destruct T as [[r who] [Halt T]]. cbn [fst snd] in T.
    apply andb_true_iff in T. destruct T as [Tr T].
    destruct (argrule_eq_dec r (snd (rule_of f))) as [->|]; [|discriminate].
    rewrite existsb_exists in T. destruct T as [q [Hq T]]. apply promise_eqb_eq in T. subst q.
    exists alts, (snd (rule_of f)), who, p. rewrite Hn, <- Tn.
    repeat split; try assumption.
    + cbn [In] in Hp. destruct Hp as [<-|Hp]; auto.
    + apply argsb_spec; assumption.
  - intros (alts & r & who & p & Hrow & Halt & Hp & Hps & Ha).
    pose proof policy_in_table as T. rewrite forallb_forall in T. specialize (T _ Hrow).
    cbn [fst snd] in T. rewrite forallb_forall in T. specialize (T _ Halt). cbn [fst snd] in T.
    rewrite forallb_forall in T. specialize (T _ Hp). rewrite existsb_exists in T.
    destruct T as [f [Hf T]]. apply andb_true_iff in T. destruct T as [Tn Tr].
    apply N.eqb_eq in Tn.
    destruct (argrule_eq_dec (snd (rule_of f)) r) as [E|]; [|discriminate].
    exists f. split.
    + apply in_concat. exists (pfilters p). split; [|exact Hf]. apply in_map.
      destruct Hps as [->|Hps]; cbn; auto.
    + unfold ruleb. rewrite Tn, E. apply andb_true_iff. split.
      * unfold as_u32. fold (lo32 (sd_nr d)). apply N.eqb_refl.
      * apply argsb_spec; assumption.
Qed.

(** * Whole filters *)

Definition rruleb (d : seccomp_data) (r : Filtered * (N * N)) : bool :=
  ruleb (fst (snd r)) (snd (snd r)) d (fst r).

Lemma frags_run : forall rs rest x mem d,
  keval (List.concat (map rfrag rs) ++ rest) 0 (lo32 (sd_nr d)) x mem (sd_words d) =
  if existsb (rruleb d) rs then 0x7fff0000
  else keval rest 0 (lo32 (sd_nr d)) x mem (sd_words d).
Proof.
  induction rs as [|r rs IH]; intros rest x mem d; [reflexivity|].
  cbn [map List.concat existsb]. unfold rfrag at 1. rewrite <- app_assoc, frag_run, IH.
  fold (rruleb d r). destruct (rruleb d r); reflexivity.
Qed.

Lemma gcode_run : forall rs v mem d,
  kernel_eval_mem mem (gcode rs v) d =
  if lo32 (sd_arch d) =? X86_64
  then if existsb (rruleb d) rs then 0x7fff0000 else ret_into v
  else 0x80000000.
Proof.
  intros. unfold kernel_eval_mem, gcode, header_code. cbn [app].
  rewrite kev_ld. change (nth (N.to_nat (4 / 4)) (sd_words d) 0) with (lo32 (sd_arch d)).
  rewrite kev_jeq. destruct (lo32 (sd_arch d) =? X86_64).
  - change (N.pos 1) with 1. rewrite kev_skip. change (1 - 1) with 0. rewrite kev_ld.
    change (nth (N.to_nat (0 / 4)) (sd_words d) 0) with (lo32 (sd_nr d)).
    rewrite frags_run. destruct (existsb _ _); reflexivity.
  - rewrite kev_ret. reflexivity.
Qed.

Lemma existsb_same : forall pid tid d fs,
  existsb (rruleb d) (map (with_same pid tid) fs) = existsb (ruleb pid tid d) fs.
Proof. intros. induction fs as [|f fs IH]; [reflexivity|]. cbn [map existsb]. rewrite IH. reflexivity. Qed.

Lemma pcode_run : forall pid tid ps v mem d,
  kernel_eval_mem mem (pcode pid tid ps v) d =
  if lo32 (sd_arch d) =? X86_64
  then if existsb (ruleb pid tid d) (all_filters ps) then 0x7fff0000 else ret_into v
  else 0x80000000.
Proof.
  intros. rewrite pcode_gcode, gcode_run, existsb_same. reflexivity.
Qed.

(** * A filter whose rules were compiled with different ids

    For each call it acts like the filter for some of these ids. *)

Definition is_kill (f : Filtered) : bool := match f with KillSelf => true | _ => false end.
Definition is_tkill (f : Filtered) : bool := match f with TkillSelf => true | _ => false end.
Definition pids (p0 : N) (rs : list (Filtered * (N * N))) : list N :=
  match map (fun r => fst (snd r)) (filter (fun r => is_kill (fst r)) rs) with
  | [] => [p0] | l => l
  end.
Definition tids (t0 : N) (rs : list (Filtered * (N * N))) : list N :=
  match map (fun r => snd (snd r)) (filter (fun r => is_tkill (fst r)) rs) with
  | [] => [t0] | l => l
  end.

Lemma ruleb_other : forall pid tid pid' tid' d f, is_kill f = false -> is_tkill f = false ->
  ruleb pid tid d f = ruleb pid' tid' d f.
Proof. intros pid tid pid' tid' d f K T. destruct f; try reflexivity; discriminate. Qed.
Lemma ruleb_kill : forall pid tid tid' d, ruleb pid tid d KillSelf = ruleb pid tid' d KillSelf.
Proof. reflexivity. Qed.
Lemma ruleb_tkill : forall pid pid' tid d, ruleb pid tid d TkillSelf = ruleb pid' tid d TkillSelf.
Proof. reflexivity. Qed.

(** An element on which [f] holds if there is one, else any. *)
Lemma pick : forall (f : N -> bool) (l : list N), l <> [] ->
  exists x, In x l /\ (existsb f l = true <-> f x = true).
Proof.
  intros f l H. destruct (existsb f l) eqn:E.
  - apply existsb_exists in E. destruct E as (x & I & F). exists x. tauto.
  - destruct l as [|x l]; [congruence|]. exists x. split; [left; reflexivity|].
    cbn [existsb] in E. apply orb_false_iff in E. destruct E as [E _]. rewrite E. tauto.
Qed.

Lemma in_pids : forall p0 rs p, In (KillSelf, p) rs -> In (fst p) (pids p0 rs).
Proof.
  intros p0 rs p I. unfold pids.
  assert (X : In (fst p) (map (fun r => fst (snd r)) (filter (fun r => is_kill (fst r)) rs))).
  { apply in_map_iff. exists (KillSelf, p). split; [reflexivity|]. apply filter_In. auto. }
  destruct (map _ _); [destruct X|exact X].
Qed.
Lemma in_tids : forall t0 rs p, In (TkillSelf, p) rs -> In (snd p) (tids t0 rs).
Proof.
  intros t0 rs p I. unfold tids.
  assert (X : In (snd p) (map (fun r => snd (snd r)) (filter (fun r => is_tkill (fst r)) rs))).
  { apply in_map_iff. exists (TkillSelf, p). split; [reflexivity|]. apply filter_In. auto. }
  destruct (map _ _); [destruct X|exact X].
Qed.
Lemma pids_in : forall p0 rs x, In x (pids p0 rs) ->
  (exists p, In (KillSelf, p) rs /\ fst p = x) \/ (x = p0 /\ forall p, ~ In (KillSelf, p) rs).
Proof.
  intros p0 rs x I. unfold pids in I.
  destruct (map _ _) as [|y l] eqn:E.
  - right. destruct I as [<-|[]]. split; [reflexivity|]. intros p P.
    assert (X : In (fst p) (map (fun r : Filtered * (N * N) => fst (snd r)) (filter (fun r => is_kill (fst r)) rs))).
    { apply in_map_iff. exists (KillSelf, p). split; [reflexivity|]. apply filter_In. auto. }
    rewrite E in X. exact X.
  - left. rewrite <- E in I. apply in_map_iff in I. destruct I as ([f p] & F & I).
    apply filter_In in I. destruct I as [I K]. cbn [fst snd] in *. destruct f; try discriminate.
    exists p. auto.
Qed.
Lemma tids_in : forall t0 rs x, In x (tids t0 rs) ->
  (exists p, In (TkillSelf, p) rs /\ snd p = x) \/ (x = t0 /\ forall p, ~ In (TkillSelf, p) rs).
Proof.
  intros t0 rs x I. unfold tids in I.
  destruct (map _ _) as [|y l] eqn:E.
  - right. destruct I as [<-|[]]. split; [reflexivity|]. intros p P.
    assert (X : In (snd p) (map (fun r : Filtered * (N * N) => snd (snd r)) (filter (fun r => is_tkill (fst r)) rs))).
    { apply in_map_iff. exists (TkillSelf, p). split; [reflexivity|]. apply filter_In. auto. }
    rewrite E in X. exact X.
  - left. rewrite <- E in I. apply in_map_iff in I. destruct I as ([f p] & F & I).
    apply filter_In in I. destruct I as [I K]. cbn [fst snd] in *. destruct f; try discriminate.
    exists p. auto.
Qed.
Lemma pids_ne : forall p0 rs, pids p0 rs <> [].
Proof. intros. unfold pids. destruct (map _ _); discriminate. Qed.
Lemma tids_ne : forall t0 rs, tids t0 rs <> [].
Proof. intros. unfold tids. destruct (map _ _); discriminate. Qed.

Lemma in_fst : forall (rs : list (Filtered * (N * N))) f, In f (map fst rs) -> exists p, In (f, p) rs.
Proof.
  intros rs f I. apply in_map_iff in I. destruct I as ([g p] & E & I). cbn in E. subst g. eauto.
Qed.

Lemma mixed_rules : forall p0 t0 rs d, exists pid tid, In pid (pids p0 rs) /\ In tid (tids t0 rs) /\
  existsb (rruleb d) rs = existsb (ruleb pid tid d) (map fst rs).
Proof.
  intros p0 t0 rs d.
  destruct (pick (fun p => ruleb p 0 d KillSelf) (pids p0 rs) (pids_ne _ _)) as (pid & Ip & Hp).
  destruct (pick (fun t => ruleb 0 t d TkillSelf) (tids t0 rs) (tids_ne _ _)) as (tid & It & Ht).
  exists pid, tid. split; [exact Ip|]. split; [exact It|].
  apply eq_true_iff_eq. rewrite !existsb_exists. split.
  - intros ([f p] & I & R). unfold rruleb in R. cbn [fst snd] in R. exists f.
    split; [apply in_map_iff; exists (f, p); auto|].
    destruct (is_kill f) eqn:K; [destruct f; try discriminate|
      destruct (is_tkill f) eqn:T; [destruct f; try discriminate|]].
    + rewrite (ruleb_kill _ _ 0). apply Hp. apply existsb_exists. exists (fst p).
      split; [apply in_pids; exact I|]. rewrite <- R. apply ruleb_kill.
    + rewrite (ruleb_tkill _ 0). apply Ht. apply existsb_exists. exists (snd p).
      split; [apply in_tids; exact I|]. rewrite <- R. apply ruleb_tkill.
    + rewrite <- R. apply ruleb_other; assumption.
  - intros (f & I & R). apply in_fst in I. destruct I as (p & I).
    destruct (is_kill f) eqn:K; [destruct f; try discriminate|
      destruct (is_tkill f) eqn:T; [destruct f; try discriminate|]].
    + rewrite (ruleb_kill _ _ 0) in R. apply Hp in R. apply existsb_exists in R.
      destruct R as (x & Ix & R). apply pids_in in Ix. destruct Ix as [(q & Iq & <-)|[_ Nx]].
      * exists (KillSelf, q). split; [exact Iq|]. rewrite <- R. apply ruleb_kill.
      * exfalso. apply (Nx p I).
    + rewrite (ruleb_tkill _ 0) in R. apply Ht in R. apply existsb_exists in R.
      destruct R as (x & Ix & R). apply tids_in in Ix. destruct Ix as [(q & Iq & <-)|[_ Nx]].
      * exists (TkillSelf, q). split; [exact Iq|]. rewrite <- R. apply ruleb_tkill.
      * exfalso. apply (Nx p I).
    + exists (f, p). split; [exact I|]. rewrite <- R. apply ruleb_other; assumption.
Qed.

(** What one call sees of [prog] is the filter of [ps] for these ids. *)
Definition acts_as (pid tid : N) (ps : list Promise) (v : SeccompReturn) (prog : list sock_filter)
  (d : seccomp_data) : Prop := kernel_eval prog d = kernel_eval (pcode pid tid ps v) d.

Lemma mixed : forall p0 t0 rs ps v d, map fst rs = all_filters ps ->
  exists pid tid, In pid (pids p0 rs) /\ In tid (tids t0 rs) /\ acts_as pid tid ps v (gcode rs v) d.
Proof.
  intros p0 t0 rs ps v d E. destruct (mixed_rules p0 t0 rs d) as (pid & tid & Ip & It & X).
  exists pid, tid. split; [exact Ip|]. split; [exact It|].
  unfold acts_as, kernel_eval. rewrite gcode_run, pcode_run, X, E. reflexivity.
Qed.

(** All ids alike. *)
Lemma frag_other : forall pid tid pid' tid' f, is_kill f = false -> is_tkill f = false ->
  frag pid tid f = frag pid' tid' f.
Proof. intros pid tid pid' tid' f K T. destruct f; try reflexivity; discriminate. Qed.
Lemma frag_kill_only : forall pid tid tid', frag pid tid KillSelf = frag pid tid' KillSelf.
Proof. reflexivity. Qed.
Lemma frag_tkill_only : forall pid pid' tid, frag pid tid TkillSelf = frag pid' tid TkillSelf.
Proof. reflexivity. Qed.
Lemma unmixed : forall pid tid rs ps v, map fst rs = all_filters ps ->
  (forall p, In (KillSelf, p) rs -> fst p = pid) -> (forall p, In (TkillSelf, p) rs -> snd p = tid) ->
  gcode rs v = pcode pid tid ps v.
Proof.
  intros pid tid rs ps v E P T. unfold pcode, fcode, gcode. rewrite <- E, map_map. do 3 f_equal.
  apply map_ext_in. intros [f [p t]] I. unfold rfrag. cbn [fst snd].
  destruct (is_kill f) eqn:K; [destruct f; try discriminate|
    destruct (is_tkill f) eqn:Kt; [destruct f; try discriminate|]].
  - rewrite <- (P _ I). apply frag_kill_only.
  - rewrite <- (T _ I). apply frag_tkill_only.
  - apply frag_other; assumption.
Qed.

(** One rule of each kind per StdIO. *)
Lemma filter_fst : forall (g : Filtered -> bool) (rs : list (Filtered * (N * N))),
  length (filter (fun r => g (fst r)) rs) = length (filter g (map fst rs)).
Proof.
  intros g. induction rs as [|r rs IH]; [reflexivity|]. cbn [filter map].
  destruct (g (fst r)); cbn [length]; rewrite IH; reflexivity.
Qed.
Lemma kill_count : forall ps,
  length (filter is_kill (List.concat (map pfilters ps))) = count_occ promise_eq_dec ps StdIO /\
  length (filter is_tkill (List.concat (map pfilters ps))) = count_occ promise_eq_dec ps StdIO.
Proof.
  induction ps as [|p ps [IH1 IH2]]; [split; reflexivity|]. cbn [map List.concat].
  rewrite !filter_app, !app_length, IH1, IH2. destruct p; split; reflexivity.
Qed.
Lemma pids_length : forall p0 rs ps, map fst rs = all_filters ps ->
  (length (pids p0 rs) <= Nat.max 1 (count_occ promise_eq_dec ps StdIO))%nat.
Proof.
  intros p0 rs ps E.
  assert (X : length (map (fun r => fst (snd r)) (filter (fun r => is_kill (fst r)) rs)) =
              count_occ promise_eq_dec ps StdIO).
  { rewrite map_length, (filter_fst is_kill), E. exact (proj1 (kill_count (Default :: ps))). }
  clear E. unfold pids. revert X. destruct (map _ _); cbn [length]; lia.
Qed.
Lemma tids_length : forall t0 rs ps, map fst rs = all_filters ps ->
  (length (tids t0 rs) <= Nat.max 1 (count_occ promise_eq_dec ps StdIO))%nat.
Proof.
  intros t0 rs ps E.
  assert (X : length (map (fun r => snd (snd r)) (filter (fun r => is_tkill (fst r)) rs)) =
              count_occ promise_eq_dec ps StdIO).
  { rewrite map_length, (filter_fst is_tkill), E. exact (proj2 (kill_count (Default :: ps))). }
  clear E. unfold tids. revert X. destruct (map _ _); cbn [length]; lia.
Qed.
