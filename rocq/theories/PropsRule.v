(** Property theorems C106: the rules of a promise one by one.
    Generated statements; the proofs are in the files required below. *)
From Coq Require Import NArith ZArith String List Bool Lia.
From Verif Require Import Libc Machine Bpf SeccompRet Asm Vm Promises Filters Kernel World Testkit Spec Demo.
From Verif Require RuleFacts.
Import ListNotations.
Local Open Scope N_scope.

(** C106 *)
Theorem C106_getsockopt_rule_is_idle_refuted :
  forall prof pid tid p ds l r v full less d,
  p <> Default -> promises_get Default = Some ds -> promises_get p = Some (l ++ GetsockoptRestrict :: r) ->
  filter_for prof pid tid [p] v full ->
  filters_to_prog prof (mkEnv (Ok pid) (Ok tid)) (ds ++ l ++ r) v = Ok less ->
  enforcing v -> native d ->
  (proceeds full d <-> proceeds less d).
Proof. exact RuleFacts.c106_refuted. Qed.
Print Assumptions C106_getsockopt_rule_is_idle_refuted.
Example C106_refuted_example :
  exists l r, promises_get Inet = Some (l ++ GetsockoptRestrict :: r) /\
  let less := match filters_to_prog Debug (mkEnv (Ok 100) (Ok 101)) (filters_Default ++ l ++ r) Trap with
              | Ok prog => prog | _ => [] end in
  proceeds less (call SYS_getsockopt 3 SOL_SOCKET SO_ERROR 0 0) /\
  proceeds (built [Inet] Trap) (call SYS_getsockopt 3 SOL_SOCKET SO_ERROR 0 0) /\
  ~ proceeds less (call SYS_getsockopt 3 SOL_SOCKET 17 0 0).
Proof.
  exists (firstn 8 filters_Inet); eexists. split; [reflexivity|]. cbv zeta. unfold proceeds. concrete.
Qed.

(** C106 *)
Theorem C106_every_other_rule_matters_partial :
  forall prof pid tid p ds l f r v full less,
  pid < 2 ^ 32 -> p <> Default -> promises_get Default = Some ds -> promises_get p = Some (l ++ f :: r) ->
  filter_for prof pid tid [p] v full ->
  filters_to_prog prof (mkEnv (Ok pid) (Ok tid)) (ds ++ l ++ r) v = Ok less ->
  enforcing v ->
  (forall d, native d -> proceeds less d -> proceeds full d) /\
  ((exists d, native d /\ proceeds full d /\ ~ proceeds less d) <-> f <> GetsockoptRestrict).
Proof. exact RuleFacts.c106_partial. Qed.
Print Assumptions C106_every_other_rule_matters_partial.
Example C106_example :
  exists l r, promises_get StdIO = Some (l ++ FcntlStdio :: r) /\
  let less := match filters_to_prog Debug (mkEnv (Ok 100) (Ok 101)) (filters_Default ++ l ++ r) Trap with
              | Ok prog => prog | _ => [] end in
  proceeds (built [StdIO] Trap) (call SYS_fcntl 3 1 0 0 0) /\
  ~ proceeds less (call SYS_fcntl 3 1 0 0 0) /\ proceeds less (call SYS_read 3 1 0 0 0).
Proof.
  exists (firstn 24 filters_StdIO); eexists. split; [reflexivity|]. cbv zeta. unfold proceeds. concrete.
Qed.
