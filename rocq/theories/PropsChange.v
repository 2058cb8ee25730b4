(** Property theorems C117: what changes a thread.
    Generated statements; the proofs are in the files required below. *)
From Coq Require Import NArith ZArith String List Bool Lia.
From Verif Require Import Libc Machine Bpf SeccompRet Asm Vm Promises Filters Kernel World Testkit Spec Demo.
From Verif Require ChangeFacts.
Import ListNotations.
Local Open Scope N_scope.

(** C117 *)
Theorem C117_filters_change_only_on_request :
  forall prof w o w' evs t x,
  distinct w -> Forall (fun y => (t_uid y < w_next w)%nat) (w_threads w) -> wstep prof w o = (w', evs) ->
  In t (w_threads w) -> In x (w_threads w') -> t_uid x = t_uid t -> t_filters x <> t_filters t ->
  exists c d, In c (w_threads w) /\ In (EvCall (t_uid c) d Proceed) evs /\
    (asks_for_strict_mode d /\ c = t /\ t_filters t = [] /\ t_filters x = [strict_mode] \/
     exists prog, asks_for_filter d /\ (c = t \/ t_pid c = t_pid t /\ asks_for_all_threads d) /\
       (t_nnp c = true \/ t_cap c = true) /\ kernel_accepts prog = true /\ t_filters x = prog :: t_filters c).
Proof. exact ChangeFacts.c117_filters. Qed.
Print Assumptions C117_filters_change_only_on_request.
(** A filter for all threads: both have it afterwards, below it the caller's filters. *)
Example C117_filters_example :
  let allow := [SockFilter 6 0 0 0x7fff0000] in
  let t1 := mkThread 0 100 101 true false [allow] None in
  let t2 := mkThread 1 100 102 false false [] None in
  let d := call SYS_seccomp 1 1 4096 0 0 in
  wstep Debug (mkWorld [t1; t2] 2) (OSys 0 d (mkOracle nobody allow false false 0)) =
    (mkWorld [mkThread 0 100 101 true false [allow; allow] None; mkThread 1 100 102 true false [allow; allow] None] 2,
     [EvCall 0 d Proceed]) /\
  asks_for_filter d /\ asks_for_all_threads d.
Proof. cbv zeta. split; [vm_compute; reflexivity|]. split; [right; split; reflexivity|split; reflexivity]. Qed.

(** C117 *)
Theorem C117_no_new_privs_is_set_only_on_request :
  forall prof w o w' evs t x,
  distinct w -> Forall (fun y => (t_uid y < w_next w)%nat) (w_threads w) -> wstep prof w o = (w', evs) ->
  In t (w_threads w) -> In x (w_threads w') -> t_uid x = t_uid t -> t_nnp x <> t_nnp t ->
  t_nnp x = true /\
  exists c d, In c (w_threads w) /\ In (EvCall (t_uid c) d Proceed) evs /\
    (c = t /\ asks_for_no_new_privs d \/
     t_nnp c = true /\ t_pid c = t_pid t /\ asks_for_filter d /\ asks_for_all_threads d).
Proof. exact ChangeFacts.c117_nnp. Qed.
Print Assumptions C117_no_new_privs_is_set_only_on_request.
(** The first of a pledge's two prctls. *)
Example C117_nnp_example :
  let t := mkThread 0 100 100 false false [] (Some (PNnp [] Trap [])) in
  let d := call_set_nnp (amb0 0%nat) in
  wstep Debug (mkWorld [t] 1) (OStep 0 (amb0 0%nat)) =
    (mkWorld [mkThread 0 100 100 true false [] (Some (PLoad [] Trap []))] 1, [EvCall 0 d Proceed]) /\
  asks_for_no_new_privs d.
Proof. cbv zeta. split; [vm_compute; reflexivity|repeat split]. Qed.

(** C117 *)
Theorem C117_ids_and_capabilities :
  forall prof w o w' evs t x,
  distinct w -> Forall (fun y => (t_uid y < w_next w)%nat) (w_threads w) -> wstep prof w o = (w', evs) ->
  In t (w_threads w) -> In x (w_threads w') -> t_uid x = t_uid t ->
  t_pid x = t_pid t /\
  (t_tid x <> t_tid t -> t_tid x = t_pid t /\
     exists d, In (EvCall (t_uid t) d Proceed) evs /\ (sd_nr d = 59 \/ sd_nr d = 322)) /\
  (t_cap x <> t_cap t -> o = OCap (t_uid t) (t_cap x)).
Proof. exact ChangeFacts.c117_ids. Qed.
Print Assumptions C117_ids_and_capabilities.
(** A second thread runs a program: it takes the id of the process. *)
Example C117_ids_example :
  let t1 := mkThread 0 100 100 false false [] None in
  let t2 := mkThread 1 100 102 false false [] None in
  let d := call SYS_execve 4096 0 0 0 0 in
  wstep Debug (mkWorld [t1; t2] 2) (OSys 1 d (mkOracle nobody [] false false 0)) =
    (mkWorld [mkThread 1 100 100 false false [] None] 2, [EvCall 1 d Proceed]) /\
  wstep Debug (mkWorld [t1; t2] 2) (OCap 0 true) = (mkWorld [mkThread 0 100 100 false true [] None; t2] 2, []).
Proof. split; vm_compute; reflexivity. Qed.
