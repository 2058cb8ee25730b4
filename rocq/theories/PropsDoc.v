(** Property theorems C78: the rules against their comments.
    Generated statements; the proofs are in the files required below. *)
From Coq Require Import NArith ZArith String List Bool Lia.
From Verif Require Import Libc Machine Bpf SeccompRet Asm Vm Promises Filters Kernel World Testkit Spec DocSpec Demo.
From Verif Require DocFacts.
Import ListNotations.
Local Open Scope N_scope.

(** C78 *)
Theorem C78_rules_follow_their_comments_partial :
  forall prof pid tid f v prog d,
  ~ In f deviating -> documented_call f < 2 ^ 32 -> tid < 2 ^ 32 ->
  rule_filter prof pid tid f v prog -> enforcing v -> native d ->
  (proceeds prog d <-> documented f pid tid d).
Proof. exact DocFacts.c78_follows. Qed.
Print Assumptions C78_rules_follow_their_comments_partial.
Example C78_follows_example :
  let thread := call SYS_clone 0x10f00 0 0 0 0 in let fork := call SYS_clone 0x1200011 0 0 0 0 in
  exists prog, ~ In CloneThread deviating /\
    rule_filter Debug 100 101 CloneThread (Errno 1) prog /\ enforcing (Errno 1) /\
    native thread /\ native fork /\
    proceeds prog thread /\ documented CloneThread 100 101 thread /\
    ~ proceeds prog fork /\ ~ documented CloneThread 100 101 fork.
Proof.
  cbv zeta. eexists. split; [cbn; intuition discriminate|]. split; [vm_compute; reflexivity|].
  split; [concrete|]. split; [concrete|]. split; [concrete|]. split; [vm_compute; reflexivity|].
  split; [repeat constructor|]. split; [vm_compute; discriminate|].
  intros (_ & A & _). inversion A. discriminate.
Qed.

(** C78 *)
Theorem C78_mmap_noexec_too_strict :
  forall prof pid tid v prog d,
  rule_filter prof pid tid MmapNoexec v prog -> enforcing v -> native d ->
  (proceeds prog d <-> documented MmapNoexec pid tid d /\ sd_a2 d mod 2 ^ 32 <> 3).
Proof. exact DocFacts.c78_mmap. Qed.
Print Assumptions C78_mmap_noexec_too_strict.
Example C78_mmap_example :
  let rw := call SYS_mmap 0 0x1000 3 0x22 0 in let ro := call SYS_mmap 0 0x1000 1 0x22 0 in
  exists prog, rule_filter Debug 100 101 MmapNoexec (Errno 1) prog /\ native rw /\
    documented MmapNoexec 100 101 rw /\ ~ proceeds prog rw /\ proceeds prog ro.
Proof.
  cbv zeta. eexists. split; [vm_compute; reflexivity|]. split; [concrete|].
  split; [repeat constructor|]. split; [vm_compute; discriminate|vm_compute; reflexivity].
Qed.

(** C78 *)
Theorem C78_prlimit_too_lax :
  forall prof pid tid v prog d,
  rule_filter prof pid tid Prlimit64Stdio v prog -> enforcing v -> native d ->
  (documented Prlimit64Stdio pid tid d -> proceeds prog d) /\
  (proceeds prog d <-> sd_nr d = SYS_prlimit64 /\ sd_a2 d mod 2 ^ 32 = 0).
Proof. exact DocFacts.c78_prlimit. Qed.
Print Assumptions C78_prlimit_too_lax.
Example C78_prlimit_example :
  let set := call SYS_prlimit64 0 7 0x100000000 0 0 in let ask := call SYS_prlimit64 0 7 0 0x7fff0000 0 in
  exists prog, rule_filter Debug 100 101 Prlimit64Stdio (Errno 1) prog /\ native set /\
    ~ documented Prlimit64Stdio 100 101 set /\ proceeds prog set /\
    documented Prlimit64Stdio 100 101 ask /\ proceeds prog ask.
Proof.
  cbv zeta. eexists. split; [vm_compute; reflexivity|]. split; [concrete|].
  split; [intros [_ E]; discriminate E|]. split; [vm_compute; reflexivity|].
  split; [split; reflexivity|vm_compute; reflexivity].
Qed.

(** C78 *)
Theorem C78_rules_allow_too_much_refuted :
  forall f prof pid tid v prog, enforcing v ->
  In f [Prlimit64Stdio; OpenReadonly; OpenWriteonly; OpenCreateonly; FchmodatNobits;
        SetsockoptRestrict] ->
  rule_filter prof pid tid f v prog ->
  exists d, native d /\ proceeds prog d /\ ~ documented f pid tid d.
Proof. exact DocFacts.c78_too_much. Qed.
Print Assumptions C78_rules_allow_too_much_refuted.

(** C78 *)
Theorem C78_rules_allow_too_little_refuted :
  forall f prof pid tid v prog, enforcing v ->
  In f [MmapNoexec; OpenReadonly; OpenWriteonly; OpenCreateonly; FchmodatNobits;
        SetsockoptRestrict] ->
  rule_filter prof pid tid f v prog ->
  exists d, native d /\ documented f pid tid d /\ ~ proceeds prog d.
Proof. exact DocFacts.c78_too_little. Qed.
Print Assumptions C78_rules_allow_too_little_refuted.
