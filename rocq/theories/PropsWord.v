(** Property theorems C111: the words of a call a verdict depends on.
    Generated statements; the proofs are in the files required below. *)
From Coq Require Import NArith ZArith String List Bool Lia.
From Verif Require Import Libc Machine Bpf SeccompRet Asm Vm Promises Filters Kernel World Testkit Spec WordSpec Demo.
From Verif Require WordFacts.
Import ListNotations.
Local Open Scope N_scope.

(** C111 *)
Theorem C111_what_a_verdict_depends_on :
  forall prof pid tid ps v prog nr i,
  filter_for prof pid tid ps v prog -> enforcing v -> pid < 2 ^ 32 -> (2 <= i)%nat ->
  (matters prog nr i <->
   exists needs unless, In (nr, i, needs, unless) inspected_words /\
     (exists p, In p needs /\ In p ps) /\ (forall p, In p unless -> ~ In p ps)).
Proof. exact WordFacts.c111. Qed.
Print Assumptions C111_what_a_verdict_depends_on.
(** The protection of a mapping matters until ProtExec is promised; its flags always do, its length never. *)
Example C111_example :
  matters (built [StdIO] KillProcess) SYS_mmap 8 /\
  ~ matters (built [StdIO; ProtExec] KillProcess) SYS_mmap 8 /\
  matters (built [ProtExec] Trap) SYS_mmap 10 /\ ~ matters (built [ProtExec; StdIO] Trap) SYS_mmap 6.
Proof.
  assert (T : forall ps v nr i, filter_for Debug 100 101 ps v (built ps v) -> v = KillProcess \/ v = Trap ->
    (2 <= i)%nat -> (matters (built ps v) nr i <-> exists needs unless, In (nr, i, needs, unless) inspected_words /\
       (exists p, In p needs /\ In p ps) /\ (forall p, In p unless -> ~ In p ps))).
  { intros ps v nr i F Hv Hi.
    apply (C111_what_a_verdict_depends_on Debug 100 101 ps v); [|split; [|split]|reflexivity|exact Hi].
    - exact F.
    - destruct Hv as [->| ->]; exact Logic.I.
    - destruct Hv as [->| ->]; discriminate.
    - destruct Hv as [->| ->]; discriminate. }
  rewrite !T by first [solve [vm_compute; reflexivity]|solve [auto]|lia]. split; [|split; [|split]].
  - exists [StdIO], [ProtExec]. split; [cbn; tauto|]. split; [exists StdIO; cbn; auto|].
    intros p [<-|[]] [E|[]]; discriminate E.
  - intros (needs & unless & I & _ & U). cbn in I.
    repeat (destruct I as [I|I]; [try discriminate I; injection I as <- <-|]); [|destruct I].
    apply (U ProtExec); cbn; auto.
  - exists [StdIO; ProtExec], []. split; [cbn; tauto|]. split; [exists ProtExec; cbn; auto|intros p []].
  - intros (needs & unless & I & _). cbn in I. intuition discriminate.
Qed.

(** C111 *)
Theorem C111_inspected_words_decide :
  forall prof pid tid ps v prog d d',
  filter_for prof pid tid ps v prog -> native d -> native d' -> sd_nr d = sd_nr d' ->
  (forall i needs unless, In (sd_nr d, i, needs, unless) inspected_words ->
     (exists p, In p needs /\ In p ps) -> (forall p, In p unless -> ~ In p ps) ->
     nth i (sd_words d) 0 = nth i (sd_words d') 0) ->
  kernel_eval prog d = kernel_eval prog d'.
Proof. exact WordFacts.c111_together. Qed.
Print Assumptions C111_inspected_words_decide.
(** Under Proc the target of a signal does not matter, under StdIO it does. *)
Example C111_together_example :
  let d := call SYS_kill 100 9 0 0 0 in let e := call SYS_kill 1 9 0 0 0 in
  (forall i needs unless, In (SYS_kill, i, needs, unless) inspected_words ->
     (exists p, In p needs /\ In p [StdIO; Proc]) -> (forall p, In p unless -> ~ In p [StdIO; Proc]) ->
     nth i (sd_words d) 0 = nth i (sd_words e) 0) /\
  kernel_eval (built [StdIO; Proc] KillProcess) d = kernel_eval (built [StdIO; Proc] KillProcess) e /\
  kernel_eval (built [StdIO] KillProcess) d <> kernel_eval (built [StdIO] KillProcess) e.
Proof.
  cbv zeta. split; [|split; vm_compute; [reflexivity|discriminate]].
  intros i needs unless I _ U. cbn in I.
  repeat (destruct I as [I|I]; [try discriminate I; injection I as <- <- <-|]); [|destruct I].
  elim (U Proc); cbn; auto.
Qed.
