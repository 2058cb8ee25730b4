(** Concrete data for the non-vacuity examples beside the property theorems.  Not part of the
    model or of any theorem statement. *)
From Coq Require Import NArith ZArith String List Bool.
From Verif Require Import Libc Machine Bpf SeccompRet Asm Vm Promises Filters Kernel World Spec.
Import ListNotations.
Local Open Scope N_scope.

(** A native call. *)
Definition call (nr a0 a1 a2 a3 a4 : N) : seccomp_data := mkSD nr X86_64 0x401000 a0 a1 a2 a3 a4 0.

(** The filter of a process with pid 100, tid 101. *)
Definition built (ps : list Promise) (v : SeccompReturn) : list sock_filter :=
  match promises_to_prog Debug (mkEnv (Ok 100) (Ok 101)) ps v with Ok p => p | _ => [] end.

Definition thread0 : thread := mkThread 0 100 101 false false [] None.
Definition amb0 : nat -> ambient := fun _ => mkAmb 1 2 3 4 5 6 7 nobody false 0.

(** Closed decidable goals. *)
Ltac concrete := vm_compute; repeat split; try reflexivity; try discriminate; intuition discriminate.
(** [well_formed], token by token. *)
Lemma wf_nil : well_formed [].
Proof. intros [|? pre] op post H; discriminate H. Qed.
Lemma wf_cons : forall op post, encodable op -> jumps_ok op post -> well_formed post ->
  well_formed (op :: post).
Proof.
  intros op post E J W [|x pre] op' post' H; cbn [app] in H; injection H as -> H.
  - subst. auto.
  - apply (W pre op' post' H).
Qed.
Ltac forward_label :=
  first [ exact I
        | eexists; split; [reflexivity|discriminate]
        | split; intros ? E; first [discriminate E | injection E as <-; eexists; split; [reflexivity|discriminate]] ].
Ltac well_formed := repeat (apply wf_cons; [exact I|forward_label|]); apply wf_nil.
