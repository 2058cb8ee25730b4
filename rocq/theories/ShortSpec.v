(** The promises of a list that matter (C128). *)
From Coq Require Import List Bool.
From Coq Require Export Permutation.
From Verif Require Import Promises.
Import ListNotations.

(** Is [p] promised in [ps]? *)
Definition lists (ps : list Promise) (p : Promise) : bool := existsb (promise_eqb p) ps.

(** Does [ps] promise [p], and no other promises of it that allow all that [p] does?  RecvFd stands for SendFd too. *)
Definition needed (ps : list Promise) (p : Promise) : bool :=
  match p with
  | Default | SendFd => false
  | RecvFd => lists ps RecvFd || lists ps SendFd
  | VmInfo => lists ps VmInfo && negb (lists ps StdIO)
  | TmpPath => lists ps TmpPath && negb (lists ps CPath && (lists ps RPath || lists ps WPath))
  | Dns => lists ps Dns && negb (lists ps StdIO && lists ps Inet && (lists ps RPath || (lists ps WPath && lists ps CPath)))
  | p => lists ps p
  end.

(** The needed promises, each once. *)
Definition shortest (ps : list Promise) : list Promise :=
  filter (needed ps)
    [ StdIO; RPath; WPath; CPath; DPath; FLock; FAttr; Inet; Unix; Dns; Tty; RecvFd; Proc; Id; Chown; SetTime; ProtExec;
      Exec; VmInfo; TmpPath; Unveil ].

(** RecvFd for SendFd, the two being one and the same. *)
Definition recv_for_send (p : Promise) : Promise := match p with SendFd => RecvFd | _ => p end.
