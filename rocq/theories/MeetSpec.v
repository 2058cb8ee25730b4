(** Promises with a system call in common (C130). *)
From Coq Require Import List.
From Verif Require Import Promises.
Import ListNotations.

(** Different promises that allow one and the same call. *)
Definition shared : list (Promise * Promise) :=
  [ (StdIO, RPath); (StdIO, WPath); (StdIO, Inet); (StdIO, Unix); (StdIO, Dns); (StdIO, Proc); (StdIO, Id);
    (StdIO, ProtExec); (StdIO, VmInfo); (RPath, WPath); (RPath, CPath); (RPath, Dns); (RPath, TmpPath);
    (WPath, CPath); (WPath, FAttr); (WPath, Dns); (WPath, TmpPath); (CPath, Dns); (CPath, TmpPath);
    (Inet, Unix); (Inet, Dns); (Unix, Dns); (RecvFd, SendFd); (Proc, Id) ].
Definition meet (p q : Promise) : Prop := p = q /\ p <> Default \/ In (p, q) shared \/ In (q, p) shared.
