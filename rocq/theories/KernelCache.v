(** Model of the action cache of Linux 5.11 and later (kernel/seccomp.c: [seccomp_is_const_allow],
    [seccomp_cache_prepare_bitmap], [seccomp_cache_check_allow]).  This is environment, not code of /repo:
    when a filter is installed, the kernel runs it for every system call number with everything else unknown,
    and remembers the numbers for which it, and all older ones, then allow the call. *)
From Coq Require Import NArith List Bool.
From Verif Require Import Libc Machine Bpf Vm SeccompRet Kernel.
Import ListNotations.
Local Open Scope N_scope.

(** [seccomp_is_const_allow]: the filter allows calls of this number and architecture, whatever the rest of
    the record.  Gives up at loads of anything else and at all instructions but the listed ones. *)
Fixpoint const_allow (prog : list sock_filter) (skip reg nr arch : N) : bool :=
  match prog with
  | [] => false
  | f :: rest =>
      if negb (skip =? 0) then const_allow rest (skip - 1) reg nr arch
      else
        let k := sf_k f in
        let c := sf_code f in
        if c =? 0x20 then
          if k =? 0 then const_allow rest 0 nr nr arch
          else if k =? 4 then const_allow rest 0 arch nr arch
          else false
        else if c =? 0x06 then k =? 0x7fff0000
        else if c =? 0x05 then const_allow rest k reg nr arch
        else if c =? 0x15 then const_allow rest (if reg =? k then sf_jt f else sf_jf f) reg nr arch
        else if c =? 0x35 then const_allow rest (if k <=? reg then sf_jt f else sf_jf f) reg nr arch
        else if c =? 0x25 then const_allow rest (if k <? reg then sf_jt f else sf_jf f) reg nr arch
        else if c =? 0x45 then const_allow rest (if negb (N.land reg k =? 0) then sf_jt f else sf_jf f) reg nr arch
        else if c =? 0x54 then const_allow rest 0 (N.land reg k) nr arch
        else false
  end.

(** The bit of a number for a stack of filters (newest first): that of the older ones, cleared if the newest
    is not known to allow. *)
Fixpoint cache_bit (filters : list (list sock_filter)) (nr arch : N) : bool :=
  match filters with
  | [] => true
  | f :: older => cache_bit older nr arch && const_allow f 0 0 nr arch
  end.

(** [seccomp_cache_check_allow]: there are bitmaps for the native and the compatible architecture, for the
    numbers below a limit that depends on the kernel; [maps] lists architectures and limits. *)
Definition cached (maps : list (N * N)) (filters : list (list sock_filter)) (d : seccomp_data) : bool :=
  existsb (fun m => (sd_arch d =? fst m) && (sd_nr d <? snd m) && cache_bit filters (sd_nr d) (sd_arch d)) maps.

(** [seccomp_run_filters] with the cache. *)
Definition run_filters_cached (maps : list (N * N)) (filters : list (list sock_filter)) (d : seccomp_data) : N :=
  if cached maps filters d then 0x7fff0000 else run_filters filters d.
