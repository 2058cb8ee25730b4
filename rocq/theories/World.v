(** [pledge] / [pledge_override] (src/seccomp.rs:981-1015) acting on a thread, and histories of
    many threads.  The thread and its system calls are the environment of Kernel.v. *)
From Coq Require Import NArith ZArith List Bool.
From Verif Require Import Libc Machine Bpf SeccompRet Vm Promises Filters Kernel.
Import ListNotations.
Local Open Scope N_scope.

(** * Threads *)

(** A [pledge_override] call in progress (src/seccomp.rs:985-1015), by what it does next:
    [PStart]: lines 946-954, look the promises up;
    [PBuild]: lines 963-976, compile the next rule of [todo] ([KillSelf] and [TkillSelf] call
      getpid and gettid, once for every StdIO in the list) or, when none is left, put the
      compiled ones together;
    [PNnp]: line 998, prctl(PR_SET_NO_NEW_PRIVS);
    [PLoad]: lines 1003-1009, prctl(PR_SET_SECCOMP). *)
Inductive phase :=
| PStart (ps : list Promise) (v : SeccompReturn)
| PBuild (ps : list Promise) (v : SeccompReturn) (done : list (list sock_filter))
         (todo : list Filtered)
| PNnp (ps : list Promise) (v : SeccompReturn) (prog : list sock_filter)
| PLoad (ps : list Promise) (v : SeccompReturn) (prog : list sock_filter).

(** A kernel task.  [t_uid] is a model-only identity that is never reused. *)
Record thread := mkThread {
  t_uid : nat;
  t_pid : N;                             (* getpid() *)
  t_tid : N;                             (* gettid() *)
  t_nnp : bool;                          (* no_new_privs *)
  t_cap : bool;                          (* CAP_SYS_ADMIN *)
  t_filters : list (list sock_filter);   (* seccomp filters, newest first *)
  t_call : option phase }.               (* pledge call in progress *)

(** Changes of one field of a thread. *)
Definition set_nnp (t : thread) : thread :=
  mkThread (t_uid t) (t_pid t) (t_tid t) true (t_cap t) (t_filters t) (t_call t).
Definition set_filters (t : thread) (fs : list (list sock_filter)) : thread :=
  mkThread (t_uid t) (t_pid t) (t_tid t) (t_nnp t) (t_cap t) fs (t_call t).
Definition set_cap (t : thread) (b : bool) : thread :=
  mkThread (t_uid t) (t_pid t) (t_tid t) (t_nnp t) b (t_filters t) (t_call t).
Definition set_call (t : thread) (c : option phase) : thread :=
  mkThread (t_uid t) (t_pid t) (t_tid t) (t_nnp t) (t_cap t) (t_filters t) c.

(** What the code does not determine about a system call it makes: the instruction pointer,
    pointer values and left-over register contents; who supervises it; whether the kernel runs
    out of memory in it; the value errno had before. *)
Record ambient := mkAmb { amb_ip : N; amb_r0 : N; amb_r1 : N; amb_r2 : N; amb_r3 : N;
                          amb_r4 : N; amb_r5 : N; amb_sup : supervisor; amb_oom : bool;
                          amb_errno : N }.

(** Fate of a call made in these circumstances. *)
Definition fate_of (t : thread) (amb : ambient) (d : seccomp_data) : entry :=
  supervised_entry (amb_sup amb) (t_filters t) d.

(** The calls made by [process::id()] (src/seccomp.rs:203) and [libc::gettid()] (line 218); the
    registers of the unused arguments hold anything. *)
Definition call_getpid (amb : ambient) : seccomp_data :=
  mkSD SYS_getpid AUDIT_ARCH_X86_64 (amb_ip amb) (amb_r0 amb) (amb_r1 amb) (amb_r2 amb)
       (amb_r3 amb) (amb_r4 amb) (amb_r5 amb).
Definition call_gettid (amb : ambient) : seccomp_data :=
  mkSD SYS_gettid AUDIT_ARCH_X86_64 (amb_ip amb) (amb_r0 amb) (amb_r1 amb) (amb_r2 amb)
       (amb_r3 amb) (amb_r4 amb) (amb_r5 amb).
(** prctl(PR_SET_NO_NEW_PRIVS, 1, 0, 0, 0), src/seccomp.rs:998 *)
Definition call_set_nnp (amb : ambient) : seccomp_data :=
  mkSD SYS_prctl AUDIT_ARCH_X86_64 (amb_ip amb) PR_SET_NO_NEW_PRIVS 1 0 0 0 (amb_r5 amb).
(** prctl(PR_SET_SECCOMP, SECCOMP_MODE_FILTER, ptr), src/seccomp.rs:1004-1008 *)
Definition call_set_seccomp (amb : ambient) : seccomp_data :=
  mkSD SYS_prctl AUDIT_ARCH_X86_64 (amb_ip amb) PR_SET_SECCOMP 2 (amb_r2 amb) (amb_r3 amb)
       (amb_r4 amb) (amb_r5 amb).

(** What the kernel answers to a call that asks for an id (kernel/sys.c). *)
Definition kernel_id (t : thread) (d : seccomp_data) : N :=
  if sd_nr d =? SYS_getpid then t_pid t
  else if sd_nr d =? SYS_gettid then t_tid t
  else 0.

(** Seccomp strict mode ([seccomp_set_mode_strict]): only a task without filters can enter it.  The
    mode is held as the filter [strict_mode] (Kernel.v), which does to every call what the mode
    does; that a task in this mode cannot get further filters follows, as it cannot ask for any. *)
Definition enter_strict (t : thread) : Z * thread :=
  match t_filters t with
  | [] => (0%Z, set_filters t [strict_mode])
  | _ => ((- Z.of_N EINVAL)%Z, t)
  end.

(** prctl(2), as far as it concerns seccomp and no_new_privs (kernel/sys.c, kernel/seccomp.c):
    raw return value and new state.  The option is 32-bit.  [prog] is the filter in memory that
    the third argument points to.  Other options leave the tracked state alone. *)
Definition kernel_prctl (oom : bool) (t : thread) (d : seccomp_data) (prog : list sock_filter)
  : Z * thread :=
  if lo32 (sd_a0 d) =? PR_SET_SECCOMP then
    if sd_a1 d =? 2 then
      match attach_filter oom (t_nnp t || t_cap t) (t_filters t) prog with
      | inl e => ((- Z.of_N e)%Z, t)
      | inr fs => (0%Z, set_filters t fs)
      end
    else if sd_a1 d =? 1 then enter_strict t
    else ((- Z.of_N EINVAL)%Z, t)
  else if lo32 (sd_a0 d) =? PR_SET_NO_NEW_PRIVS then
    if (sd_a1 d =? 1) && (sd_a2 d =? 0) && (sd_a3 d =? 0) && (sd_a4 d =? 0)
    then (0%Z, set_nnp t)
    else ((- Z.of_N EINVAL)%Z, t)
  else (0%Z, t).

(** A call that asks for an id: its raw return value as u32, or death.  The libc wrappers
    of getpid and gettid return the raw value without errno handling. *)
Definition read_call (t : thread) (amb : ambient) (d : seccomp_data) : res pledge_error N :=
  match fate_of t amb d with
  | Proceed => Ok (kernel_id t d)
  | Fake r => Ok (Z.to_N (r mod 2 ^ 32))
  | Kill k => Died k
  end.

(** What the two rules that ask for an id are told ([sysenv], Filters.v). *)
Definition thread_env (t : thread) (amb : ambient) : sysenv :=
  mkEnv (read_call t amb (call_getpid amb)) (read_call t amb (call_gettid amb)).

(** [sock_fprog { len: prog_ref.len() as u16, filter: ptr }], src/seccomp.rs:991-994: the
    kernel sees the first [len as u16] instructions. *)
Definition fprog_of (prog : list sock_filter) : list sock_filter :=
  firstn (N.to_nat (as_u16 (N.of_nat (length prog)))) prog.

(** Outcome of one step of a pledge call. *)
Inductive step_result :=
| Continue (ph : phase)
| Return_ (r : res pledge_error unit).

(** [if ret != 0 { return Err(SysErr(last_os_error())) }], src/seccomp.rs:999-1001 and
    1010-1012.  libc turns a raw value in -4095..-1 into -1 and errno; any other value is
    truncated to an int and leaves errno alone. *)
Definition check_ret (amb : ambient) (raw : Z) (k : step_result) : step_result :=
  if (raw mod 2 ^ 32 =? 0)%Z then k
  else Return_ (Err (SysErr (if ((-4095 <=? raw) && (raw <=? -1))%Z then Z.to_N (- raw)
                             else amb_errno amb))).

(** The operator [?] *)
Definition proceed {A} (r : res pledge_error A) (k : A -> phase) : step_result :=
  match r with
  | Ok a => Continue (k a)
  | Err e => Return_ (Err e)
  | Panic => Return_ Panic
  | Died d => Return_ (Died d)
  end.

(** One step of [pledge_override]: at most one system call. *)
Definition pledge_step (prof : profile) (amb : ambient) (t : thread) (ph : phase)
  : step_result * thread :=
  match ph with
  | PStart ps v => (proceed (promises_to_filters ps) (fun fs => PBuild ps v [] fs), t)
  | PBuild ps v done (f :: todo) =>
      (proceed (filter_to_bpf prof (thread_env t amb) f)
               (fun frag => PBuild ps v (done ++ [frag]) todo), t)
  | PBuild ps v done [] => (proceed (assemble_parts prof done v) (fun prog => PNnp ps v prog), t)
  | PNnp ps v prog =>
      match fate_of t amb (call_set_nnp amb) with
      | Proceed =>
          let (r, t') := kernel_prctl (amb_oom amb) t (call_set_nnp amb) [] in
          (check_ret amb r (Continue (PLoad ps v prog)), t')
      | Fake r => (check_ret amb r (Continue (PLoad ps v prog)), t)
      | Kill d => (Return_ (Died d), t)
      end
  | PLoad ps v prog =>
      match fate_of t amb (call_set_seccomp amb) with
      | Proceed =>
          let (r, t') := kernel_prctl (amb_oom amb) t (call_set_seccomp amb) (fprog_of prog) in
          (check_ret amb r (Return_ (Ok tt)), t')
      | Fake r => (check_ret amb r (Return_ (Ok tt)), t)
      | Kill d => (Return_ (Died d), t)
      end
  end.

(** The first [n] steps of a call; [inl ph] if it is still in progress. *)
Fixpoint pledge_steps (n : nat) (prof : profile) (amb : nat -> ambient) (t : thread) (ph : phase)
  : (phase + res pledge_error unit) * thread :=
  match n with
  | O => (inl ph, t)
  | S n' =>
      match pledge_step prof (amb n) t ph with
      | (Continue ph', t') => pledge_steps n' prof amb t' ph'
      | (Return_ r, t') => (inr r, t')
      end
  end.

(** The number of steps of a pledge call: look-up, one per rule, assembly and two prctls. *)
Definition pledge_length (ps : list Promise) : nat :=
  4 + match promises_to_filters ps with Ok fs => length fs | _ => 0 end.

(** [pledge_override], src/seccomp.rs:985-1015 (the [inl] case cannot occur: [pledge_finishes];
    it is mapped to [Panic] to have a total function). *)
Definition pledge_override (prof : profile) (amb : nat -> ambient) (t : thread)
  (ps : list Promise) (v : SeccompReturn) : res pledge_error unit * thread :=
  match pledge_steps (pledge_length ps) prof amb t (PStart ps v) with
  | (inr r, t') => (r, t')
  | (inl _, t') => (Panic, t')
  end.

(** [pledge], src/seccomp.rs:981-983 *)
Definition pledge (prof : profile) (amb : nat -> ambient) (t : thread) (ps : list Promise)
  : res pledge_error unit * thread :=
  pledge_override prof amb t ps KillProcess.

(** * Many threads *)

(** All threads of all processes, and the next fresh name (environment). *)
Record world := mkWorld { w_threads : list thread; w_next : nat }.

(** Scheduler choices.  System calls of a thread are arbitrary (an adversary runs in it).
    An [oracle] says what a call finds: who supervises it; the filter in memory that an
    installing call points to; whether the kernel refuses the call for a reason of its own (no
    memory, busy listener, bad pointer); whether a clone3 asks for a thread; the kernel id of a
    new task. *)
Record oracle := mkOracle { o_sup : supervisor; o_payload : list sock_filter; o_refuse : bool;
                            o_thread : bool; o_newid : N }.
Inductive op :=
| OPledge (u : nat) (ps : list Promise) (v : SeccompReturn)   (* start a pledge call *)
| OStep (u : nat) (amb : ambient)                             (* next step of that call *)
| OSys (u : nat) (d : seccomp_data) (o : oracle)              (* any system call *)
| OCap (u : nat) (b : bool)                                   (* gain or lose CAP_SYS_ADMIN *)
| ODie (u : nat).                                             (* exit, signal, crash *)

(** Observable events. *)
Inductive event :=
| EvCall (u : nat) (d : seccomp_data) (e : entry)             (* a call and its fate *)
| EvSpawn (parent child : nat)
(* a pledge's filter attached to the task with these kernel ids *)
| EvInstalled (u : nat) (pid tid : N) (ps : list Promise) (v : SeccompReturn)
| EvReturned (u : nat) (ps : list Promise) (v : SeccompReturn) (r : res pledge_error unit).

(** Looking up, replacing and removing threads; removing all threads of a process. *)
Definition find_thread (w : world) (u : nat) : option thread :=
  find (fun t => Nat.eqb (t_uid t) u) (w_threads w).
Definition put_thread (w : world) (t : thread) : world :=
  mkWorld (map (fun t' => if Nat.eqb (t_uid t') (t_uid t) then t else t') (w_threads w)) (w_next w).
Definition drop_thread (w : world) (u : nat) : world :=
  mkWorld (filter (fun t' => negb (Nat.eqb (t_uid t') u)) (w_threads w)) (w_next w).
Definition drop_process (w : world) (pid : N) : world :=
  mkWorld (filter (fun t' => negb (t_pid t' =? pid)) (w_threads w)) (w_next w).

(** Who ends with a thread: itself (KILL_THREAD) or all of its process. *)
Definition apply_death (w : world) (t : thread) (d : death) : world :=
  match d with
  | DeathThread => drop_thread w (t_uid t)
  | DeathProcess | DeathSigsys => drop_process w (t_pid t)
  end.

(** A new task inherits the filters and no_new_privs of its creator. *)
Definition spawn (w : world) (t : thread) (pid tid : N) : world :=
  mkWorld (mkThread (w_next w) pid tid (t_nnp t) (t_cap t) (t_filters t) None :: w_threads w)
          (S (w_next w)).

(** The arguments of the pledge call in progress, src/seccomp.rs:985. *)
Definition ph_promises (ph : phase) : list Promise :=
  match ph with PStart ps _ | PBuild ps _ _ _ | PNnp ps _ _ | PLoad ps _ _ => ps end.
Definition ph_violation (ph : phase) : SeccompReturn :=
  match ph with PStart _ v | PBuild _ v _ _ | PNnp _ v _ | PLoad _ v _ => v end.

(** Instructions can be compared ([older_part]). *)
Definition sock_filter_eq_dec (f g : sock_filter) : {f = g} + {f <> g}.
Proof. decide equality; apply N.eq_dec. Defined.

(** [is_ancestor]: the stack of another task is an older part of the caller's.  (The kernel
    compares filters by identity, the model by content, so it synchronises more often.) *)
Fixpoint older_part (fs gs : list (list sock_filter)) : bool :=
  (if list_eq_dec (list_eq_dec sock_filter_eq_dec) fs gs then true else false) ||
  match gs with [] => false | _ :: gs' => older_part fs gs' end.

(** SECCOMP_FILTER_FLAG_TSYNC ([seccomp_can_sync_threads], [seccomp_sync_threads]): possible if
    the stack of every other task of the process is an older part of the caller's; then all get
    the caller's new stack [fs], and no_new_privs if the caller has it. *)
Definition can_sync (w : world) (t : thread) : bool :=
  forallb (fun t' => negb (t_pid t' =? t_pid t) || older_part (t_filters t') (t_filters t))
          (w_threads w).
Definition sync_threads (w : world) (t : thread) (fs : list (list sock_filter)) : world :=
  mkWorld (map (fun t' =>
             if t_pid t' =? t_pid t
             then let t1 := set_filters t' fs in if t_nnp t then set_nnp t1 else t1
             else t') (w_threads w)) (w_next w).

(** A successful execve or execveat (fs/exec.c: [begin_new_exec], [de_thread]): the other tasks of the
    process end, the caller becomes the first task of the process, whatever it was doing is forgotten; its
    filters and no_new_privs stay. *)
Definition exec_thread (t : thread) : thread :=
  mkThread (t_uid t) (t_pid t) (t_pid t) (t_nnp t) (t_cap t) (t_filters t) None.
Definition run_program (w : world) (t : thread) : world :=
  mkWorld (map (fun t' => if Nat.eqb (t_uid t') (t_uid t) then exec_thread t else t')
             (filter (fun t' => Nat.eqb (t_uid t') (t_uid t) || negb (t_pid t' =? t_pid t)) (w_threads w)))
          (w_next w).

(** The effect, on filters and tasks, of a call that proceeds.  (kernel/seccomp.c:
    prctl(PR_SET_SECCOMP), seccomp(SECCOMP_SET_MODE_STRICT) and seccomp(SECCOMP_SET_MODE_FILTER); kernel/sys.c:
    PR_SET_NO_NEW_PRIVS; kernel/fork.c; fs/exec.c; kernel/exit.c.)  The operation of seccomp(2) and its flags are 32-bit,
    bit 0 of the flags is TSYNC; whether the other flags are acceptable is up to [o_refuse]. *)
Definition sys_effect (w : world) (t : thread) (d : seccomp_data) (o : oracle)
  : world * list event :=
  let newtask (thr : bool) :=
    if o_refuse o then (w, [])
    else (spawn w t (if thr then t_pid t else o_newid o) (o_newid o),
          [EvSpawn (t_uid t) (w_next w)]) in
  if (sd_nr d =? SYS_fork) || (sd_nr d =? SYS_vfork) then newtask false
  else if sd_nr d =? SYS_clone then newtask (negb (N.land (sd_a0 d) CLONE_THREAD =? 0))
  else if sd_nr d =? SYS_clone3 then newtask (o_thread o)
  else if sd_nr d =? SYS_prctl
  then (put_thread w (snd (kernel_prctl (o_refuse o) t d (o_payload o))), [])
  else if (sd_nr d =? SYS_seccomp) && ((lo32 (sd_a0 d) =? 0) && (lo32 (sd_a1 d) =? 0) && (sd_a2 d =? 0))
  then (put_thread w (snd (enter_strict t)), [])
  else if (sd_nr d =? SYS_seccomp) && (lo32 (sd_a0 d) =? 1)
  then match attach_filter (o_refuse o) (t_nnp t || t_cap t) (t_filters t) (o_payload o) with
       | inl _ => (w, [])
       | inr fs =>
           if N.testbit (sd_a1 d) 0
           then (if can_sync w t then sync_threads w t fs else w, [])
           else (put_thread w (set_filters t fs), [])
       end
  else if ((sd_nr d =? SYS_execve) || (sd_nr d =? SYS_execveat)) && negb (o_refuse o)
  then (run_program w t, [])
  else if sd_nr d =? SYS_exit then (apply_death w t DeathThread, [])
  else if sd_nr d =? SYS_exit_group then (apply_death w t DeathProcess, [])
  else (w, []).

(** Events of the system calls a pledge step makes. *)
Definition step_calls (t : thread) (amb : ambient) (ph : phase) : list event :=
  match ph with
  | PBuild _ _ _ (KillSelf :: _) =>
      [EvCall (t_uid t) (call_getpid amb) (fate_of t amb (call_getpid amb))]
  | PBuild _ _ _ (TkillSelf :: _) =>
      [EvCall (t_uid t) (call_gettid amb) (fate_of t amb (call_gettid amb))]
  | PStart _ _ | PBuild _ _ _ _ => []
  | PNnp _ _ _ => [EvCall (t_uid t) (call_set_nnp amb) (fate_of t amb (call_set_nnp amb))]
  | PLoad _ _ _ =>
      [EvCall (t_uid t) (call_set_seccomp amb) (fate_of t amb (call_set_seccomp amb))]
  end.

(** One scheduler choice: the world after it and what is observed.  Choices for threads that do
    not exist do nothing. *)
Definition wstep (prof : profile) (w : world) (o : op) : world * list event :=
  match o with
  | OPledge u ps v =>
      match find_thread w u with
      | Some t => (match t_call t with
                   | None => put_thread w (set_call t (Some (PStart ps v)))
                   | Some _ => w
                   end, [])
      | None => (w, [])
      end
  | OStep u amb =>
      match find_thread w u with
      | Some t =>
          match t_call t with
          | None => (w, [])
          | Some ph =>
              let calls := step_calls t amb ph in
              match pledge_step prof amb t ph with
              | (Continue ph', t') => (put_thread w (set_call t' (Some ph')), calls)
              | (Return_ (Died d), t') => (apply_death w t d, calls)
              | (Return_ r, t') =>
                  (put_thread w (set_call t' None),
                   calls
                   ++ (if Nat.eqb (length (t_filters t')) (length (t_filters t)) then []
                       else [EvInstalled u (t_pid t) (t_tid t) (ph_promises ph) (ph_violation ph)])
                   ++ [EvReturned u (ph_promises ph) (ph_violation ph) r])
              end
          end
      | None => (w, [])
      end
  | OSys u d o =>
      match find_thread w u with
      | Some t =>
          let e := supervised_entry (o_sup o) (t_filters t) d in
          let ev := EvCall u d e in
          match e with
          | Proceed => let (w', evs) := sys_effect w t d o in (w', ev :: evs)
          | Fake _ => (w, [ev])
          | Kill k => (apply_death w t k, [ev])
          end
      | None => (w, [])
      end
  | OCap u b =>
      match find_thread w u with
      | Some t => (put_thread w (set_cap t b), [])
      | None => (w, [])
      end
  | ODie u => (drop_thread w u, [])
  end.

(** A history: final world and the events in order. *)
Fixpoint wrun (prof : profile) (w : world) (ops : list op) : world * list event :=
  match ops with
  | [] => (w, [])
  | o :: os =>
      let (w1, e1) := wstep prof w o in
      let (w2, e2) := wrun prof w1 os in
      (w2, e1 ++ e2)
  end.
