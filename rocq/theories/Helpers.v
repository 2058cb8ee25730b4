(** Model of tests/util.rs: the helpers [fork_expect_code] and [fork_expect_sig] of the
    integration tests.  [println!] and [tmpfile] are left out. *)
From Coq Require Import NArith ZArith List Bool.
From Verif Require Import Libc Machine Bpf SeccompRet Vm Promises Filters Kernel World.
Import ListNotations.
Local Open Scope N_scope.

(** Signal numbers of x86_64. *)
Definition SIGSEGV : N := 11.
Definition SIGSYS : N := 31.

(** [WaitStatus] as far as [waitpid(pid, None)] can return it (without WUNTRACED and
    WCONTINUED, for a child that is not traced): [Exited] and [Signaled].  The pid that comes
    with it is the one waited for (the assertions [p2 == pid]). *)
Inductive wait_status :=
| Exited (code : Z)
| Signaled (sig : N).

(** Whether the test function returns or one of its assertions panics. *)
Inductive verdict := Passed | Failed.

(** [fork_expect_code], tests/util.rs:27-42, in the parent; [None]: fork or waitpid failed and
    [unwrap] panics. *)
Definition fork_expect_code (expected : Z) (ret : option wait_status) : verdict :=
  match ret with
  | Some (Exited code) => if (code =? expected)%Z then Passed else Failed
  | _ => Failed
  end.

(** [fork_expect_sig], tests/util.rs:44-58, in the parent *)
Definition fork_expect_sig (expected : N) (ret : option wait_status) : verdict :=
  match ret with
  | Some (Signaled sig) => if sig =? expected then Passed else Failed
  | _ => Failed
  end.

(** The code a child runs, by its system calls: it returns, makes a call and goes on with the
    call's raw result, or dies of a signal of its own.  (Every run ends, as the parent waits
    for it.  The child has one thread and installs no filters but by the pledge in
    [child_of_test].) *)
Inductive childfn :=
| Ret
| Sys (d : seccomp_data) (k : Z -> childfn)
| Fault (sig : N).

(** One piece of code after another. *)
Fixpoint andthen (c next : childfn) : childfn :=
  match c with
  | Ret => next
  | Sys d k => Sys d (fun z => andthen (k z) next)
  | Fault sig => Fault sig
  end.

(** exit and exit_group end the process (the only thread) with the low byte of their argument. *)
Definition ends_process (d : seccomp_data) : bool :=
  (sd_nr d =? SYS_exit) || (sd_nr d =? SYS_exit_group).
Definition exit_code (d : seccomp_data) : Z := Z.of_N (N.land (sd_a0 d) 255).

(** A run under the filters [fs]: the calls made, in order, and how it ended ([None]: it
    returned).  [answer] is what the kernel answers to a call that proceeds, given all calls so
    far.  A single thread that is killed by its filter, in whichever way, takes the process
    along with SIGSYS. *)
Fixpoint child_run (answer : list seccomp_data -> Z) (fs : list (list sock_filter))
  (past : list seccomp_data) (c : childfn) : list seccomp_data * option wait_status :=
  match c with
  | Ret => (past, None)
  | Fault sig => (past, Some (Signaled sig))
  | Sys d k =>
      let now := past ++ [d] in
      match syscall_entry fs d with
      | Proceed =>
          if ends_process d then (now, Some (Exited (exit_code d)))
          else child_run answer fs now (k (answer now))
      | Fake r => child_run answer fs now (k r)
      | Kill _ => (now, Some (Signaled SIGSYS))
      end
  end.

(** The child of a test of tests/lib.rs: [pledge_override(ps, v).unwrap()], then [body], and, as
    the child branch of the helpers only calls the function (tests/util.rs:40, 56), whatever
    comes after the test function: [harness], the rest of the test program.  When
    [main] returns, libc calls exit_group(0), and halts (a fault) should that come back. *)
Definition main_returned : childfn :=
  Sys (mkSD SYS_exit_group AUDIT_ARCH_X86_64 0 0 0 0 0 0 0) (fun _ => Fault SIGSEGV).
Definition child_of_test (prof : profile) (amb : nat -> ambient) (t : thread)
  (ps : list Promise) (v : SeccompReturn) (answer : list seccomp_data -> Z)
  (body harness : childfn) : list seccomp_data * option wait_status :=
  match pledge_override prof amb t ps v with
  | (Ok _, t') => child_run answer (t_filters t') [] (andthen body (andthen harness main_returned))
  | (Died _, _) => ([], Some (Signaled SIGSYS))
  | (_, t') => child_run answer (t_filters t') [] (andthen harness main_returned)
  end.
