# Formal model of tarka/libpledge in Rocq (Coq 8.16.1)

libpledge restricts a process with a seccomp filter. A caller names *promises*; the library
turns them into a classic-BPF program with its own little assembler (crate `bpfvm`), which also
contains a BPF virtual machine used to test filters, and installs the program with `prctl`.
Everything that is logic in both crates is modelled: the assembler, the VM, the promise table,
the rules, program assembly, `pledge` as a sequence of system calls. The Linux kernel on the
other side is an explicit environment model, because most properties worth having (what a
pledged process can do) are about the two together.

The model and proofs use the Coq standard library only.

## Trusted base

1. **Coq's kernel** (8.16.1, including `vm_compute`; `native_compute` is not used).
2. **Assumptions of the theorems: none.** Every theorem named in MANIFEST.json is followed by
   `Print Assumptions` in its `Props*.v` file and prints "Closed under the global context". There
   are no axioms, parameters, section-less variables, admitted proofs, functors, module types or
   disabled checks. (A checker that lists the axioms of all *loaded* libraries will show
   `Coq.ssr.ssrunder.Under_rel.*`, seven abstract declarations of a standard-library module type
   that `lia`'s dependencies load; no theorem depends on them.)
3. **The reading of the Rust code.** Nothing was built or run. Every model definition cites the
   lines it transcribes. Evidence that the reading is right: `RepoTests.v` replays the
   repository's own unit tests on the model (they all come out as the tests assert), C110 says
   the same of the integration tests, the promise table, the token lists and masks of the rules
   and the system call numbers are compared with the sources and the C headers by a script
   (`tools/compare.py`; it finds no difference), and the rest was compared line by line
   several times.
4. **`Libc.v`**: constants of the `libc` crate for x86_64 Linux, typed in from knowledge of the
   headers. A wrong number there is a wrong model; no theorem can notice, except that
   `Spec.v`/`DocSpec.v` write several of them as plain numbers again. All 479 were compared with
   the C headers of a Linux system (one C program that prints differences; there were none).
5. **`Kernel.v` and the system-call part of `World.v`**: the behaviour of Linux, written from
   knowledge of `net/core/filter.c`, `kernel/seccomp.c`, `kernel/sys.c`, `kernel/fork.c`, `fs/exec.c`, `kernel/exit.c`; none of
   it is in /repo. See "Environment" below for what it says and omits. It was compared with a
   running kernel (6.18) by `tools/kernelcheck.py`, which prints filters from the model and gives
   them to the kernel: acceptance of every instruction code with many operands, 7000 random
   stacks of filters with the fate of a call, the verdicts of 53 pledge filters on 57000 calls,
   how many copies of each fit, the order of the checks of prctl, inheritance, TSYNC and (by hand)
   exec from a second thread. The only
   difference found is the one about uretprobe below. `OldKernel.v` (used by C112 only) says what
   `kernel/seccomp.c` of Linux 4.13 did with the results of filters; no such kernel was at hand to
   compare it with. `KernelCache.v` (used by C125 only) is the action cache of Linux 5.11 and later,
   from `kernel/seccomp.c`; the running kernel does not show its cache, but `tools/kernelcheck.py cache`
   tells from the time a call takes whether it was answered from it: 1361 random stacks, no difference.
6. **The specifications** `Spec.v` and `DocSpec.v`: what the theorem statements mean. They share
   with the model only data types (words, records, promise and rule names), the constants in
   `Libc.v` and, where a statement is *about* a model function, that function's name.

## Files (rocq/theories)

| file | contents | source |
|---|---|---|
| `Libc.v` | constants | `libc` crate |
| `Machine.v` | `res` = Ok / Err / Panic / Died; u8, u16, u32, usize arithmetic in both build profiles; slice indexing | Rust semantics |
| `Bpf.v` | `sock_filter`, codes, builders | `bpfvm/src/bpf.rs` |
| `SeccompRet.v` | return codes, field offsets | `bpfvm/src/seccomp.rs` |
| `Asm.v` | token assembler | `bpfvm/src/asm.rs` |
| `Vm.v` | virtual machine, `any_to_data` | `bpfvm/src/vm.rs` |
| `Promises.v` | promises, rules, the promise table | `src/promises.rs` |
| `Filters.v` | every rule's tokens, header, footer, concatenation and compilation | `src/seccomp.rs:32-979` |
| `Errors.v` | error messages (labels with characters from 128 on: printed verbatim) | `bpfvm/src/errors.rs`, `src/errors.rs` |
| `Kernel.v` | ENVIRONMENT: filter checks, filter evaluation, filter stacks, actions, supervisors, stack limit | Linux |
| `World.v` | `pledge`, `pledge_override` step by step; threads, histories of arbitrary system calls | `src/seccomp.rs:981-1015`, Linux |
| `Testkit.v` | `run_seccomp` test helper | `src/seccomp.rs:1027-1030` |
| `Helpers.v` | helpers of the integration tests and the children they fork | `tests/util.rs` |
| `IntTests.v` | the integration tests: promises, calls of the child, expected outcome | `tests/lib.rs` |
| `Spec.v` | SPECIFICATION: token semantics, VM operations, call-indexed policy table, predicates | - |
| `DocSpec.v` | SPECIFICATION of the rules transcribed from their comments | comments of `src/seccomp.rs` |
| `VmSpec.v` | SPECIFICATION: errors and panics of one VM instruction | comments and manual of BPF |
| `AsmSpec.v` | SPECIFICATION: instruction sequences that can be written with tokens | manual of BPF |
| `HelperSpec.v` | SPECIFICATION: permitted calls, children that never return | - |
| `OldKernel.v` | ASSUMED ENVIRONMENT of C112: what Linux before 4.14 does with filter results | - |
| `KernelCache.v` | ASSUMED ENVIRONMENT of C125: the action cache of Linux 5.11 and later | - |
| `WordSpec.v` | SPECIFICATION: the words of a call record that matter | - |
| `CostSpec.v` | SPECIFICATION: instructions executed for a call | - |
| `CommuteSpec.v` | SPECIFICATION: steps that leave other threads alone | - |
| `RenameSpec.v` | SPECIFICATION: the same up to the names of threads (C120) | - |
| `TokenSpec.v` | SPECIFICATION: token programs written alike (C124) | - |
| `CacheSpec.v` | SPECIFICATION: calls decided by their number (C125) | - |
| `ShortSpec.v` | SPECIFICATION: the promises of a list that matter (C128) | - |
| `NumberSpec.v` | SPECIFICATION: the calls decided by their number, grouped by promises (C129) | - |
| `MeetSpec.v` | SPECIFICATION: promises with a call in common (C130) | - |
| `TextSpec.v` | SPECIFICATION: decimal texts, printable labels | - |
| `*Proofs.v`, `*Facts.v` | lemmas | - |
| `Demo.v` | values and tactics for the examples | - |
| `RepoTests.v` | the repository's tests on the model | `src/seccomp.rs` tests, `bpfvm` tests |
| `Props*.v` | the property theorems, each `exact lemma`, `Print Assumptions`, and an example that its hypotheses are met by something non-trivial | - |

`Props*.v` and MANIFEST.json are generated by `tools/gen.py` and `tools/man.py` (plain text
tools, not used by the build).

## How the code is represented

* Words are `N`; wherever the code truncates or wraps there is an explicit `mod 2^k`.
* The overflow profile is a parameter (`Debug` panics, `Release` wraps); theorems quantify over
  it unless it is what they are about. `usize` is 64 bits.
* `Result` is data; a Rust panic is the outcome `Panic`; `Died` is the end of the thread or
  process inside a system call.
* `&mut self` methods return the new value. Loops are structural recursion or carry fuel; where
  there is fuel it is proved to suffice (C06) and exhaustion is a distinguished outcome.
* `HashMap`s (label table, promise table) are association lists with the last definition winning;
  the code only inserts and looks up, so iteration order is never observable.
* `pledge_override` is a machine with one step for the promise look-up, one per rule compiled
  (two kinds of rule call getpid or gettid), one for the assembly and one for each prctl. Each
  step makes at most one system call, in circumstances (`ambient`) of its own; other threads
  can run between any two steps, and a failure or death at any of them is a behaviour.
* Histories (`wrun`) interleave pledges of any number of threads with arbitrary system calls
  (also by a thread in the middle of a pledge: signal handlers, the allocator), clones,
  thread-synchronised filter installation, supervisors and thread death.

## Environment (Kernel.v, World.v)

Modelled: the instruction set and all validity checks applied to seccomp filters, including the
scratch-memory dataflow check; evaluation of filters on a 64-byte record; newest-to-oldest
combination with the strictest action; the seven actions and what a tracer, a notification
listener or a SIGSYS handler can make of TRACE, USER_NOTIF and TRAP; the limit of 4096
instructions per filter and of 32768 *translated* instructions per stack; `no_new_privs` and
CAP_SYS_ADMIN; ENOMEM at any installation; inheritance over clone/fork/vfork/clone3; TSYNC;
execve and execveat (the caller becomes the only thread of its process and keeps filters and
`no_new_privs`; a change of capabilities is a further step of the history); exit and
exit_group; seccomp's strict mode.

Assumed or left out:

* x86_64 Linux only. The filter translation counted for the stack limit is that of current
  kernels with `bpf_jit_harden` off (older kernels count slightly differently).
  What kernels before 4.14 make of a filter's result is `OldKernel.v`; a tracer, a SIGSYS handler
  and the acceptance of filters are not modelled for those.
* Kernels from 6.14 on let the calls uretprobe (335) and later also uprobe (336) pass without
  filtering. The model is that of the kernels before: it filters every call. (Both calls serve
  the kernel's own trampolines only and fail elsewhere.)
* The variadic `prctl(PR_SET_NO_NEW_PRIVS, 1, 0, 0, 0)` passes 32-bit literals; their registers'
  upper halves are taken to be zero (the kernel rejects the call otherwise).
* System calls made by Rust's runtime inside `pledge` are not part of `pledge_override` (in
  histories they are arbitrary calls between its steps): the allocator's (brk,
  mmap) and the one getrandom with which a thread's first `HashMap` is seeded. On a thread not
  yet confined they do nothing of interest; on a confined one they may be refused, so a *repeated*
  pledge can fail earlier than the model says (StdIO grants brk and getrandom, and prctl too
  is granted by StdIO only; anonymous mmap is refused, C34).
* Other `prctl` options and `PTRACE_O_SUSPEND_SECCOMP` do not touch the tracked state.
* Strict mode is held as a filter (`strict_mode`) that decides every call as the mode does; a
  thread enters it only without filters (C116). It is not a filter for the kernel, but no theorem
  can tell: in this mode nothing can be installed or inherited.
* TSYNC compares stacks by content, not identity (it synchronises at least as often).
* A tracer rewriting a call is a further call in the history.
* A call that proceeds may do anything the tracked state does not mention; the theorems say
  which calls *reach* the kernel, not what the kernel then does (no file system, no sockets).
* io_uring and other ways to cause effects without system calls are relevant only if a promise
  grants the setup call; none does (C22).
* `Helpers.v`: a forked child has one thread, ends, and is described by the tree of its system
  calls; `println!` and `tmpfile` are left out. `IntTests.v` follows the run each test is
  written for (no failing `unwrap`s) and replaces library functions by their system calls.
* Memory safety of the `unsafe` blocks is not modelled, except the length of the slice built by
  `any_to_data` (C48), which is a finding. Log output, the C library's texts for error numbers
  (a parameter of C84), the lazy initialisation of the promise table (`once_cell`; the table is
  a constant here), `Cargo` features and the `Debug`/`Clone` derives are not modelled.

## Findings

Properties that are false of the code carry a `_refuted` theorem with a witness, and usually a
`_partial` theorem with the exact condition under which they hold. C93-C97 are equivalences that
say exactly what the code does where such properties fail.

| finding | theorem |
|---|---|
| conditional jumps over more than 255 instructions are truncated; in Release backward jumps wrap | C04 |
| `Alu` with accumulator source is encoded as a different instruction; the VM's conditional jumps ignore source X | C05, C11 |
| Errno/Trace payloads above 0xffff change the action | C13, C44 |
| open_readonly/writeonly/createonly test argument 2 (mode) instead of 1 (flags); fchmodat tests the path | C27-C29, C59, C78 |
| prlimit64 tests the low half of a pointer only | C31, C78 |
| the setsockopt rule is attached to getsockopt | C32, C78 |
| SendFd grants recvmsg | C33 |
| mmap_noexec refuses PROT_READ\|PROT_WRITE | C34, C78 |
| pledge can return Ok without installing anything (after an Errno(0) pledge, under a tracer, or with a SIGSYS handler) | C39 |
| pledge confines only the calling thread | C41 |
| a promise list without StdIO cannot be tightened later | C42 |
| `any_to_data` makes a slice four times as long as the object | C48 |
| field offsets of huge argument indices alias real fields in Release | C49 |
| exit_group needs StdIO; getdents64 and clock_settime are never granted; TmpPath cannot create files | C57, C58, C62, C64 |
| CPath alone opens existing files for writing; Dns alone reads any file; DPath creates setuid files | C59, C60, C63 |
| threads other than the pledging one cannot tkill themselves | C61 |
| pledging A and then B is not pledging their intersection, nor in general any other list | C68, C97 |
| a tracer lifts Trace violations | C72 |
| a failed pledge leaves no_new_privs set | C88 |
| Proc allows clone with CLONE_NEWUSER and the other namespace flags except CLONE_NEWNS | C98 |
| StdIO allows migrate_pages (and several queries) on any process | C99 |
| Dns, RecvFd, SendFd, VmInfo and TmpPath give nothing of their own | C100 |
| statx, clone3, rseq, waitid and other calls ordinary programs make are never granted | C101 |
| error numbers above 4095 are returned as 4095, error number 0 as success | C103 |
| `fork_expect_sig` passes when something after the function under test is refused | C107 |
| getsockopt_restrict is idle: setsockopt_restrict, testing for getsockopt too, allows all it allows | C106 |

## How the theorems were tested

`seeded/LOG.jsonl` records wrong programs tried in a scratch copy: one edit of a model
definition each, the claim it breaks, and the theorems that no longer proved. An edit whose claim
became false while every theorem still proved led to a tighter theorem ("tightened").
Two procedures were used. *Single* mutants edit the model only. *Double* mutants edit the model
and the lemma-level reference tables alike so that shared lemmas keep proving and only theorems
whose own statement is violated fail; this gives the attribution in the log. Where a mutant
changes no behaviour the log says "equivalent".
