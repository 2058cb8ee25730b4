{"id": "C01", "title": "Assembling a label program preserves its meaning", "statement": "If every label a token program jumps to is (last) defined after the jump, conditional-jump targets are at most 255 instructions ahead, absolute jumps at most 2^32-1 ahead, and every token is one the machine has an encoding for (no ALU with the accumulator as its own operand, no conditional form of the unconditional jump), then compile() succeeds and running the resulting machine code on the bpfvm VM gives exactly the result (value, error or panic) of interpreting the token program directly, where a jump to a label resumes after that label and Label tokens do nothing.", "quantifier": "all token programs of any length satisfying the syntactic conditions, all input data, both overflow-check profiles, all initial VM contents", "why_tests_cant": "tests assemble a handful of programs; the claim ranges over all programs, label layouts and inputs", "anchors": ["bpfvm/src/asm.rs:compile", "bpfvm/src/asm.rs:map_labels", "bpfvm/src/asm.rs:jmp_calc", "bpfvm/src/asm.rs:to_sock_filter", "bpfvm/src/vm.rs:BpfVM::run"]}
{"id": "C02", "title": "compile() emits one instruction per non-label token, and labels are only names", "statement": "Whenever compile() succeeds the output has exactly as many instructions as the program has non-Label tokens, and consistently renaming labels by any injective renaming does not change the output at all (renaming the label reported in an error accordingly).", "quantifier": "all token programs, all injective label renamings, both profiles", "why_tests_cant": "infinitely many programs and renamings", "anchors": ["bpfvm/src/asm.rs:compile", "bpfvm/src/asm.rs:map_labels"]}
{"id": "C03", "title": "compile() reports exactly the undefined labels", "statement": "compile() returns an error if and only if some jump in the program refers to a label that is defined nowhere in the program and no earlier jump panics; the error is always UnknownLabelReference naming the first such label in program order (true target before false target). A program all of whose jumps go to labels last defined strictly after them always compiles.", "quantifier": "all token programs, both profiles", "why_tests_cant": "needs every program shape, including duplicate labels and several errors at once", "anchors": ["bpfvm/src/asm.rs:compile", "bpfvm/src/asm.rs:jmp_calc", "bpfvm/src/errors.rs:UnknownLabelReference"]}
{"id": "C04", "title": "compile() never silently misdirects a jump", "statement": "If compile() succeeds then each jump in the output lands on the instruction its label names. (Relied on by users; the code violates it: conditional offsets are truncated to 8 bits, and without overflow checks a backward jump becomes a forward jump.)", "quantifier": "all token programs, all jumps in them, both profiles", "why_tests_cant": "only programs with jumps over more than 255 instructions or backward jumps show it", "anchors": ["bpfvm/src/asm.rs:to_sock_filter", "bpfvm/src/asm.rs:jmp_calc"]}
{"id": "C05", "title": "Every assembler token means what it says after encoding", "statement": "Executing the instruction emitted for a token has the documented effect of the token: loads, stores, ALU operations, returns, and jumps, which go to the label named for the outcome of the comparison (as far as C105 says). (The code violates it for ALU with the accumulator source, e.g. ADD is emitted as SUB.)", "quantifier": "all tokens with all 32-bit operands, all VM states and inputs, both profiles", "why_tests_cant": "2^32 operands times all machine states", "anchors": ["bpfvm/src/bpf.rs:bpf_ld", "bpfvm/src/bpf.rs:bpf_ldx", "bpfvm/src/bpf.rs:bpf_st", "bpfvm/src/bpf.rs:bpf_stx", "bpfvm/src/bpf.rs:bpf_alu", "bpfvm/src/bpf.rs:bpf_ret", "bpfvm/src/bpf.rs:bpf_jmp", "bpfvm/src/vm.rs:BpfVM::execute"]}
{"id": "C06", "title": "The VM always terminates", "statement": "run() finishes on every program and every input after executing at most as many instructions as the program has, whatever the instruction words contain; the instruction counter strictly increases at every step.", "quantifier": "all instruction sequences (arbitrary 64-bit words), all inputs, both profiles", "why_tests_cant": "termination over all programs is not testable", "anchors": ["bpfvm/src/vm.rs:BpfVM::run", "bpfvm/src/vm.rs:BpfVM::execute"]}
{"id": "C07", "title": "VM runs are independent of history", "statement": "The result of run() depends only on the loaded program and the input: any earlier sequence of run(), reset() and single-step calls with any inputs, failing or not, leaves the result of the next run() unchanged and never alters the program.", "quantifier": "all operation histories on a VM, all programs and inputs", "why_tests_cant": "quantifies over every history of calls", "anchors": ["bpfvm/src/vm.rs:BpfVM::run", "bpfvm/src/vm.rs:BpfVM::reset", "bpfvm/src/vm.rs:BpfVM::execute"]}
{"id": "C08", "title": "A VM is created exactly for programs of at most 65535 instructions", "statement": "BpfVM::new succeeds iff the program has at most 65535 instructions, with zeroed registers and memory and the program unchanged; otherwise it returns ProgramTooLong with the exact length.", "quantifier": "all programs", "why_tests_cant": "boundary over all lengths", "anchors": ["bpfvm/src/vm.rs:BpfVM::new"]}
{"id": "C09", "title": "VM registers stay 32-bit and memory stays 16 cells", "statement": "Through any sequence of VM operations, whatever they return, accumulator, index and all scratch cells hold values below 2^32 and there are always exactly 16 scratch cells.", "quantifier": "all histories of VM operations, all well-typed programs and inputs, both profiles", "why_tests_cant": "invariant over all executions", "anchors": ["bpfvm/src/vm.rs:BpfVM::execute"]}
{"id": "C10", "title": "The VM agrees with the kernel on filters the kernel accepts", "statement": "For a filter that the kernel's seccomp checks accept and that uses no register-operand jump, no negate and no register transfer, what bpfvm computes on a seccomp_data record is what the kernel's evaluation returns: whenever the VM returns a value it is the kernel's value, it never returns an error, and without overflow checks it only panics on a division by a zero index register.", "quantifier": "all filters accepted by the kernel checks within the stated instruction subset, all seccomp_data records, any memory following the record, any initial kernel scratch memory", "why_tests_cant": "all programs and all inputs", "anchors": ["bpfvm/src/vm.rs:BpfVM::run", "bpfvm/src/vm.rs:any_to_data"]}
{"id": "C11", "title": "The VM agrees with the kernel on every accepted filter", "statement": "Dropping the instruction-subset restriction of the previous property. (The code violates it: the VM compares against the constant where the instruction asks for the index register. That and the missing instructions are the only differences: on every accepted filter the VM computes what the kernel computes for the filter with such comparisons read as comparisons with the constant, or reports an error because of a negation or register transfer.)", "quantifier": "all filters accepted by the kernel checks, all seccomp_data records", "why_tests_cant": "needs programs outside the assembler's range", "anchors": ["bpfvm/src/vm.rs:BpfVM::execute"]}
{"id": "C12", "title": "Field offsets address the right half-word of the syscall record", "statement": "Loading at the offset reported for the syscall number, architecture, either half of the instruction pointer, and either half of any of the six arguments yields exactly that field of the seccomp_data record; distinct fields have distinct offsets and every offset is 4-byte aligned and inside the 64-byte record.", "quantifier": "all seccomp_data values, all six argument indices", "why_tests_cant": "2^512 records", "anchors": ["bpfvm/src/seccomp.rs:FieldOffset::offset", "bpfvm/src/vm.rs:any_to_data", "bpfvm/src/vm.rs:fetch_u32"]}
{"id": "C13", "title": "Seccomp return codes round-trip", "statement": "Converting a return action to its 32-bit code and back yields the same action, and converting any recognised code to an action and back preserves its action half and, for Errno/Trace, its data half. (The first half is violated by the code for Errno/Trace payloads above 0xffff: Errno(0x7ffa0000) is the code of Allow.)", "quantifier": "all actions with all 32-bit payloads, all 32-bit codes", "why_tests_cant": "2^32 payloads and codes", "anchors": ["bpfvm/src/seccomp.rs:From<SeccompReturn> for u32", "bpfvm/src/seccomp.rs:TryFrom<u32> for SeccompReturn"]}
{"id": "C14", "title": "pledge() always builds a filter", "statement": "For every list of promises and every violation action, building the filter neither panics nor reports an undefined promise nor any assembler error; a pledge call can only fail through the operating system.", "quantifier": "all promise lists of any length, order and multiplicity; all violation actions; both profiles; all pids and tids", "why_tests_cant": "unbounded lists of 23 promises", "anchors": ["src/seccomp.rs:promises_to_prog", "src/seccomp.rs:filters_to_prog", "src/seccomp.rs:filter_to_bpf", "src/promises.rs:PROMISES"]}
{"id": "C15", "title": "A pledged process can do exactly what its promises grant", "statement": "For every list of promises, the installed filter allows a native x86-64 system call iff one of the promises (or the implicit default) grants it according to the syscall-indexed policy table of the specification; every other native call gets exactly the chosen violation action.", "quantifier": "all promise lists, violation actions, pids/tids and seccomp_data records", "why_tests_cant": "all promise sets times 2^512 syscall records", "anchors": ["src/seccomp.rs:promises_to_prog", "src/promises.rs:PROMISES"]}
{"id": "C16", "title": "Foreign-architecture calls kill the process", "statement": "A system call made through any architecture other than x86-64 gets KillProcess, whatever the promises, the violation override, the number and the arguments.", "quantifier": "all promise lists, violations, syscall records with another arch value", "why_tests_cant": "2^32 arch values times all records and promise sets", "anchors": ["src/seccomp.rs:bpf_header"]}
{"id": "C17", "title": "x32-ABI calls are never granted", "statement": "A call whose number has the x32 bit (0x40000000) set, or any number of 512 or more, is never granted by any promise and receives the violation action.", "quantifier": "all promise lists, violations, numbers and arguments", "why_tests_cant": "2^32 numbers", "anchors": ["src/seccomp.rs:syscall_check", "src/promises.rs:PROMISES"]}
{"id": "C18", "title": "Promise lists behave as sets", "statement": "Reordering or repeating promises does not change the verdict on any system call.", "quantifier": "all pairs of promise lists with the same members, all violations and records", "why_tests_cant": "all permutations and multiplicities", "anchors": ["src/seccomp.rs:promises_to_prog"]}
{"id": "C19", "title": "Adding promises only adds permissions", "statement": "If a list of promises allows a call then every list containing all of its promises allows it.", "quantifier": "all pairs of promise lists with inclusion, all records", "why_tests_cant": "all list pairs", "anchors": ["src/seccomp.rs:promises_to_prog"]}
{"id": "C20", "title": "The filter verdict ignores what it should ignore", "statement": "The verdict does not depend on the instruction pointer, nor on the upper halves of arguments except the address argument of sendto.", "quantifier": "all promise lists, all pairs of records agreeing on the rest", "why_tests_cant": "relational property over 2^512 x 2^512 records", "anchors": ["src/seccomp.rs:sendto_addrless", "src/seccomp.rs:ArgLower"]}
{"id": "C21", "title": "exit is always allowed and nothing else is without promises", "statement": "The exit system call is allowed under every promise list; with the empty list it is the only native call allowed.", "quantifier": "all promise lists, all records", "why_tests_cant": "all records", "anchors": ["src/seccomp.rs:promises_to_prog", "src/promises.rs:PROMISES"]}
{"id": "C22", "title": "Dangerous system calls are never granted", "statement": "No combination of promises grants ptrace, process_vm_readv/writev, mount/umount/pivot_root/chroot, kernel module loading, kexec, reboot, bpf, perf_event_open, io_uring, seccomp, unshare, setns, userfaultfd, keyctl, personality, clone3, pkey_mprotect, memfd_create, shmat, capset, swapon/swapoff, iopl/ioperm, open_by_handle_at or init_module-style calls, with any arguments.", "quantifier": "all promise lists, all records", "why_tests_cant": "all promise combinations and arguments", "anchors": ["src/promises.rs:PROMISES"]}
{"id": "C23", "title": "No new executable memory without ProtExec", "statement": "Unless ProtExec is promised, no allowed mmap requests PROT_EXEC and no allowed mprotect requests PROT_EXEC, and pkey_mprotect is refused.", "quantifier": "all promise lists without ProtExec, enforcing violations, all arguments", "why_tests_cant": "all arguments and promise lists", "anchors": ["src/seccomp.rs:mmap_noexec", "src/seccomp.rs:mprotect_noexec", "src/seccomp.rs:mmap_exec"]}
{"id": "C24", "title": "Programs can be executed only with Exec", "statement": "execve and execveat are allowed iff Exec is promised.", "quantifier": "all promise lists, all records", "why_tests_cant": "all promise lists", "anchors": ["src/promises.rs:PROMISES"]}
{"id": "C25", "title": "Processes can be created only with Proc", "statement": "Without Proc: fork, vfork and clone3 are refused and an allowed clone always has CLONE_VM, CLONE_FS, CLONE_FILES, CLONE_THREAD and CLONE_SIGHAND and never CLONE_NEWNS, CLONE_PTRACE or CLONE_UNTRACED; with Proc an allowed clone still never has those three.", "quantifier": "all promise lists, all clone flags", "why_tests_cant": "2^64 flags", "anchors": ["src/seccomp.rs:clone_thread", "src/seccomp.rs:clone_restrict"]}
{"id": "C26", "title": "Signals can be sent only to oneself without Proc", "statement": "Without Proc an allowed kill targets the pid observed while pledging, an allowed tkill targets the tid observed while pledging, and tgkill is refused.", "quantifier": "all promise lists without Proc, all pids, tids and arguments", "why_tests_cant": "all pids and arguments", "anchors": ["src/seccomp.rs:kill_self", "src/seccomp.rs:tkill_self"]}
{"id": "C27", "title": "Read-only pledges cannot open files for writing or creation", "statement": "With neither WPath nor CPath promised, every allowed openat is O_RDONLY without O_CREAT, O_TRUNC or O_TMPFILE, every allowed open likewise, and creat, truncate, rename, link, unlink (except under TmpPath), mkdir, rmdir, mknod (except under DPath) are refused. (The code violates the open part: it inspects the mode argument instead of the flags.)", "quantifier": "all promise lists without WPath and CPath, all flags and modes", "why_tests_cant": "2^64 flag and mode values", "anchors": ["src/seccomp.rs:open_readonly", "src/seccomp.rs:openat_readonly"]}
{"id": "C28", "title": "WPath does not create files", "statement": "With WPath but not CPath, allowed openat never has O_CREAT or __O_TMPFILE, nor does allowed open. (The code violates the open part.)", "quantifier": "all promise lists without CPath, all flags", "why_tests_cant": "all flags", "anchors": ["src/seccomp.rs:open_writeonly", "src/seccomp.rs:openat_writeonly"]}
{"id": "C29", "title": "Nobody can set setuid/setgid/sticky bits", "statement": "No promise list allows chmod, fchmod, fchmodat, creat, or a creating open/openat with a mode containing S_ISUID, S_ISGID or S_ISVTX. (The code violates it for fchmodat and open, which inspect the wrong argument.)", "quantifier": "all promise lists, all modes and flags", "why_tests_cant": "all modes", "anchors": ["src/seccomp.rs:chmod_nobits", "src/seccomp.rs:fchmodat_nobits", "src/seccomp.rs:open_createonly", "src/seccomp.rs:create_restrict"]}
{"id": "C30", "title": "Sockets are confined to the promised families", "statement": "socket is allowed only with (Inet or Dns and family AF_INET/AF_INET6, type STREAM/DGRAM up to the two flag bits, protocol 0/ICMP/TCP/UDP) or (Unix and family AF_UNIX, type STREAM/DGRAM, protocol 0); bind, connect, listen, accept, accept4 and a sendto with an address need a network promise.", "quantifier": "all promise lists, all arguments", "why_tests_cant": "all argument values", "anchors": ["src/seccomp.rs:socket_inet", "src/seccomp.rs:socket_unix", "src/seccomp.rs:sendto_addrless"]}
{"id": "C31", "title": "Without Proc or Id resource limits are read-only", "statement": "With StdIO but neither Proc nor Id, an allowed prlimit64 has a NULL new-limit pointer and setrlimit is refused. (The code violates the pointer part: only its lower half is checked.)", "quantifier": "all promise lists without Proc and Id, all pointers", "why_tests_cant": "2^64 pointers", "anchors": ["src/seccomp.rs:prlimit64_stdio"]}
{"id": "C32", "title": "Network promises allow setting the documented socket options", "statement": "With Inet or Unix, setsockopt with a documented level and option is allowed and getsockopt is limited to its documented levels and options. (The code violates both: the setsockopt rule is attached to getsockopt.)", "quantifier": "all promise lists, levels and options", "why_tests_cant": "all values", "anchors": ["src/seccomp.rs:setsockopt_restrict", "src/seccomp.rs:getsockopt_restrict"]}
{"id": "C33", "title": "SendFd allows sending", "statement": "With SendFd, sendmsg is allowed. (The code violates it: SendFd grants the receiving calls, and no promise grants sendmsg or sendmmsg.)", "quantifier": "all promise lists", "why_tests_cant": "all promise lists", "anchors": ["src/promises.rs:PROMISES"]}
{"id": "C34", "title": "StdIO allows ordinary anonymous read-write memory", "statement": "With StdIO an mmap whose protection is any combination of PROT_READ and PROT_WRITE and whose flags avoid the four documented bits is allowed. (The code violates it: PROT_READ|PROT_WRITE together is refused.)", "quantifier": "all promise lists containing StdIO, all arguments", "why_tests_cant": "all arguments", "anchors": ["src/seccomp.rs:mmap_noexec"]}
{"id": "C35", "title": "fcntl, ioctl and prctl are limited to the documented commands", "statement": "An allowed fcntl has command 0..4 or F_DUPFD_CLOEXEC (StdIO) or F_GETLK/F_SETLK/F_SETLKW (FLock); an allowed ioctl one of FIONREAD/FIONBIO/FIOCLEX/FIONCLEX (StdIO), SIOCATMARK (Inet) or the twelve terminal requests (Tty); an allowed prctl one of the seven documented options (StdIO); and each of these is allowed.", "quantifier": "all promise lists, all commands", "why_tests_cant": "2^32 commands", "anchors": ["src/seccomp.rs:fcntl_stdio", "src/seccomp.rs:fcntl_lock", "src/seccomp.rs:ioctl_restrict", "src/seccomp.rs:ioctl_inet", "src/seccomp.rs:ioctl_tty", "src/seccomp.rs:prctl_stdio"]}
{"id": "C36", "title": "The kernel accepts every generated filter that fits", "statement": "The filter built for a list of promises passes all kernel validity checks iff it has at most 4096 instructions, and for any list without repetitions it does.", "quantifier": "all promise lists, violations, pids, tids", "why_tests_cant": "all lists", "anchors": ["src/seccomp.rs:promises_to_prog", "src/seccomp.rs:pledge_override"]}
{"id": "C37", "title": "An over-long filter is never installed in part", "statement": "The length handed to the kernel is truncated to 16 bits; nevertheless no proper prefix of a generated filter is accepted by the kernel, so a pledge whose filter exceeds 4096 instructions always fails (with EINVAL, memory permitting) and never installs a truncated, weaker or stricter filter.", "quantifier": "all promise lists of any length, all prefix lengths", "why_tests_cant": "needs lists producing more than 65536 instructions and every prefix", "anchors": ["src/seccomp.rs:pledge_override"]}
{"id": "C38", "title": "A failing or interrupted pledge leaves the filters as they were", "statement": "If pledge returns an error, panics or is stopped between any two of its steps (looking up the promises, compiling each rule, assembling, and the two prctl calls), the set of filters on the thread is unchanged; if it succeeds by actually reaching the kernel the set grows by exactly the one complete filter and no_new_privs is set. That filter has the rules of all promises in order, each compiled with an answer the thread got to getpid or gettid; every call gets from it what it would get from a filter built with one of those pids and one of those tids throughout, and if all answers agree it is that filter.", "quantifier": "all thread states, promise lists, violations and stop points inside the call", "why_tests_cant": "crash points", "anchors": ["src/seccomp.rs:pledge_override"]}
{"id": "C39", "title": "pledge returning success means the pledge is in force", "statement": "If pledge returns Ok then the filter for its promises has been installed. (The code violates it: after an earlier pledge without StdIO and with violation Errno(0) both prctl calls appear to succeed without running.) It does hold on every thread none of whose earlier pledges used an error-number violation with number 0. More generally, in any history of any threads in which no pledge has that violation (or a payload of 2^16 or more), no other filter answers error number 0 and nobody supervises the calls, every success directly follows the installation. It is also false under Trap if a SIGSYS handler resumes the call with value 0.", "quantifier": "all thread histories of earlier pledges, all promise lists and violations", "why_tests_cant": "histories", "anchors": ["src/seccomp.rs:pledge_override"]}
{"id": "C40", "title": "Pledges can only be narrowed, never widened", "statement": "Through any history of pledges, arbitrary system calls (also in the middle of a pledge), extra filters (with or without thread synchronisation), capability changes, thread and process creation by any threads in any interleaving: once a pledge has been installed on a thread, every call that later proceeds on that thread or on any thread or process descending from it is a native call that this pledge's promises grant, with a pid and a tid that are the pledging thread's own or a made-up answer one of its earlier getpid/gettid calls was given; there are at most as many of either as StdIO occurs in the list. For KillProcess, KillThread, Trap and Errno this holds whatever tracers, listeners and signal handlers do; for Trace when nobody supervises the calls.", "quantifier": "all histories and interleavings of all threads", "why_tests_cant": "all schedules", "anchors": ["src/seccomp.rs:pledge_override"]}
{"id": "C41", "title": "pledge confines the whole process", "statement": "After a successful pledge every thread of the process is confined. (The code violates it: the filter is attached to the calling thread only. It holds if the process has one thread at that moment: then every task the process has at any later time, through any number of clones, performs only granted calls.)", "quantifier": "all process states with several threads; all histories after the pledge", "why_tests_cant": "needs thread schedules", "anchors": ["src/seccomp.rs:pledge_override"]}
{"id": "C42", "title": "Only StdIO pledges can be tightened later", "statement": "On a thread already confined by an enforcing pledge without StdIO, a later pledge never adds a filter (unless a tracer lets Trace violations pass): its very first system call receives the earlier violation action. In any history: once an enforcing pledge without StdIO is installed, no pledge installs anything on that thread or any descending from it. On a thread all of whose pledges include StdIO a later pledge (within kernel size limits and memory, unsupervised) succeeds.", "quantifier": "all thread histories, promise lists and violations", "why_tests_cant": "histories", "anchors": ["src/seccomp.rs:pledge_override", "src/seccomp.rs:prctl_stdio"]}
{"id": "C43", "title": "With several pledges the strictest action wins", "statement": "The action applied to a call under several pledges is the most severe of the individual actions in the order KillProcess, KillThread, Trap, Errno, Trace, Log, Allow; the call proceeds iff every pledge lets it proceed.", "quantifier": "all stacks of pledges, all records", "why_tests_cant": "all stacks", "anchors": ["src/seccomp.rs:pledge_override", "bpfvm/src/seccomp.rs:SeccompReturn"]}
{"id": "C44", "title": "Overrides decide only what a refused call gets", "statement": "For a violation with payload below 2^16 a refused native call receives exactly that action and payload; so with Allow or Log every native call proceeds, and with any other action exactly the granted ones do. (For larger payloads the code violates it: Errno(0x7ffa0000) lets everything through.)", "quantifier": "all violations, promise lists, records", "why_tests_cant": "2^32 payloads", "anchors": ["src/seccomp.rs:bpf_footer", "bpfvm/src/seccomp.rs:From<SeccompReturn> for u32"]}
{"id": "C45", "title": "pledge is pledge_override with KillProcess", "statement": "pledge(ps) has in every thread state the same effect and result as pledge_override(ps, KillProcess): once it has installed its filter, a call its promises grant for no ids kills the process, and so does, if every answer to getpid and gettid was the same, one they do not grant with these.", "quantifier": "all thread states and promise lists", "why_tests_cant": "all states", "anchors": ["src/seccomp.rs:pledge"]}
{"id": "C46", "title": "Filter evaluation cost is bounded", "statement": "Evaluating a generated filter executes at most as many instructions as it has, every instruction executed is a word load, mask, comparison, forward jump or constant return, and evaluation always ends in an explicit return, never by running off the end.", "quantifier": "all promise lists, all records", "why_tests_cant": "all lists and records", "anchors": ["src/seccomp.rs:filters_to_prog"]}
{"id": "C47", "title": "Checking a filter in the VM predicts the policy and the kernel", "statement": "Running a generated filter in the VM on any record, as the crate's tests do (run_seccomp), yields Allow exactly for granted calls, the violation for refused ones and KillProcess for a foreign architecture, and the kernel treats the call accordingly; a filter over 65535 instructions is reported as too long.", "quantifier": "all promise lists, violations with payload below 2^16, records, both profiles, whatever memory follows the record", "why_tests_cant": "tests run a handful of records per filter", "anchors": ["src/seccomp.rs:run_seccomp", "bpfvm/src/vm.rs:run", "bpfvm/src/vm.rs:any_to_data"]}
{"id": "C48", "title": "any_to_data exposes exactly the record", "statement": "any_to_data(&d) is the record and nothing else. False of the code: the slice has size_of::<T>() words instead of size_of::<T>() bytes. No filter that the kernel accepts and no generated filter reads the excess.", "quantifier": "all records, all surrounding memory, all accepted filters", "why_tests_cant": "needs reasoning over memory the test does not control", "anchors": ["bpfvm/src/vm.rs:any_to_data"]}
{"id": "C49", "title": "Field offsets are exact or an overflow", "statement": "FieldOffset::offset in u32 arithmetic gives the mathematical offset when it fits; otherwise Debug panics and Release yields it modulo 2^32 (so nonexistent arguments can alias real ones).", "quantifier": "all fields with any u32 argument index, both profiles", "why_tests_cant": "2^33 fields", "anchors": ["bpfvm/src/seccomp.rs:FieldOffset::offset"]}
{"id": "C50", "title": "Tokens mean to the kernel what they mean to the VM", "statement": "For every well-formed token program (labels resolvable forward, jumps in range) whose compilation the kernel accepts, the token-level meaning on a record is the kernel's evaluation of the compiled filter: if it is a value it is the kernel's value, it is never an error, and without overflow checks it is a panic only at a division by a zero X register, where the kernel's value is 0. Without such divisions the two are equal.", "quantifier": "all token programs, records, scratch memories", "why_tests_cant": "all programs", "anchors": ["bpfvm/src/asm.rs:compile", "bpfvm/src/vm.rs:run"]}
{"id": "C51", "title": "Compiled code fits the wire format and does not depend on the profile", "statement": "Every compiled instruction has a 16-bit code, 8-bit jump offsets and a 32-bit operand; a Debug build either panics or gives exactly the Release result (success or error).", "quantifier": "all token programs", "why_tests_cant": "all programs", "anchors": ["bpfvm/src/asm.rs:compile", "bpfvm/src/asm.rs:to_sock_filter"]}
{"id": "C52", "title": "Programs can be compiled piecewise", "statement": "If two programs share no labels and neither refers to the other's, compiling their concatenation gives the concatenation of their compilations, or the first one's failure.", "quantifier": "all pairs of programs, both profiles", "why_tests_cant": "all programs", "anchors": ["bpfvm/src/asm.rs:compile", "bpfvm/src/asm.rs:map_labels"]}
{"id": "C53", "title": "Capabilities belonging to one promise", "statement": "Changing user or group ids is allowed iff Id is promised, changing owners iff Chown, file times iff FAttr, flock iff FLock, settimeofday/clock_adjtime iff SetTime, landlock iff Unveil, mknod iff DPath, exec iff Exec, process and scheduling control iff Proc, changing directories' contents iff CPath, truncating by path iff WPath, chdir/readlink/statfs iff RPath, and writing, pipes, duplicating descriptors, signal handling, exit_group, futex iff StdIO, whatever the arguments.", "quantifier": "all promise lists, all enforcing violations, all records", "why_tests_cant": "all lists and arguments", "anchors": ["src/promises.rs:PROMISES", "src/seccomp.rs:promises_to_prog"]}
{"id": "C54", "title": "Inclusion order of promises", "statement": "A promise grants at least what another does exactly in these cases: they are equal, the other is Default, they are SendFd and RecvFd (which are therefore equivalent), or they are StdIO and VmInfo.", "quantifier": "all pairs of promises, all processes and records", "why_tests_cant": "a universally quantified comparison of policies", "anchors": ["src/promises.rs:PROMISES"]}
{"id": "C55", "title": "No file names without a path promise", "statement": "A process that promised none of RPath, WPath, CPath, DPath, FAttr, Chown, Exec, TmpPath and Dns cannot make any of 64 system calls that take a path name (listed as path_calls in Spec.v).", "quantifier": "all promise lists, records", "why_tests_cant": "all lists and records", "anchors": ["src/promises.rs:PROMISES"]}
{"id": "C56", "title": "No network without a network promise", "statement": "A process that promised none of Inet, Unix and Dns can neither create, name, connect nor listen on sockets, nor pass an address to sendto.", "quantifier": "all promise lists, records", "why_tests_cant": "all lists and records", "anchors": ["src/promises.rs:PROMISES", "src/seccomp.rs:sendto_addrless"]}
{"id": "C57", "title": "Every pledged process can terminate normally", "statement": "exit_group is allowed under every promise list, as exit is. (The code violates it: exit_group needs StdIO.)", "quantifier": "all promise lists", "why_tests_cant": "all lists", "anchors": ["src/promises.rs:Default"]}
{"id": "C58", "title": "RPath allows listing directories", "statement": "With RPath (and StdIO) getdents64 is allowed. (The code violates it: no list grants getdents64.)", "quantifier": "all promise lists", "why_tests_cant": "tests try a few calls", "anchors": ["src/promises.rs:RPath"]}
{"id": "C59", "title": "Opening existing files for writing needs WPath", "statement": "openat without O_CREAT and with write access is allowed only with WPath. (The code violates it: CPath suffices; exactly WPath or CPath.)", "quantifier": "all promise lists, all flags", "why_tests_cant": "all flag words", "anchors": ["src/seccomp.rs:openat_createonly", "src/promises.rs:CPath"]}
{"id": "C60", "title": "Reading files needs RPath", "statement": "A read-only openat is allowed only with RPath. (The code violates it: Dns and CPath suffice; exactly RPath, Dns or CPath.)", "quantifier": "all promise lists, all flags", "why_tests_cant": "all flag words", "anchors": ["src/promises.rs:Dns"]}
{"id": "C61", "title": "Every thread can signal itself", "statement": "With StdIO a thread can tkill itself. (The code violates it: the filter contains the id of the thread that pledged, so the threads it starts later cannot.)", "quantifier": "all threads, promise lists", "why_tests_cant": "needs several threads", "anchors": ["src/seccomp.rs:tkill_self"]}
{"id": "C62", "title": "SetTime allows setting the clock", "statement": "With SetTime clock_settime is allowed. (The code violates it: no list grants it.)", "quantifier": "all promise lists", "why_tests_cant": "tests try a few calls", "anchors": ["src/promises.rs:SetTime"]}
{"id": "C63", "title": "No new file gets setuid bits", "statement": "No promise list allows making a file with S_ISUID. (The code violates it for mknod with DPath, whose mode is not inspected.)", "quantifier": "all promise lists, modes", "why_tests_cant": "all modes", "anchors": ["src/promises.rs:DPath"]}
{"id": "C64", "title": "TmpPath allows temporary files", "statement": "With StdIO and TmpPath a file can be made. (The code violates it: every system call that makes files is refused.)", "quantifier": "all records", "why_tests_cant": "tests try a few calls", "anchors": ["src/promises.rs:TmpPath"]}
{"id": "C65", "title": "The order of pledges does not matter", "statement": "For any two stacks of filters containing the same filters, in any order and with any repetitions, every call has the same kind of fate: it proceeds in both, is killed in the same way in both, or is skipped with an error in both.", "quantifier": "all filters (not only generated ones), stacks, records", "why_tests_cant": "all permutations", "anchors": ["src/seccomp.rs:pledge_override"]}
{"id": "C66", "title": "Repeating a pledge changes nothing", "statement": "Installing the filter on top of the stack once more leaves the fate of every call unchanged; so does repeating a successful StdIO pledge, whether or not it succeeds the second time.", "quantifier": "all stacks, threads, records", "why_tests_cant": "all states", "anchors": ["src/seccomp.rs:pledge_override"]}
{"id": "C67", "title": "A later, larger pledge changes nothing", "statement": "On a stack containing an enforcing pledge, pledging a superset of its promises, with any violation, does not change which calls proceed.", "quantifier": "all lists, violations, stacks, records", "why_tests_cant": "all lists", "anchors": ["src/seccomp.rs:pledge_override"]}
{"id": "C68", "title": "Two pledges amount to their common promises", "statement": "After pledging A and then B exactly the calls granted by the promises in both are allowed. (False: calls granted by both for different reasons survive, e.g. stat with RPath and WPath. The calls of the common promises do survive.)", "quantifier": "all pairs of lists", "why_tests_cant": "all pairs of lists", "anchors": ["src/promises.rs:PROMISES"]}
{"id": "C69", "title": "At least 28 pledges fit", "statement": "On a thread with up to 27 pledges, each with StdIO and without repeated promises, one more pledge without repetitions succeeds (unsupervised, memory permitting) and installs exactly its filter. (The kernel counts the translated instructions of all installed filters plus 4 each, up to 32768.)", "quantifier": "all such stacks", "why_tests_cant": "all stacks", "anchors": ["src/seccomp.rs:pledge_override"]}
{"id": "C70", "title": "Exact size of a filter", "statement": "The filter for a list of promises has 7 instructions plus a fixed number per promise, and a first pledge succeeds, memory permitting, iff these numbers sum to at most 4089.", "quantifier": "all lists, violations, threads", "why_tests_cant": "all lists", "anchors": ["src/seccomp.rs:filters_to_prog"]}
{"id": "C71", "title": "pledge does not depend on the build profile", "statement": "pledge has the same result and effect with and without overflow checks, in every thread state.", "quantifier": "all thread states, lists, violations", "why_tests_cant": "two builds times all states", "anchors": ["src/seccomp.rs:pledge_override", "bpfvm/src/asm.rs:compile"]}
{"id": "C72", "title": "No supervisor can lift a violation", "statement": "Whatever a tracer, a seccomp listener or a SIGSYS handler does, a call refused by a pledge does not proceed. (True for KillProcess, KillThread, Trap and Errno in any stack of filters; false for Trace: a tracer can let every refused call proceed.)", "quantifier": "all supervisors, stacks, calls, lists", "why_tests_cant": "all supervisors and calls", "anchors": ["src/seccomp.rs:filters_to_prog"]}
{"id": "C73", "title": "Confinement only grows and is inherited", "statement": "In every history of pledges and arbitrary system calls by any threads: every task that descends from a task carries all filters that task had, below any newer ones, and has no_new_privs if it had it.", "quantifier": "all histories and interleavings", "why_tests_cant": "all schedules", "anchors": ["src/seccomp.rs:pledge_override"]}
{"id": "C74", "title": "Success is reported exactly after an installation", "statement": "In every history, a pledge returning Ok directly follows the installation of its filter or a load call that was skipped with a value that is 0 as an int; and every installation is followed directly by that pledge returning Ok.", "quantifier": "all histories and interleavings", "why_tests_cant": "all schedules", "anchors": ["src/seccomp.rs:pledge_override"]}
{"id": "C75", "title": "Pledging changes no other thread", "statement": "No step of a pledge call changes, adds or removes any other thread, except that the threads of the same process disappear if one of the call's own system calls is answered by killing the process.", "quantifier": "all worlds and steps", "why_tests_cant": "all states", "anchors": ["src/seccomp.rs:pledge_override"]}
{"id": "C76", "title": "Without Proc a pledge ends process creation", "statement": "After an enforcing pledge without Proc, in every later history, all tasks descending from the pledging thread belong to its process (so the pid in the filter is that of every task it confines).", "quantifier": "all histories and interleavings", "why_tests_cant": "all schedules", "anchors": ["src/promises.rs:PROMISES", "src/seccomp.rs:clone_thread"]}
{"id": "C77", "title": "Exactly when another pledge fits", "statement": "On a thread all of whose pledges include StdIO, a pledge succeeds (unsupervised, memory permitting) iff its own promises take at most 4089 instructions and 14 plus their cost in the kernel's internal instruction set plus 18 plus that cost for every installed pledge is at most 32768; otherwise it fails with EINVAL or ENOMEM respectively and the filters stay as they were.", "quantifier": "all promise lists, violations, thread states and stacks of earlier pledges, both build profiles", "why_tests_cant": "The limit is a sum over arbitrarily long stacks of arbitrary pledges; a test tries one stack.", "anchors": ["src/seccomp.rs:filters_to_prog"]}
{"id": "C78", "title": "Each rule implements the comment above it", "statement": "For every rule of src/seccomp.rs, a filter consisting of that rule lets a native call proceed iff it is the call named in the comment and its arguments satisfy the restrictions the comment lists.", "quantifier": "all rules, pids, tids, enforcing violations and native calls, both build profiles", "why_tests_cant": "64-bit arguments; a test tries a few calls of a few rules.", "anchors": ["src/seccomp.rs:fcntl_stdio", "src/seccomp.rs:mmap_noexec", "src/seccomp.rs:filters_to_prog"]}
{"id": "C79", "title": "Exactly which instructions fail, panic or return", "statement": "Executing an instruction panics iff it reads outside the data, names a scratch cell that does not exist, divides by zero or (with overflow checks) overflows; reports an error iff its code is in the given table and it does not panic; returns iff it is a return with a valid source; executing past the program panics and changes nothing; a run fails or panics iff it reaches such an instruction.", "quantifier": "all 16-bit codes, operands, VM states, data, both profiles", "why_tests_cant": "65536 codes times all states.", "anchors": ["bpfvm/src/vm.rs:execute"]}
{"id": "C80", "title": "run is repeated execute", "statement": "run returns r leaving state s iff repeated execute from the reset state reaches a state from which execute returns r leaving s, or which is past the end and r is 0.", "quantifier": "all VMs, data, results", "why_tests_cant": "all programs", "anchors": ["bpfvm/src/vm.rs:run", "bpfvm/src/vm.rs:execute"]}
{"id": "C81", "title": "More data changes nothing", "statement": "A program that does not ask for the length of the data and does not panic has the same result and final state when data is appended.", "quantifier": "all programs without length loads, data, extra data", "why_tests_cant": "all programs and data", "anchors": ["bpfvm/src/vm.rs:fetch_data"]}
{"id": "C82", "title": "The VM's build profiles differ only where Debug panics", "statement": "If a run does not panic in a Debug build, a Release build gives the same result and state; up to the panic both go through the same states.", "quantifier": "all programs and data", "why_tests_cant": "tests run one profile", "anchors": ["bpfvm/src/vm.rs:execute"]}
{"id": "C83", "title": "Effect of a VM instruction", "statement": "An instruction that is not in the error table, does not return and does not panic changes the state exactly as the BPF manual says (32-bit arithmetic, shifts modulo 32), and nothing else.", "quantifier": "all codes, word-sized states, data, both profiles", "why_tests_cant": "all codes and states", "anchors": ["bpfvm/src/vm.rs:execute"]}
{"id": "C84", "title": "Error messages identify the error", "statement": "Two errors of bpfvm or of libpledge with the same message are equal (whatever texts the C library has for the error numbers); numbers are printed in decimal without leading zeros and labels appear in quotes, printable ones verbatim, others with quotes, backslashes and control characters escaped.", "quantifier": "all errors, numbers and labels", "why_tests_cant": "all numbers and labels", "anchors": ["bpfvm/src/errors.rs:Error", "src/errors.rs:Error"]}
{"id": "C85", "title": "A kill is final and hits exactly its target", "statement": "When a filter kills (a call of the program or one made inside pledge), exactly the calling thread (KILL_THREAD) or exactly the threads of its process (KILL_PROCESS, unhandled SIGSYS) disappear; they never do anything again, however the history continues; otherwise a thread disappears only when it is killed from outside, by exit, by exit_group of a thread of its process, or because another thread of its process runs a program (execve, execveat). A call that a pledge with violation KillThread or KillProcess does not grant kills the caller, whatever other filters are installed and whoever supervises it, and with KillProcess its whole process.", "quantifier": "all worlds, operations, histories, filter stacks, supervisors, calls", "why_tests_cant": "a test observes one process dying once", "anchors": ["src/seccomp.rs:SeccompReturn", "src/seccomp.rs:pledge_override"]}
{"id": "C86", "title": "A pledge ends", "statement": "Once started, a pledge returns, or its thread is gone or has run a program (execve, execveat, from a signal handler), after at most 4 + the number of rules of its promises (113 for StdIO, 16 for RPath, ...) of its own steps, whatever other threads (or the thread itself, in signal handlers) do in between; and it neither installs a filter nor returns Ok before it has taken exactly that many.", "quantifier": "all histories, interleavings, promise lists, violations, profiles", "why_tests_cant": "all interleavings", "anchors": ["src/seccomp.rs:pledge_override", "src/seccomp.rs:promises_to_prog"]}
{"id": "C87", "title": "System calls of a pledge", "statement": "The calls a pledge makes are an initial part of: getpid and gettid once per occurrence of StdIO in the list, prctl(PR_SET_NO_NEW_PRIVS), prctl(PR_SET_SECCOMP), in this order, and all of it if the pledge returns Ok.", "quantifier": "all histories with arbitrary behaviour of other threads, promise lists, violations, profiles", "why_tests_cant": "all interleavings and lists", "anchors": ["src/seccomp.rs:pledge_override", "src/seccomp.rs:kill_self", "src/seccomp.rs:tkill_self"]}
{"id": "C88", "title": "A failed pledge leaves no trace", "statement": "A pledge that does not return Ok leaves the calling thread as it was.", "quantifier": "all threads, promise lists, violations, circumstances, profiles", "why_tests_cant": "all failures, also ones a test cannot provoke", "anchors": ["src/seccomp.rs:pledge_override"]}
{"id": "C89", "title": "Stale registers do not matter", "statement": "Result and effect of a pledge do not depend on what the argument registers its system calls do not use contain, nor on where in memory it runs, also when it runs under the filters of earlier pledges.", "quantifier": "all threads under any pledges, register contents, supervisors, promise lists, violations, profiles", "why_tests_cant": "all register contents", "anchors": ["src/seccomp.rs:pledge_override"]}
{"id": "C90", "title": "Refusals are justified", "statement": "In a process tree where programs install no filters of their own, a system call that does not proceed was made under a pledge, completed earlier by the calling task or by an ancestor before it created the line leading to it, that does not grant the call (with ids that getpid and gettid gave to the task that pledged), and what happens to it is that pledge's violation; or it was a call of a foreign architecture, and the process is killed.", "quantifier": "all histories of any number of tasks, pledges and calls, all schedules, supervisors, profiles", "why_tests_cant": "all histories", "anchors": ["src/seccomp.rs:pledge_override"]}
{"id": "C91", "title": "A task's filters are exactly the pledges of its line", "statement": "In a process tree that starts without filters and whose programs install none of their own, the filters of every task are exactly, newest first, those of the pledges it completed since it was created, those its creator completed before that, and so on. So in every history without supervisors (where no filter makes up answers to getpid or gettid) the fate of every call is: proceed if there is no such pledge; death of the process for a foreign architecture; otherwise the most severe of the actions these pledges have for it, the newest one's on a tie.", "quantifier": "all histories of any number of tasks, pledges and calls, all schedules, profiles", "why_tests_cant": "all histories", "anchors": ["src/seccomp.rs:pledge_override"]}
{"id": "C92", "title": "A pledge among other tasks runs as it would alone", "statement": "A pledge that returns in the middle of a history, interleaved in any way with the pledges, system calls and deaths of other threads and processes (other than seccomp calls, which can synchronise filters), returns what it would have returned, and leaves its thread as it would have left it, had nothing happened in between, given the same circumstances at each of its steps.", "quantifier": "all histories, interleavings, numbers of threads, promise lists, violations, profiles", "why_tests_cant": "all interleavings", "anchors": ["src/seccomp.rs:pledge_override"]}
{"id": "C93", "title": "Exactly which opens are allowed", "statement": "open(2) proceeds iff RPath is promised and bits 0, 1, 6, 9, 22 of its third argument are 0, or WPath and exactly one of bits 0 and 1 is set and bits 6 and 22 are 0, or CPath and bits 6 and 22 of the third or bits 9 to 11 of the fourth argument are 0; the flags (second argument) do not matter at all. openat likewise, where these are the flags and the mode, with Dns as good as RPath. creat iff CPath and no set-id or sticky bit. openat2 never.", "quantifier": "all promise lists, violations that refuse, ids, native calls with all argument values, both build profiles", "why_tests_cant": "all 64-bit argument values and all promise lists", "anchors": ["src/seccomp.rs:open_readonly", "src/seccomp.rs:open_writeonly", "src/seccomp.rs:open_createonly", "src/seccomp.rs:openat_readonly", "src/seccomp.rs:openat_writeonly", "src/seccomp.rs:openat_createonly", "src/seccomp.rs:create_restrict"]}
{"id": "C94", "title": "Exactly which modes are allowed", "statement": "chmod, fchmod and fchmodat proceed iff WPath or FAttr is promised and bits 9 to 11 of the second argument are 0; for fchmodat this is the path, and its mode does not matter. mknod and mknodat iff DPath, mkdir and mkdirat iff CPath, with any mode.", "quantifier": "all promise lists, violations that refuse, ids, native calls with all argument values, both build profiles", "why_tests_cant": "all 64-bit argument values and all promise lists", "anchors": ["src/seccomp.rs:chmod_nobits", "src/seccomp.rs:fchmod_nobits", "src/seccomp.rs:fchmodat_nobits"]}
{"id": "C95", "title": "Exactly which memory calls are allowed", "statement": "mmap proceeds iff StdIO is promised, the lower half of the protection is 0, 1 or 2 and MAP_LOCKED, MAP_POPULATE, MAP_NONBLOCK and MAP_HUGETLB are off, or ProtExec and MAP_LOCKED, MAP_NONBLOCK and MAP_HUGETLB are off; mprotect iff StdIO and the lower half of the protection is below 4, or ProtExec. (So with StdIO writable and readable memory takes two steps.) munmap and brk iff StdIO.", "quantifier": "all promise lists, violations that refuse, ids, native calls with all argument values, both build profiles", "why_tests_cant": "all 64-bit argument values and all promise lists", "anchors": ["src/seccomp.rs:mmap_noexec", "src/seccomp.rs:mmap_exec", "src/seccomp.rs:mprotect_noexec"]}
{"id": "C96", "title": "Exactly which signals are allowed", "statement": "kill proceeds iff Proc is promised, or StdIO and the lower half of the first argument is the id getpid gave; tkill likewise with the id of the pledging thread; tgkill iff Proc; rt_sigqueueinfo, rt_tgsigqueueinfo and pidfd_send_signal never.", "quantifier": "all promise lists, violations that refuse, ids, native calls with all argument values, both build profiles", "why_tests_cant": "all 64-bit argument values and all promise lists", "anchors": ["src/seccomp.rs:kill_self", "src/seccomp.rs:tkill_self"]}
{"id": "C97", "title": "Exactly what a stack of pledges allows", "statement": "Under any number of pledges a native call proceeds iff every one of them grants it. In general no promise list describes the result: for RPath followed by WPath every list disagrees with the stack about some call.", "quantifier": "all promise lists, violations that refuse, ids, native calls with all argument values, both build profiles", "why_tests_cant": "all 64-bit argument values and all promise lists", "anchors": ["src/seccomp.rs:pledge_override"]}
{"id": "C98", "title": "A pledged process cannot enter new namespaces", "statement": "No promise list allows a call that creates or enters a namespace. (The code violates it: with Proc, clone may have CLONE_NEWUSER, CLONE_NEWPID, CLONE_NEWNET, CLONE_NEWIPC, CLONE_NEWUTS or CLONE_NEWCGROUP, only CLONE_NEWNS is tested. unshare, setns, clone3 and CLONE_NEWNS are refused always, and without Proc an allowed clone makes a thread.)", "quantifier": "all promise lists, violations that refuse, ids, native calls with all argument values, both build profiles", "why_tests_cant": "all 64-bit argument values and all promise lists", "anchors": ["src/seccomp.rs:clone_restrict", "src/seccomp.rs:clone_thread"]}
{"id": "C99", "title": "Without Proc a process cannot address another process", "statement": "Without Proc no allowed system call names another process, thread or process group. (The code violates it: with StdIO migrate_pages, get_robust_list, getpgid, getsid, sched_getaffinity and prlimit64 without new limits are allowed for any target, with Id also prlimit64, getpriority and setpriority. These and kill and tkill of the ids seen while pledging are all, among 35 system calls that name a target.)", "quantifier": "all promise lists, violations that refuse, ids, native calls with all argument values, both build profiles", "why_tests_cant": "all 64-bit argument values and all promise lists", "anchors": ["src/promises.rs:PROMISES"]}
{"id": "C100", "title": "Which promises are needed", "statement": "For every promise other than Default, Dns, RecvFd, SendFd, VmInfo and TmpPath there is a call that a pledge allows iff it includes that promise; for these six there is none: VmInfo can be replaced by StdIO, RecvFd and SendFd by one another, TmpPath by RPath and CPath, Dns by StdIO, RPath and Inet without losing anything.", "quantifier": "all promise lists, violations that refuse, ids, native calls with all argument values, both build profiles", "why_tests_cant": "all 64-bit argument values and all promise lists", "anchors": ["src/promises.rs:PROMISES"]}
{"id": "C101", "title": "Exactly which system calls can be allowed at all", "statement": "Some promise list allows some call with number n iff n is in one of 39 given intervals (201 numbers); so statx, getdents64, clone3, rseq, sendmsg, setsockopt, waitid and all others never are.", "quantifier": "all promise lists, violations that refuse, ids, native calls with all argument values, both build profiles", "why_tests_cant": "all 64-bit argument values and all promise lists", "anchors": ["src/promises.rs:PROMISES"]}
{"id": "C102", "title": "Promises act independently", "statement": "A filter for a promise list lets a call proceed iff the call is exit or the filter for some single promise of the list lets it proceed; so the filter for two joined lists allows exactly what either list allows.", "quantifier": "all promise lists, violations that refuse, ids, native calls with all argument values, both build profiles", "why_tests_cant": "all sets of promises, lists of any length and order, all 64-bit argument values", "anchors": ["src/seccomp.rs:promises_to_prog", "src/seccomp.rs:filters_to_prog", "src/promises.rs:PROMISES"]}
{"id": "C103", "title": "A refused call returns the chosen error number", "statement": "Under a pledge with violation Errno(e) a refused call returns -e. (Only up to 4095: the kernel caps larger numbers, so with any e above 4095 and below 2^16 the call returns -4095; with e = 0 the caller sees a success, with every other e an error.)", "quantifier": "all promise lists, error numbers below 2^16, ids, refused native calls, both build profiles", "why_tests_cant": "65536 error numbers, all promise lists and all refused calls", "anchors": ["src/seccomp.rs:bpf_footer", "bpfvm/src/seccomp.rs:SeccompReturn"]}
{"id": "C104", "title": "Exactly which programs the assembler can produce", "statement": "An instruction sequence is the output of compile() (in a build with overflow checks) for some token program iff every instruction has one of 49 listed codes, jump offsets are zero except in jumps, and those stay within the program or reach its end; every such sequence can be written in both builds. Of the filters the kernel accepts (with unused fields zero) exactly those without negate, register transfer and comparison with the index register can be written.", "quantifier": "all instruction sequences of any length, all token programs", "why_tests_cant": "infinitely many programs, and showing that none produces a given sequence", "anchors": ["bpfvm/src/asm.rs:compile", "bpfvm/src/asm.rs:to_sock_filter", "bpfvm/src/asm.rs:jmp_calc"]}
{"id": "C105", "title": "Exactly where a compiled jump goes", "statement": "The offset compile() writes for a jump is the number of instructions from behind the jump to the last definition of its label, modulo 256 for conditional and modulo 2^32 for absolute jumps, also when it is negative (a build with overflow checks then panics instead); a branch without label gets offset 0.", "quantifier": "all token programs (of fewer than 2^64 instructions), both build profiles", "why_tests_cant": "all distances forwards and backwards in programs of any length", "anchors": ["bpfvm/src/asm.rs:jmp_calc", "bpfvm/src/asm.rs:to_sock_filter"]}
{"id": "C106", "title": "Every rule of a promise matters", "statement": "For every promise, taking any one rule out of its list in the PROMISES table takes some system call away from a process that pledges that promise alone, and adds none.", "quantifier": "all promises, all entries of the table, all process and thread ids, violations and native calls", "why_tests_cant": "shows for a removed rule that no other rule allows the call, and for the idle rule that no call at all distinguishes the two filters", "anchors": ["src/promises.rs:PROMISES", "src/seccomp.rs:getsockopt_restrict", "src/seccomp.rs:setsockopt_restrict"]}
{"id": "C107", "title": "A passing integration test shows what it asserts", "statement": "A test of tests/lib.rs that pledges and expects an exit code passes iff its child made only calls its promises grant and then ended with that code; one that expects SIGSYS passes iff a call of the function under test was refused.", "quantifier": "all child functions (as trees of system calls), all kernel answers, all promise lists without repetitions, all process and thread ids", "why_tests_cant": "it is about the tests themselves: all children, including those that do not yet exist", "anchors": ["tests/util.rs:fork_expect_code", "tests/util.rs:fork_expect_sig", "src/seccomp.rs:pledge"]}
{"id": "C108", "title": "When two pledges build the same filter", "statement": "Two pledges build the same filter program exactly when their promise lists agree position by position (RecvFd and SendFd counting as one), their violations are the same and, if StdIO is promised, they run in the same process and thread; neither the build profile nor anything else matters.", "quantifier": "all promise lists, violations, process and thread ids, build profiles", "why_tests_cant": "a claim about all pairs of pledges; tests compare none", "anchors": ["src/seccomp.rs:promises_to_prog", "src/promises.rs:PROMISES", "src/seccomp.rs:filter_to_bpf"]}
{"id": "C109", "title": "When a pledge allows all another does", "statement": "One pledge allows every system call another allows exactly when each promise of the other is Default, or is in the list too, or is replaced by others that are (VmInfo by StdIO; RecvFd and SendFd by each other; TmpPath by CPath with RPath or WPath; Dns by StdIO and Inet with RPath or with WPath and CPath) and, if the other promises StdIO, it has Proc or comes from the same process and thread.", "quantifier": "all pairs of promise lists, all violations other than Allow and Log, all process and thread ids", "why_tests_cant": "inclusion between two sets of calls, for all pairs of lists; the missing half needs a distinguishing call for every pair", "anchors": ["src/promises.rs:PROMISES", "src/seccomp.rs:filter_to_bpf"]}
{"id": "C110", "title": "The integration tests pass", "statement": "Every test of tests/lib.rs passes, whatever the ids of its child, the addresses and descriptors in its calls, the upper halves of its int arguments, the kernel's answers and the rest of the test program (for the errno test: provided what comes after it in the child exits with 0).", "quantifier": "all tests of tests/lib.rs, all ids, registers, kernel answers and continuations of the test program", "why_tests_cant": "a run of the tests has one set of ids, addresses and answers", "anchors": ["tests/lib.rs:stdio_personality_errno", "tests/lib.rs:unix_socket_enabled", "tests/util.rs:fork_expect_code", "src/seccomp.rs:pledge"]}
{"id": "C111", "title": "Exactly which words of a call matter", "statement": "For every promise list and every system call, whether the call proceeds depends on exactly the words of its record (lower and upper halves of arguments) listed in a table of 25 entries, each with the promises under which the word starts and stops to matter; the instruction pointer, the upper halves (but the address of sendto) and all other words never matter, alone or together.", "quantifier": "all promise lists, violations, ids below 2^32, system call numbers, argument values and words of the record", "why_tests_cant": "that a word never matters is about all 2^64 values of every argument under all promise lists", "anchors": ["src/seccomp.rs:mmap_noexec", "src/seccomp.rs:open_createonly", "src/seccomp.rs:sendto_addrless", "src/seccomp.rs:kill_self", "src/seccomp.rs:promises_to_prog"]}
{"id": "C112", "title": "Older kernels are at least as strict", "statement": "On a kernel before 4.14, which knows neither KILL_PROCESS nor LOG and drops the topmost bit of the action, a call of a process with any stack of pledges that would be refused by a newer kernel is refused in the same way, except that only the thread is killed instead of the process; a call that a newer kernel lets through is let through, except that a refused call of a Log pledge kills the thread.", "quantifier": "all stacks of pledges with usable payloads, all calls, foreign architectures included", "why_tests_cant": "tests run on one kernel, with one pledge", "anchors": ["bpfvm/src/seccomp.rs:SeccompReturn", "src/seccomp.rs:pledge_override", "src/seccomp.rs:bpf_header"]}
{"id": "C113", "title": "Exact cost of a call under a pledge", "statement": "A pledge filter executes 3 instructions for a call of a foreign architecture, 5 for exit, and for a call that no rule of its promises names exactly 5 plus, for each promise, one for every plain rule and two for every rule that checks arguments; a refused call never costs less than that. A call that the first promises of a list allow executes the same instructions whatever promises follow. Costs add up: if the first promises of a list refuse a call, it costs, less the fixed 5, what it costs under these and under the others; so the order of promises does not matter for what a refused call costs.", "quantifier": "all promise lists, violation actions, ids, call records and scratch memories", "why_tests_cant": "tests observe verdicts, not the number of instructions executed", "anchors": ["src/seccomp.rs:filters_to_prog", "src/seccomp.rs:filter_to_bpf", "src/seccomp.rs:promises_to_prog"]}
{"id": "C114", "title": "A program run by a pledged thread is under the same pledges", "statement": "When execve or execveat succeeds, the calling thread goes on as the only thread of its process, as thread number pid, with exactly the same filters and no_new_privs and with no pledge in progress; the other threads of the process end and no other process changes; a call that fails or gets a made-up answer changes nothing. After a pledge (with a violation that refuses) no descendant of the thread, whatever programs it runs, runs a program unless Exec was promised. A pledge a signal handler abandons in this way never returns and installs nothing. A program run under one pledge with StdIO and Exec, but not Proc, can always signal itself with kill, but with tkill only if the pledge was made by the first thread of the process: the rule names the thread that pledged, and the program has another number.", "quantifier": "all worlds, threads, filters, calls, supervisors, histories", "why_tests_cant": "no test runs a program or pledges in a second thread", "anchors": ["src/seccomp.rs:pledge_override", "src/seccomp.rs:tkill_self", "src/promises.rs:Exec"]}
{"id": "C115", "title": "A pledged process can always end", "statement": "Under any stack of pledges, whatever their promises and violations and whoever supervises, exit proceeds and ends exactly the calling thread; so a process whose threads are all under pledges can end thread by thread, and other processes go on. exit_group (under violations that refuse, unsupervised) proceeds iff every pledge of the caller promises StdIO, and then ends exactly the threads of the process. Threads ended in these ways never do anything again.", "quantifier": "all worlds, filter stacks of pledges, threads, histories, supervisors (for exit)", "why_tests_cant": "all stacks and histories", "anchors": ["src/promises.rs:Default", "src/promises.rs:StdIO", "src/seccomp.rs:pledge_override"]}
{"id": "C116", "title": "Strict mode and pledges exclude each other", "statement": "In seccomp's strict mode exactly read, write, exit and rt_sigreturn (of i386 programs: read, write, exit and sigreturn) proceed; any other call ends the thread, whoever supervises. A thread under a pledge (or any filter) that asks for strict mode with prctl or seccomp changes nothing; one without filters enters it. In strict mode every pledge ends the thread before anything is installed, whatever its promises. Over any history a thread in strict mode makes no other call that proceeds, starts no thread or process, installs nothing, and none of its pledges, running or new, ever returns.", "quantifier": "all threads, worlds, histories, calls, promises, violations, supervisors", "why_tests_cant": "all calls and all histories; a pledge in strict mode kills the test", "anchors": ["src/seccomp.rs:pledge_override", "src/seccomp.rs:KillSelf", "src/seccomp.rs:TkillSelf"]}
{"id": "C117", "title": "What changes a thread", "statement": "In any step of any history, whoever acts: a thread's filters change only because a system call that asks for strict mode or for a filter proceeds, the steps of pledges included. Strict mode goes to the caller, if it has no filters; an accepted filter of a privileged caller goes on top of the caller's filters, and to another thread only if that is of the same process and the call asks for all threads. no_new_privs is only ever set, by a call of the thread that asks for it, or with a filter for all threads from a thread that has it. The process of a thread never changes, its id only when it runs a program, its capability only when it gains or loses it.", "quantifier": "all worlds with distinct threads, all steps, all oracles and supervisors", "why_tests_cant": "all steps of all threads in all states", "anchors": ["src/seccomp.rs:pledge_override"]}
{"id": "C118", "title": "Exactly which filters the kernel accepts", "statement": "The kernel accepts a filter iff it has 1 to 4096 instructions, ends in a return, each instruction has one of 41 codes (loads of aligned words within the call's data, no division by the constant zero, shifts below 32, cells below 16, jumps to an instruction of the filter), and on every way through the filter, returns counted as going on, each scratch cell loaded was stored before. What an accepted filter answers does not depend on what the cells held; it ends at a return or at a division by an index of zero, after no more steps than it has instructions. Of the assembler's operations exactly those listed have codes the kernel loads (stores with mode IMM only, no remainder, no return of the index), and a compiled program that loads no scratch cell is accepted iff its size, its last instruction, its operations and its jumps are as above.", "quantifier": "all instruction sequences, all calls, all contents of the scratch cells; all token programs, both build profiles", "why_tests_cant": "all programs and all ways through them", "anchors": ["bpfvm/src/asm.rs:compile", "src/seccomp.rs:pledge_override"]}
{"id": "C119", "title": "A pledge that is kept is not noticed", "statement": "Filters act on a history only by what they answer: in two worlds that differ in filters only, the same choices with the same answers to all calls, none of the executed ones asking for a filter or strict mode, lead to the same events and to worlds that differ in filters only. So if some threads and all they create make only native calls that a pledge grants, everything happens with the pledge's filter anywhere in their stacks as it happens without it. A call of a program that is refused with an error leaves no trace: without it the world and all other events are the same.", "quantifier": "all worlds, histories, oracles and supervisors; all promise lists, violation actions and ids; all stacks the filter is added to", "why_tests_cant": "compares all histories with and without a pledge", "anchors": ["src/seccomp.rs:pledge_override", "src/seccomp.rs:promises_to_prog"]}
{"id": "C120", "title": "Processes do not influence each other", "statement": "A step of a thread of another process that creates nobody leaves all threads of a process exactly as they are, whatever pledge, filter, death or program it is about. A step of a thread of the process itself has effects on the process, and is observed, the same whatever other processes there are. So in any history in which no other process creates threads or processes, a process fares, and what is observed of it is, as in the history of its own steps alone. If other processes do create, though nobody in this one, the same holds up to the names of the threads: there is a renaming that leaves the names given before as they are, and under which the process fares, and is observed, as alone.", "quantifier": "all worlds with distinct threads, all processes, steps and histories, oracles and supervisors", "why_tests_cant": "all interleavings of all processes", "anchors": ["src/seccomp.rs:pledge_override"]}
{"id": "C121", "title": "The order in which processes take their steps does not matter", "statement": "Steps of threads of two different processes that create nobody can be exchanged: the world after both is the same, and each is observed as it would be first. So two histories without creations in which every process makes the same steps in the same order end in the same world, and what is observed of each process is the same.", "quantifier": "all worlds with distinct threads, all steps, histories and interleavings, oracles and supervisors", "why_tests_cant": "the number of interleavings is exponential", "anchors": ["src/seccomp.rs:pledge_override"]}
{"id": "C122", "title": "Steps of different threads commute", "statement": "Steps of two different threads, also of one process, that change, end and create no thread but their own can be exchanged, unless one is a seccomp(2) call with TSYNC: the world after both is the same, and each is observed as it would be first. A step without TSYNC keeps to its own thread unless it is seen to create somebody, to be killed with its process, or to run a program or end the process.", "quantifier": "all worlds with distinct threads, all pairs of steps, oracles and supervisors", "why_tests_cant": "all interleavings of all steps", "anchors": ["src/seccomp.rs:pledge_override"]}
{"id": "C123", "title": "A process all of whose threads have pledged is confined", "statement": "If at some time every thread of a process has completed a pledge, or was created by a thread that had, and none of these pledges (which may differ) grants a call, then no thread that the process has at any later time makes that call, whatever its threads and other processes do and whatever threads it creates, as long as the kernel does not reuse its process id. (So C41 holds if every thread pledges.)", "quantifier": "all histories of any number of threads, promise lists, violation actions that bind, calls", "why_tests_cant": "all histories and interleavings", "anchors": ["src/seccomp.rs:pledge_override"]}
{"id": "C124", "title": "When two programs compile to the same code", "statement": "Two token programs that compile() accepts give the same code exactly when, labels left out, they have equally many tokens and these correspond one by one: statements are equal, where an ALU operation with the accumulator as source counts as the one with the constant that C05 shows to be written in its place; jumps have the same operation and operand, and their labels are equally far ahead, modulo 2^8 (a branch without label counting as distance 0); jumps to a label have labels equally far ahead, modulo 2^32; and a jump JA with branches of distance 0 corresponds to a jump to a label whose distance is its operand.", "quantifier": "all pairs of token programs shorter than 2^64, both build profiles", "why_tests_cant": "all pairs of programs", "anchors": ["bpfvm/src/asm.rs:compile", "bpfvm/src/bpf.rs:bpf_alu"]}
{"id": "C125", "title": "Pledges and the kernel's action cache", "statement": "Since Linux 5.11 the kernel runs a new filter once for every system call number with unknown arguments, and later answers the numbers that are always allowed without running the filters. For well-formed records this changes no decision, whatever the filters. Under a filter built by pledge (with a violation other than Allow), a number is answered from the cache exactly when it is under the older filters, the architecture is x86-64, and the first of the promises, in the order given and after Default, that has a rule for the number grants it with any arguments. (So the order of promises, which by C18 does not matter for what is granted, does matter for what is cached.) What is so decided is granted. So thirteen calls (open, mmap, ioctl, ...) are never answered from the cache of one pledge, five (mprotect, sendto, kill, tkill, prlimit64) depending on the order of promises, and all others exactly when they are allowed. If no promise but StdIO follows StdIO in the list, the numbers answered from the cache are exactly those that some promise of the list grants with any arguments, which no order can better.", "quantifier": "all filter stacks, records, promise lists, violation actions other than Allow, thread ids, cache sizes", "why_tests_cant": "all stacks, numbers and promise lists; the cache is not observable by tests", "anchors": ["src/seccomp.rs:promises_to_prog"]}
{"id": "C126", "title": "Exactly which network calls are allowed", "statement": "Under a pledge, socket is allowed exactly with Inet or Dns for the families AF_INET and AF_INET6, the types stream and datagram (optionally nonblocking and close-on-exec) and the protocols 0, ICMP, TCP and UDP, and with Unix for AF_UNIX, the same types and protocol 0; getsockopt exactly with Inet or Unix for the levels 0, 1, 6 and thirteen options; sendto with StdIO if no address is given, else with Inet, Unix or Dns; connect and bind with Inet, Unix or Dns; accept, accept4, listen, getsockname and getpeername with Inet or Unix; shutdown and socketpair with StdIO; recvfrom with StdIO or Dns; recvmsg and recvmmsg with SendFd or RecvFd; setsockopt, sendmsg and sendmmsg never.", "quantifier": "all promise lists, violation actions that refuse, ids, arguments", "why_tests_cant": "2^96 combinations of arguments, all promise lists", "anchors": ["src/seccomp.rs:socket_inet", "src/seccomp.rs:socket_unix", "src/seccomp.rs:getsockopt_restrict", "src/seccomp.rs:setsockopt_restrict", "src/seccomp.rs:sendto_addrless", "src/promises.rs:PROMISES"]}
{"id": "C127", "title": "Exactly which task and limit calls are allowed", "statement": "Under a pledge, clone is allowed exactly without the flags CLONE_PTRACE, CLONE_NEWNS and CLONE_UNTRACED and with Proc, or with StdIO and the five flags of a thread; fork and vfork with Proc; execve and execveat with Exec; prlimit64 with StdIO if the lower half of the pointer to the new limit is 0, else with Proc or Id; setrlimit with Proc or Id; getrlimit with StdIO; clone3, unshare and setns never.", "quantifier": "all promise lists, violation actions that refuse, ids, arguments", "why_tests_cant": "2^64 flag words, all promise lists", "anchors": ["src/seccomp.rs:clone_thread", "src/seccomp.rs:clone_restrict", "src/seccomp.rs:prlimit64_stdio", "src/promises.rs:PROMISES"]}
{"id": "C128", "title": "The shortest list of promises that allows the same calls", "statement": "Dropping from a promise list every repetition, Default, one of RecvFd and SendFd, VmInfo if there is StdIO, TmpPath if there is CPath with RPath or WPath, and Dns if there are StdIO and Inet with RPath or with WPath and CPath, leaves a list whose filter decides every call like that of the whole list (alone or among other filters), and no list whose filter allows the same calls has a shorter filter; those of the same length are rearrangements of it (RecvFd and SendFd counting as one). None costs less of the kernel's limit on all filters of a thread either, and a first pledge of the short list succeeds, memory permitting.", "quantifier": "all promise lists, violation actions, ids, system calls", "why_tests_cant": "no test compares one filter with the filters of all other lists", "anchors": ["src/promises.rs:PROMISES", "src/seccomp.rs:promises_to_prog"]}
{"id": "C129", "title": "Who allows the calls decided by their number", "statement": "Under a pledge, each call of a list of 182 grouped by promises (for example rename and mkdir: CPath; unlink: CPath or TmpPath; chown: Chown; setuid: Id; settimeofday: SetTime; readlink: RPath, but readlinkat: RPath or WPath) proceeds, whatever its arguments, exactly if one of the promises of its group is made; exit always does; and but for these only open, openat, creat, chmod, fchmod, fchmodat, mmap, mprotect, ioctl, fcntl, prctl, kill, tkill, clone, prlimit64, socket, sendto and getsockopt can proceed at all.", "quantifier": "all promise lists, violation actions that refuse, ids, system calls", "why_tests_cant": "2^23 promise sets for every system call and all arguments", "anchors": ["src/promises.rs:PROMISES", "src/seccomp.rs:promises_to_prog"]}
{"id": "C130", "title": "Exactly when two pledges leave more than exit", "statement": "Under two pledges some call other than exit is allowed exactly if a promise of the one and a promise of the other are the same (and not Default) or one of 24 pairs with a call in common; so after pledging StdIO alone, a pledge without StdIO, RPath, WPath, Inet, Unix, Dns, Proc, Id, ProtExec and VmInfo leaves nothing but exit.", "quantifier": "all pairs of promise lists, violation actions that refuse, ids", "why_tests_cant": "that no call at all is left is a statement about all calls and all arguments", "anchors": ["src/promises.rs:PROMISES", "src/seccomp.rs:promises_to_prog", "src/seccomp.rs:pledge"]}
