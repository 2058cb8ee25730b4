import sys,json; sys.path.insert(0,'/verif/tools')
import gen
NOTES={
'C72':'False for Trace: C72_tracer_lifts_trace_refuted. The other theorem covers KillProcess, KillThread, Trap and Errno.',
'C04':'False of the code: C04_far_jump_refuted (8-bit truncation) and C04_backward_jump_refuted (wrap-around in Release) are witnesses. C04_jump_lands_partial says exactly when each jump lands. The exact offsets are C105.',
'C05':'False of the code for ALU with the accumulator source and for Jump(JA, ..): witnesses C05_*_refuted. C05_*_partial covers every other token in every VM state, and C05_what_* say exactly what these two kinds do instead.',
'C11':'False of the code: register comparisons, witness C11_register_comparison_refuted. Proved instead: agreement on every accepted filter without them (errors exactly for instructions the VM lacks), and for every accepted filter agreement with the filter whose register comparisons are read as comparisons with the constant.',
'C13':'The claim for payloads above 0xffff is false: witness C13_large_payload_refuted; C13_round_trips_exactly_small_payloads characterises when it holds.',
'C27':'The open(2) part is false of the code: C27_open_refuted. The partial theorem covers everything else. The exact conditions are C93 and C94.',
'C28':'The open(2) part is false of the code: C28_open_refuted. The partial theorem covers openat. The exact conditions are C93 and C94.',
'C29':'False for fchmodat and open: two refuted theorems. The partial theorem covers chmod, fchmod, creat, openat. The exact conditions are C93 and C94.',
'C31':'The pointer part is false (only the low half is checked): C31_prlimit_pointer_refuted. The partial theorem gives the exact condition.',
'C32':'False of the code: C32_setsockopt_refuted. The partial theorem gives exactly what is allowed.',
'C33':'False of the code: C33_sendfd_refuted. The partial theorem gives exactly what is allowed.',
'C34':'False of the code for PROT_READ|PROT_WRITE: C34_read_write_refuted. The partial theorem covers the other protections. The exact condition is C95.',
'C39':'False in general: C39_success_without_filter_refuted, C39_errno_0_always_misleads, C39_signal_handler_misleads (Trap with a resuming SIGSYS handler). The partial theorems prove it without Errno(0), with payloads below 2^16 and without tracer, listener or SIGSYS handler: for one thread that has only pledged, and for arbitrary histories in which also no foreign filter answers error number 0.',
 'C98':'Clone with CLONE_NEWUSER, NEWPID, NEWNET, NEWIPC, NEWUTS or NEWCGROUP proceeds under every list with Proc, witness C98_new_namespaces_refuted. The partial theorem: unshare, setns, clone3 and CLONE_NEWNS are never possible, and without Proc only threads (which the kernel keeps out of new user and pid namespaces) can be made.',
 'C99':'False: migrate_pages, and reading with several calls, work on any process with StdIO; witness C99_migrate_pages_refuted. The partial theorem is the exact condition for 35 system calls that name a process.',
 'C107':'False for fork_expect_sig: the child returns into the test program after the function under test, so a later refused call makes the test pass; witness C107_later_calls_pass_signal_tests_refuted (stdio_personality_killed is such a test). The other theorems: what passing means exactly, and that a function that never returns is tested properly. Children are single-threaded and end; processes are modelled by their system calls.',
 'C106':'False: getsockopt_restrict changes nothing in Inet and Unix, because setsockopt_restrict tests for getsockopt too and allows more; witness C106_getsockopt_rule_is_idle_refuted. The partial theorem: it is the only rule whose removal changes nothing.',
 'C103':'False for error numbers above 4095, which the kernel caps (in this model of it); witness C103_large_error_number_refuted. The partial theorem says which number is returned for every e below 2^16; for payloads from 2^16 see C44.',
 'C88':'False of the code: no_new_privs is set before the filter is handed to the kernel and cannot be unset, so a pledge that the kernel refuses has still changed the thread. Proved: the flag is all that a failed pledge can leave behind, and on a thread without filters it always does.',
'C41':'False of the code: the witness shows a sibling thread executing an ungranted call after pledge returned Ok. Proved for a process whose only thread is the pledging one: every task that belongs to the process at any later time is confined, as long as the kernel does not reuse the process id.',
'C48':'False of the code: any_to_data builds a slice of as many u32 words as the object has bytes; the two refuted theorems are witnesses. The partial theorem (all filters the kernel accepts) and C48_generated_filters_stay_inside show which programs are unaffected.',
'C49':'The arithmetic is characterised completely by C49_offset_arithmetic; distinctness for nonexistent arguments is false in Release (C49_distinct_fields_refuted).',
'C57':'False of the code for every list without StdIO: exit_group, which ends every libc process, is refused (only the single-thread exit is always granted). The partial theorem gives the exact condition.',
'C58':'False of the code for every promise list: readdir uses getdents64, and only the obsolete getdents is granted (exactly with RPath: the partial theorem).',
'C59':'False: CPath alone opens existing files for writing and truncation (C59_cpath_opens_for_writing_refuted). The partial theorem gives the exact condition.',
'C60':'False: Dns opens and reads any file (C60_dns_reads_files_refuted). The partial theorem gives the exact condition.',
'C61':'False for every thread other than the one that pledged (the filter holds the pledging thread id); the partial theorem covers that one. The exact condition is C96.',
'C62':'False of the code for every promise list: clock_settime, which implements clock_settime(3) and settimeofday(3) in glibc, is never granted. The partial theorem: the old settimeofday call and clock_adjtime are allowed exactly with SetTime.',
'C63':'False: mknod of a regular file takes any mode under DPath. The partial theorem: without DPath mknod is refused.',
'C64':'False of the code: TmpPath grants lstat, unlink and unlinkat only (the partial theorem: exactly these are added to any list).',
'C68':'One inclusion holds (partial theorem); the other is false, witness C68_intersection_refuted. The exact truth is C97.',
'C78':'False for seven rules: mmap_noexec refuses PROT_READ|PROT_WRITE, prlimit64 tests half of the pointer, open_readonly/writeonly/createonly and fchmodat_nobits test the wrong argument, setsockopt_restrict tests getsockopt. The partial theorem is the equivalence of rule and comment for all other rules; C78_mmap_*, C78_prlimit_* and C78_what_the_other_rules_test say exactly what the seven do.',
'C44':'Proved for payloads below 2^16; the unrestricted claim is false: C44_large_payload_refuted.',
}
props=[json.loads(l) for l in open('/verif/properties.jsonl')]
cl={}
for fn,(t,m,items) in gen.files.items():
    for pid,name,lem,ex in items: cl.setdefault(pid,[]).append(name)
out=[]
for p in props:
    ths=cl.get(p['id'],[])
    ref=any('refuted' in x or x.endswith('_partial') for x in ths)
    out.append({"property":p['id'],"status":"partial" if ref else "proved","theorems":ths,"note":NOTES.get(p['id'],"")})
    if ref and p['id'] not in NOTES: print('note?',p['id'])
    if not ths: print("none",p['id'])
json.dump({"claims":out},open('/verif/MANIFEST.json','w'),indent=1)
