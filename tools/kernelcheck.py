#!/usr/bin/env python3
"""Compare rocq/theories/Kernel.v with the running Linux kernel (x86_64, seccomp available).

  kernelcheck.py codes          every instruction code with many operands: accepted or not
  kernelcheck.py random SEED N  N random stacks of filters: accepted, and the fate of one call
  kernelcheck.py filters        filters of the model for many promise lists: accepted, how many
                                copies fit, and the verdict on about a thousand calls each
  kernelcheck.py calls          prctl and seccomp with odd arguments, order of their checks,
                                inheritance, synchronisation of threads (as root): the answers
                                that [kernel_prctl], [spawn] and [sync_threads] of World.v give
  kernelcheck.py cache SEED N   N random stacks: whether a call is answered from the action cache
                                (KernelCache.v), told by how long it takes

Needs a built rocq/ directory and coqc; nothing of the library under study is built or run, the
filters are printed by Coq. Works in a temporary directory. The calls 335 and 336 (uretprobe, uprobe) are left
out: recent kernels let them pass without filtering.
"""
import ctypes, json, mmap, os, random, re, struct, subprocess, sys, tempfile, threading, time

THEORIES = os.path.join(os.path.dirname(os.path.abspath(__file__)), '..', 'rocq', 'theories')
TMP = tempfile.mkdtemp()
libc = ctypes.CDLL(None, use_errno=True)
libc.syscall.restype = ctypes.c_long

HEAD = '''From Coq Require Import NArith ZArith List.
From Verif Require Import Libc Machine Bpf Vm SeccompRet Promises Kernel KernelCache Demo.
Import ListNotations. Open Scope N_scope.
Set Printing Width 1000000. Set Printing Depth 10000000.
Definition ok (p : list sock_filter) := if check_insns p then kernel_accepts p else false.
'''


def coq(text):
    """Results of the Evals in text, as Python values (numbers, lists, tuples, names)."""
    path = os.path.join(TMP, 'T.v')
    open(path, 'w').write(HEAD + text)
    out = subprocess.run(['coqc', '-Q', THEORIES, 'Verif', path], check=True, capture_output=True, text=True).stdout
    out = re.sub(r'%\w+', '', out)
    env = {'true': True, 'false': False}
    return [eval(m.replace(';', ','), env) for m in re.findall(r'^ +(?:= )(.*)$', out, re.M)]


def install(insns):
    """0 or the error number of prctl(PR_SET_SECCOMP, SECCOMP_MODE_FILTER, insns)."""
    buf = b''.join(struct.pack('HBBI', *i) for i in insns)
    b = ctypes.create_string_buffer(buf, len(buf))
    f = ctypes.create_string_buffer(struct.pack('HxxxxxxQ', len(insns), ctypes.addressof(b)), 16)
    r = libc.prctl(22, 2, ctypes.c_void_p(ctypes.addressof(f)), 0, 0)
    return 0 if r == 0 else ctypes.get_errno()


def no_new_privs():
    libc.prctl(38, 1, 0, 0, 0)


def installs(progs):
    """Install them in a child one after the other; error numbers."""
    r, w = os.pipe()
    pid = os.fork()
    if pid == 0:
        no_new_privs()
        os.write(w, bytes(install(p) & 255 for p in progs))
        os._exit(0)
    os.close(w)
    out = b''
    while True:
        x = os.read(r, 65536)
        if not x:
            break
        out += x
    os.close(r)
    os.waitpid(pid, 0)
    assert len(out) == len(progs)
    return list(out)


def show(p):
    return '[' + '; '.join('SockFilter %d %d %d %d' % i for i in p) + ']'


ALLOW = 0x7fff0000
RET = (6, 0, 0, ALLOW)


def codes():
    ks = [0, 1, 2, 4, 15, 16, 31, 32, 60, 61, 62, 63, 64, 68, 0x7fffffff, 0x80000000, 0xfffff000, 0xffffffff]
    js = [(0, 0), (1, 1), (2, 0), (0, 2), (255, 0)]
    todo = [(c, jt, jf, k) for k in ks for jt, jf in js for c in range(65536)]
    real = set()
    for i in range(0, len(todo), 20000):
        part = todo[i:i + 20000]
        real |= {x for x, e in zip(part, installs([[RET, x, RET, RET] for x in part])) if e == 0}
    model = coq('''
Fixpoint upto (n : nat) (k : N) : list N := match n with O => [] | S m => k :: upto m (k+1) end.
Definition A := SockFilter 6 0 0 %d.
Definition codes := upto (N.to_nat 65536) 0.
Eval vm_compute in flat_map (fun k => flat_map (fun j => flat_map (fun c =>
  if ok [A; SockFilter c (fst j) (snd j) k; A; A] then [(c, fst j, snd j, k)] else []) codes) [%s]) [%s].
''' % (ALLOW, '; '.join('(%d,%d)' % j for j in js), '; '.join(map(str, ks))))[0]
    print('tried', len(todo), 'accepted', len(real), 'differences', len(real ^ set(model)))


ACTIONS = [0x7fff0000, 0x7ffc0000, 0x7ff00000, 0x7fc00000, 0x50000, 0x30000, 0, 0x80000000, 0x50001, 0x50fff,
           0x51000, 0x5ffff, 0x7fff0007, 0x10000, 0x7fffffff, 0xffff0000, 0x80010000, 0x7fc00001]


def word(R):
    c = R.random()
    if c < .3:
        return R.choice([0, 1, 2, 3, 4, 31, 32, 33, 255, 0xffff, 0x7fffffff, 0x80000000, 0xffffffff, 0xfffffffe])
    return R.randrange(64) if c < .5 else R.getrandbits(32)


def program(R):
    """A filter that allows everything except getppid (110), for which it does something random."""
    clean = R.random() < .95
    n = R.randrange(1, 14)
    if R.random() < .7:
        tail = [(0x54, 0, 0, 0xfff), (0x44, 0, 0, 0x50000), (0x16, 0, 0, 0)]
    elif R.random() < .8:
        tail = [(6, 0, 0, R.choice(ACTIONS))]
    else:
        tail = [(0x16, 0, 0, 0)]
    if R.random() < .5:
        tail = [(0x74, 0, 0, R.choice([0, 4, 12, 20]))] + tail
    body, stored = [], []
    for i in range(n):
        left = n - i - 1 + len(tail)

        def j():
            return R.randrange(min(left, 4)) if clean or R.random() < .97 else left + R.randrange(3)
        c = R.random()
        if c < .15:
            ins = (0x20, 0, 0, R.choice([0, 4] + [16 + 4 * t for t in range(12)]))
        elif c < .2:
            ins = (R.choice([0x80, 0x81]), 0, 0, word(R))
        elif c < .3:
            ins = (R.choice([0, 1]), 0, 0, word(R))
        elif c < .38:
            stored.append(R.choice([0, 1, 15, 7]))
            ins = (R.choice([2, 3]), 0, 0, stored[-1])
        elif c < .46:
            ins = (R.choice([0x60, 0x61]), 0, 0,
                   R.choice(stored) if stored and R.random() < .9 else R.choice([0, 1, 15, 7]))
        elif c < .72:
            op, x, k = R.choice([0, 0x10, 0x20, 0x30, 0x40, 0x50, 0x60, 0x70, 0xa0]), R.choice([0, 8]), word(R)
            if not x and op in (0x60, 0x70):
                k %= 32
            if not x and op == 0x30 and k == 0:
                k = 3
            ins = (4 | op | x, 0, 0, k)
        elif c < .75:
            ins = (0x84, 0, 0, word(R))
        elif c < .8:
            ins = (5, R.randrange(3), R.randrange(3), j())
        elif c < .93:
            ins = (5 | R.choice([0x10, 0x20, 0x30, 0x40]) | R.choice([0, 8]), j(), j(), word(R))
        elif c < .98:
            ins = (R.choice([7, 0x87]), 0, 0, 0)
        elif c < .99:
            ins = (6, 0, 0, R.choice(ACTIONS))
        else:
            ins = (0x16, 0, 0, 0)
        body.append(ins)
    return [(0x20, 0, 0, 0), (0x15, 1, 0, 110), RET] + body + tail


PROCEED, THREAD, PROCESS = 100000, 100001, 100002


def fate(progs, args):
    """What becomes of getppid(args) made by a second thread that has installed the filters."""
    r, w = os.pipe()
    pid = os.fork()
    if pid == 0:
        out = {}

        def body():
            no_new_privs()
            for p in progs:
                install(p)
            v = libc.syscall(110, *[ctypes.c_ulong(a) for a in args])
            out['v'] = v if v != -1 else -ctypes.get_errno()
        t = threading.Thread(target=body, daemon=True)
        t.start()
        for _ in range(400):
            if 'v' in out or not os.path.exists('/proc/self/task/%d' % t.native_id):
                break
            time.sleep(.001)
        v = out.get('v')
        os.write(w, json.dumps(THREAD if v is None else PROCEED if v == os.getppid() else v).encode())
        os._exit(0)
    os.close(w)
    o = os.read(r, 100)
    os.close(r)
    status = os.waitpid(pid, 0)[1]
    if o:
        return json.loads(o)
    assert os.WTERMSIG(status) == 31
    return PROCESS


def rand(seed, n):
    R = random.Random(seed)
    cases = []
    for _ in range(n):
        ps = [program(R) for _ in range(R.choice([1, 1, 1, 2, 3]))]
        args = [(word(R) << 32 | word(R)) if R.random() < .7 else word(R) for _ in range(6)]
        cases.append((ps, args, [e == 0 for e in installs(ps)], fate(ps, args)))
    model = coq('''
Definition code (e : entry) : Z := match e with Proceed => %d | Fake r => r | Kill DeathThread => %d | Kill _ => %d end.
Definition run (ps : list (list sock_filter)) (a b c d e f : N) :=
  (map ok ps, code (syscall_entry (rev (filter ok ps)) (mkSD 110 0xc000003e 0 a b c d e f))).
''' % (PROCEED, THREAD, PROCESS) + ''.join('Eval vm_compute in run [%s] %s.\n' % ('; '.join(map(show, ps)), ' '.join(map(str, args)))
                                           for ps, args, _, _ in cases))
    bad = [c for c, m in zip(cases, model) if (c[2], c[3]) != m]
    print('tried', len(cases), 'differences', len(bad) + abs(len(cases) - len(model)))
    for c in bad:
        print(c)


SETS = '''
Definition all := [StdIO; RPath; WPath; CPath; DPath; FLock; FAttr; Inet; Unix; Dns; Tty; RecvFd; SendFd;
  Proc; Id; Chown; SetTime; ProtExec; Exec; VmInfo; TmpPath; Unveil; Default].
Definition sets := map (fun p => [p]) all ++ map (fun p => [StdIO; p]) all ++
  [all; []; [StdIO; Dns; Exec]; [RPath; WPath; CPath]; repeat StdIO 14 ++ repeat VmInfo 14;
   repeat StdIO 14 ++ repeat VmInfo 15; [Proc; ProtExec; Unix]].
Definition filters := map (fun ps => built ps (Errno 7)) sets.
'''


def child(shared, last, work):
    """Run work in a child until it sets shared[last]; then kill it (its filters may forbid exit)."""
    shared[last] = 0
    pid = os.fork()
    if pid == 0:
        work()
        shared[last] = 1
        while True:
            pass
    t = time.time()
    while not shared[last] and time.time() - t < 30:
        time.sleep(.01)
    assert shared[last]
    os.kill(pid, 9)
    os.waitpid(pid, 0)


def filters():
    R = random.Random(1)
    progs = coq(SETS + 'Eval vm_compute in map (map (fun f => (sf_code f, sf_jt f, sf_jf f, sf_k f))) filters.\n')[0]
    consts = sorted({i[3] for p in progs for i in p if i[0] & 7 == 5})
    # The first filter refuses the test calls, which carry a mark in the sixth argument, with 4000,
    # so that none is executed; a refusal by the filter under test (7) is newer and wins.
    guard = [(0x20, 0, 0, 16 + 40), (0x15, 0, 1, 0xdeadbeef), (6, 0, 0, 0x50000 | 4000), RET]

    def arg():
        c = R.random()
        if c < .6:
            return R.choice(consts) | (R.choice(consts) if c < .1 else 0)
        if c < .8:
            return R.choice(consts) << 32 | R.choice(consts) if c < .7 else R.getrandbits(64)
        return R.choice([0, 1, 100, 101, 2, 3])
    text, real = SETS + '''
Fixpoint fits (n : nat) (cost c used : N) : N :=
  match n with O => c | S n => if 32768 <? cost + used then c else fits n cost (c+1) (used+cost+4) end.
Definition go (p : list sock_filter) (cs : list (N*N*N*N*N*N)) :=
  (ok p, fits 3000 (prog_cost p) 0 0,
   map (fun c => match c with (nr,a,b,c,d,e) =>
     match kernel_eval p (mkSD nr 0xc000003e 0 a b c d e 0xdeadbeef) with 0x50007 => 7 | 0x7fff0000 => 4000 | _ => 1 end end) cs).
''', []
    for n, p in enumerate(progs):
        nrs = [x for x in range(470) if x not in (335, 336)]
        own = sorted({i[3] for i in p if i[0] == 0x15 and i[3] < 500}) or [0]
        calls = [(nr, [arg() for _ in range(5)]) for nr in nrs + [R.choice(own) for _ in range(600)]]
        last = len(calls) + 1
        v = (ctypes.c_int * (last + 1)).from_buffer(mmap.mmap(-1, 4 * (last + 1)))
        regs = [[ctypes.c_ulong(x) for x in [nr] + a + [0xdeadbeef]] for nr, a in calls]

        def judge():
            no_new_privs()
            install(guard)
            v[0] = install(p)
            for i, c in enumerate(regs):
                v[i + 1] = ctypes.get_errno() if libc.syscall(*c) == -1 else 9999

        def count():
            no_new_privs()
            v[0] = 0
            while install(p) == 0:
                v[0] += 1
        child(v, last, judge)
        verdicts, accepted = list(v[1:last]), v[0] == 0
        child(v, last, count)
        real.append((accepted, v[0], verdicts))
        text += 'Eval vm_compute in go (nth %d filters []) [%s].\n' % (
            n, '; '.join('(%d,%s)' % (nr, ','.join(map(str, a))) for nr, a in calls))
    bad = 0
    for n, (r, m) in enumerate(zip(real, coq(text))):
        # without prctl (StdIO) the second copy is refused by the first
        copies = r[1] == m[1] if r[1] > 1 else True
        diff = (r[0] != m[0]) or (r[0] and (not copies or r[2] != m[2]))
        bad += diff
        print(n, 'accepted' if r[0] else 'refused', r[1], m[1], 'DIFFERENT' if diff else 'same')
    print('tried', len(real), 'differences', bad)


KEEP = []


def fprog(insns):
    buf = b''.join(struct.pack('HBBI', *i) for i in insns)
    b = ctypes.create_string_buffer(buf, len(buf) + 1)
    f = ctypes.create_string_buffer(struct.pack('HxxxxxxQ', len(insns), ctypes.addressof(b)), 16)
    KEEP.extend([b, f])
    return ctypes.addressof(f)


def call(nr, *args):
    r = libc.syscall(ctypes.c_ulong(nr), *[ctypes.c_ulong(a) for a in args])
    return r if r != -1 else -ctypes.get_errno()


def expect(what, *pairs):
    bad = [i for i, (got, want) in enumerate(pairs) if got != want]
    print(what, 'same' if not bad else 'DIFFERENT %s' % bad, flush=True)


def in_child(work):
    pid = os.fork()
    if pid == 0:
        work()
        os._exit(0)
    os.waitpid(pid, 0)


def calls():
    PRCTL, SECCOMP, GETPPID, H = 157, 317, 110, 1 << 32

    def nnp():
        return call(PRCTL, 39, 0, 0, 0, 0)

    def set_nnp():
        return call(PRCTL, 38, 1, 0, 0, 0)

    def load(insns):
        return call(PRCTL, 22, 2, fprog(insns))

    def unprivileged():
        os.setgid(65534)
        os.setuid(65534)
        expect('order of the checks', (load([RET]), -13), (load([]), -22), (load([(0xff, 0, 0, 0)]), -13),
               (load([RET] * 4097), -22), (load([RET] * 4096), -13))
        expect('arguments of PR_SET_NO_NEW_PRIVS', (call(PRCTL, 38, 1 | H, 0, 0, 0), -22), (call(PRCTL, 38, 2, 0, 0, 0), -22),
               (call(PRCTL, 38, 1, 0, 0, 1), -22), (call(PRCTL, 38, 1, 1, 0, 0), -22), (nnp(), 0),
               (call(PRCTL, 38 | H, 1, 0, 0, 0), 0), (nnp(), 1))
        expect('arguments of PR_SET_SECCOMP', (call(PRCTL, 22, 2 | H, fprog([RET])), -22),
               (call(PRCTL, 22 | H, 2, fprog([RET]), 5, 6, 7), 0))
        expect('arguments of seccomp', (call(SECCOMP, 1 | H, 0, fprog([RET])), 0), (call(SECCOMP, 1, H, fprog([RET])), 0),
               (call(SECCOMP, 1, 0, fprog([RET] * 4097)), -22))

    def root():
        expect('root needs no no_new_privs', (load([RET]), 0), (nnp(), 0))

    def sync(first, privs):
        """TSYNC with another thread that has done first; what that thread sees after each of two."""
        go, done, seen = threading.Semaphore(0), threading.Semaphore(0), []

        def other():
            first()
            for _ in range(2):
                done.release()
                go.acquire()
                seen.append((call(GETPPID) == -7, nnp()))
            done.release()
        t = threading.Thread(target=other, daemon=True)
        t.start()
        done.acquire()
        refuse = [(0x20, 0, 0, 0), (0x15, 0, 1, GETPPID), (6, 0, 0, 0x50007), RET]
        results = []
        for p in privs:
            if p:
                set_nnp()
            results.append(call(SECCOMP, 1, 1, fprog(refuse)))
            go.release()
            done.acquire()
        return [r == t.native_id or r for r in results], seen

    def syncs():
        r, seen = sync(lambda: None, [False, True])
        expect('TSYNC', (r, [0, 0]), (seen, [(True, 0), (True, 1)]))
        pid = os.fork()
        if pid == 0:
            expect('inheritance', (call(GETPPID), -7), (nnp(), 1))
            os._exit(0)
        os.waitpid(pid, 0)

    def blocked():
        r, seen = sync(lambda: (set_nnp(), load([RET])), [False, True])
        expect('TSYNC against a diverged thread', (r, [True, True]), (seen, [(False, 1), (False, 1)]))
    for f in (unprivileged, root, syncs, blocked):
        in_child(f)


def cache(seed, n):
    """Filters begin with many instructions that do nothing, so running them takes long."""
    rng = random.Random(seed)
    NR, ALLOW, PAD = 39, 0x7fff0000, [(0x20, 0, 0, 0)] * 3500

    def one():
        body = []
        size = rng.randrange(2, 14)
        for i in range(size):
            left = size - i
            k = rng.choice([0, 1, NR, NR - 1, NR + 1, 0xc000003e, 0xffffffff, 0x20, 0x4000003e])
            code = rng.choice([0x20, 0x20, 0x20, 0x05, 0x15, 0x15, 0x35, 0x25, 0x45, 0x54, 0x54, 0x06])
            if rng.random() < 0.1:
                code = rng.choice([0x80, 0x00, 0x01, 0x02, 0x07, 0x87, 0x04, 0x44, 0x64, 0x84, 0x1d, 0x16])
            jt = jf = 0
            if code == 0x20:
                k = rng.choice([0, 4, 0, 4, 0, 4, 8, 16, 20])
            elif code == 0x05:
                k = rng.randrange(left)
            elif code & 7 == 5:
                jt, jf = rng.randrange(left), rng.randrange(left)
            elif code == 0x06:
                k = rng.choice([ALLOW, ALLOW, ALLOW, 0x7ffc0000, 0x50001, ALLOW + 1])
            elif code == 0x02:
                k = 0
            elif code == 0x64:
                k = 1
            body.append((code, jt, jf, k))
        return PAD + body + [(0x06, 0, 0, rng.choice([ALLOW, ALLOW, 0x50002]))]

    def took(stack):
        """Nanoseconds of the call, or None if not all were accepted."""
        r, w = os.pipe()
        pid = os.fork()
        if pid == 0:
            no_new_privs()
            if any(install(p) for p in stack):
                os._exit(0)
            best = 10 ** 9
            for _ in range(40):
                t = time.perf_counter_ns()
                for _ in range(50):
                    libc.syscall(NR)
                best = min(best, (time.perf_counter_ns() - t) // 50)
            os.write(w, struct.pack('Q', best))
            os._exit(0)
        os.close(w)
        out = os.read(r, 8)
        os.close(r)
        os.waitpid(pid, 0)
        return struct.unpack('Q', out)[0] if out else None
    def quick(stack):
        """Closer to the time of a cached call than to that of another one, measured next to it."""
        t = took(stack)
        fast = took([PAD + [(0x06, 0, 0, ALLOW)]])
        slow = took([PAD + [(0x20, 0, 0, 16), (0x06, 0, 0, ALLOW)]])
        return None if t is None else 2 * t < fast + slow
    stacks = [[one() for _ in range(rng.choice([1, 1, 2, 3]))] for _ in range(n)]
    answers = [quick(s) for s in stacks]
    stacks, answers = zip(*[(s, a) for s, a in zip(stacks, answers) if a is not None])
    text = 'Definition pad := repeat (SockFilter 0x20 0 0 0) (N.to_nat %d).\n' % len(PAD)
    text += 'Eval vm_compute in map (fun s => cache_bit (map (app pad) s) %d 0xc000003e) [%s].\n' % (NR, '; '.join(
        '[' + '; '.join('[' + '; '.join('SockFilter %d %d %d %d' % i for i in p[len(PAD):]) + ']' for p in reversed(s)) + ']'
        for s in stacks))
    model, = coq(text)
    bad = [(s, m) for s, a, m in zip(stacks, answers, model) if a != m]
    print(len(bad), 'to be measured again')
    bad = [(s, m) for s, m in bad if [quick(s) for _ in range(5)].count(m) < 3]
    for s, m in bad:
        print('DIFFERENT', m, [p[len(PAD):] for p in s])
    print(len(stacks), 'stacks accepted,', sum(model), 'cached,', len(bad), 'different')


if __name__ == '__main__':
    if sys.argv[1:2] == ['codes']:
        codes()
    elif sys.argv[1:2] == ['random']:
        rand(int(sys.argv[2]), int(sys.argv[3]))
    elif sys.argv[1:2] == ['filters']:
        filters()
    elif sys.argv[1:2] == ['calls']:
        calls()
    elif sys.argv[1:2] == ['cache']:
        cache(int(sys.argv[2]), int(sys.argv[3]))
    else:
        print(__doc__)
