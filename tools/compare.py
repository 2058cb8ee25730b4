"""Compare the transcribed tables of the model with the source text, token by token:
   the promise table, the token lists of the rules, their masks and, where the kernel headers are
   installed, the system call numbers.
   Usage: python3 tools/compare.py [repo]      (not used by the build)"""
import os, re, sys
REPO = sys.argv[1] if len(sys.argv) > 1 else '/repo'
TH = os.path.join(os.path.dirname(os.path.abspath(__file__)), '..', 'rocq', 'theories')
bad = 0

def check(what, a, b):
    global bad
    if a != b:
        bad += 1
        print('DIFFERENT', what, '\n  source:', a, '\n  model: ', b)

def rust(path):
    s = open(os.path.join(REPO, path)).read()
    return re.sub(r'/\*.*?\*/', '', re.sub(r'//.*', '', s), flags=re.S)

def coq(name):
    return re.sub(r'\(\*.*?\*\)', '', open(os.path.join(TH, name)).read(), flags=re.S)

def words(x):
    for old, new in (('SeccompReturn::Allow.into()', 'allow_code'), ('SeccompReturn::KillProcess', 'KillProcess'),
                     ('KillProcess.into()', 'ret_into KillProcess'), ('process::id()', 'pid'),
                     ('__O_TMPFILE', 'O_TMPFILE_'), ('!0x', 'not_u32 0x'), ('libc::', '')):
        x = x.replace(old, new)
    x = re.sub(r'(\w+(?:\(\d+\))?)\.offset\(\)', r'offset \1', x)
    x = re.sub(r'\bas u32\b|\bas_u32\b', ' ', x)
    return re.sub(r'[(),;"&\[\]]', ' ', x).split()

# the promise table
p = rust('src/promises.rs')
p = p[p.index('static PROMISES'):]
src = {}
for m in re.finditer(r'\(\s*(\w+),\s*vec!\s*\{(.*?)\}\s*,?\s*\)', p, re.S):
    src[m.group(1)] = [' '.join(words(x)) for x in re.split(r',(?![^(]*\))', m.group(2)) if x.strip()]
model = {}
for m in re.finditer(r'Definition filters_(\w+) : list Filtered :=\s*\[(.*?)\]\.', coq('Promises.v'), re.S):
    model[m.group(1)] = [' '.join(x.split()) for x in m.group(2).split(';')]
check('promises', sorted(src), sorted(model))
for k in src:
    check('promise ' + k, src[k], model.get(k))

# the rules
s = rust('src/seccomp.rs')
s = s[:s.index('#[cfg(test)]')]
c = coq('Filters.v')
model = dict((m.group(1), m.group(2)) for m in
             re.finditer(r'Definition asm_(\w+)[^=]*?:=(.*?)\.\nDefinition', c, re.S))
names = {'bpf_header': 'header', 'bpf_footer': 'footer', 'whitelist_syscall': 'whitelist'}
rules = 0
for m in re.finditer(r'fn (\w+)\([^)]*\) -> Result<WhitelistFrag> \{(.*?)\n\}', s, re.S):
    a = re.search(r'let asm = (syscall_check!\(|\[)(.*)(\)|\]);\s*Ok', m.group(2), re.S)
    if not a:
        continue
    rules += 1
    name = names.get(m.group(1), m.group(1))
    lets = re.findall(r'let (\w+) :=(.*?)\bin\b', model[name], re.S)
    body = re.sub(r'let \w+ :=.*?\bin\b', '', model[name], flags=re.S)
    w = [x for x in words(body) if x not in ('syscall_check', 'syscall_check1')]
    v = words(a.group(2))
    if name == 'footer':
        v = ['Return', 'Const', 'ret_into', 'violation']
    check('rule ' + name, v, w)
    for n, e in lets:
        e2 = re.search(r'(?:let|const) ' + n + r'(?:: u32)? = (.*?);', m.group(2), re.S).group(1)
        flat = lambda t: [x for x in words(t) if x not in ('|', 'N.lor')]
        check('mask of ' + name, [x.replace('!', 'not_u32') for x in flat(e2)], flat(e))

# which rule a filter name stands for
a = re.findall(r'(\w+)(?:\(\w+\))? => (\w+)\(', re.search(r'fn filter_to_bpf.*?\n\}', s, re.S).group(0))
b = re.findall(r'\| (\w+)(?: \w+)? => (\w+) prof', re.search(r'Definition filter_to_bpf.*?end\.', c, re.S).group(0))
check('filter_to_bpf', a, b)

# system call numbers
h = '/usr/include/x86_64-linux-gnu/asm/unistd_64.h'
nrs = dict(re.findall(r'Definition SYS_(\w+) : N := (\d+)', coq('Libc.v')))
if os.path.exists(h):
    hdr = dict(re.findall(r'#define __NR_(\w+) (\d+)', open(h).read()))
    for k in nrs:
        check('number of ' + k, hdr.get(k), nrs[k])
print(len(src), 'promises,', rules, 'rules,', len(nrs), 'numbers compared,', bad, 'differences')
