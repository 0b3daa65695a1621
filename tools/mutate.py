#!/usr/bin/env python3
"""Mutation testing of the theorems, in a scratch copy outside /verif.

usage: mutate.py MUTATIONS.json   (list of {"def", "file", "old", "new", "claim", "expect"})

For every mutation the model file is edited, the development is rebuilt, every proof that breaks is replaced by Admitted
(in the scratch copy only) and finally Print Assumptions tells which property theorems rested on a broken proof.
One line per mutation is appended to seeded/LOG.jsonl.
"""
import json, os, re, shutil, subprocess, sys
ROOT = os.path.dirname(os.path.dirname(os.path.abspath(__file__)))
SCRATCH = os.environ.get('MUT_SCRATCH', '/tmp/mut')
J = os.environ.get('MUT_J', '2')

def admit(path, line):
    src = open(path).read().split('\n')
    i = line - 1
    # start of the enclosing proof
    s = i
    while s >= 0 and not re.match(r'\s*(Proof\b|Proof using)', src[s]): s -= 1
    h = i
    while h >= 0 and not re.match(r'\s*(Lemma|Theorem|Example|Corollary|Fact|Remark)\s+(\S+)', src[h]): h -= 1
    if s < 0 or h < 0 or s < h:
        # the statement itself may be broken
        return None
    e = s
    while not re.search(r'\b(Qed|Defined)\.\s*$', src[e]): e += 1
    if e < i: return None
    name = re.match(r'\s*(?:Lemma|Theorem|Example|Corollary|Fact|Remark)\s+([\w\']+)', src[h]).group(1)
    pre = src[s][:src[s].index('Proof')]
    src[s:e + 1] = [pre + 'Admitted.'] + [''] * (e - s)
    open(path, 'w').write('\n'.join(src))
    return name

def theorems(d):
    out = []
    for f in sorted(os.listdir(d + '/theories/Props')):
        if f.endswith('.v'):
            t = open(f'{d}/theories/Props/{f}').read()
            out += [(f[:-2], n) for n in re.findall(r'^(?:Theorem|Example) (c\d\d\w*)', t, re.M)]
    return out

def base():
    """A built copy of the development with a time limit on every command, refreshed from the last commit."""
    b = SCRATCH + '/base'
    src = SCRATCH + '/src/rocq'
    shutil.rmtree(SCRATCH + '/src', ignore_errors=True); os.makedirs(SCRATCH + '/src')
    subprocess.run(f'git archive HEAD rocq | tar -x -C {SCRATCH}/src', shell=True, cwd=ROOT, check=True)
    seen = set()
    for dp, _, fs in os.walk(src + '/theories'):
        for f in fs:
            if not f.endswith('.v'): continue
            rel = os.path.relpath(os.path.join(dp, f), src)
            seen.add(rel)
            t = open(os.path.join(src, rel)).read()
            if '/Proofs/' in rel or '/Props/' in rel: t += '\n'
            if '/Proofs/' in rel or '/Props/' in rel: t = 'Set Default Timeout 120. ' + t
            q = os.path.join(b, rel)
            os.makedirs(os.path.dirname(q), exist_ok=True)
            if not os.path.exists(q) or open(q).read() != t: open(q, 'w').write(t)
    shutil.copy(src + '/_CoqProject', b + '/_CoqProject')
    subprocess.run('coq_makefile -f _CoqProject -o Makefile && make -j' + J, shell=True, cwd=b, check=True, capture_output=True)
    return b

def chunks(t):
    """Split a file into lemma-with-proof chunks and everything between them."""
    pat = re.compile(r'^[ ]*(?:Lemma|Theorem|Example|Corollary|Fact|Remark)\s+([\w\']+)', re.M)
    out, pos = [], 0
    while True:
        m = pat.search(t, pos)
        if not m: break
        e = re.compile(r'\b(?:Qed|Defined)\.').search(t, m.start())
        if not e: break
        out.append((None, t[pos:m.start()]))
        out.append((m.group(1), t[m.start():e.end()]))
        pos = e.end()
    out.append((None, t[pos:]))
    return out

def tolerant(d, rel):
    """Run a broken file through coqtop, replacing every failing proof by Admitted; returns the lemmas replaced."""
    t = open(f'{d}/{rel}').read()
    cs = chunks(t)
    p = subprocess.Popen(['coqtop', '-q', '-Q', 'theories', 'Verif'], cwd=d, stdin=subprocess.PIPE, stdout=subprocess.PIPE,
                         stderr=subprocess.STDOUT, text=True, bufsize=1)
    def send(s, k):
        p.stdin.write(s + f'\nEval compute in ("mark"%string, "{k}"%string).\n'); p.stdin.flush()
        buf = []
        while True:
            line = p.stdout.readline()
            if not line: raise RuntimeError('coqtop died')
            buf.append(line)
            if re.search(r'= \("mark"(%%string)?, "%d"(%%string)?\)' % k, line): break
        return ''.join(buf)
    bad, new, k = [], [], 0
    try:
        send('Require Import Coq.Strings.String. Set Default Timeout 60.', k)
        for name, c in cs:
            k += 1
            o = send(c, k)
            if name and ('Error:' in o or 'Timeout!' in o):
                st = re.split(r'\bProof\b', c, 1)[0]
                k += 1; send('Abort All.', k)
                k += 1; o2 = send(st + ' Admitted.', k)
                if 'Error:' in o2: return None
                bad.append(name); new.append(st + 'Admitted.' + '\n' * c[len(st):].count('\n'))
            else: new.append(c)
    finally:
        p.kill()
    if not bad: return None
    open(f'{d}/{rel}', 'w').write(''.join(new))
    return bad

def run(m, w='w'):
    d = f'{SCRATCH}/{w}'
    shutil.rmtree(d, ignore_errors=True); shutil.copytree(SCRATCH + '/base', d, copy_function=shutil.copy2)
    p = f"{d}/theories/Model/{m['file']}"
    t = open(p).read()
    if t.count(m['old']) < 1: return dict(m, error='pattern not found')
    open(p, 'w').write(t.replace(m['old'], m['new'], 1))
    ths = theorems(d)
    broken = []
    for it in range(80):
        r = subprocess.run(['make', '-k', '-j' + J], cwd=d, capture_output=True, text=True, timeout=14400)
        errs = re.findall(r'File "\./(theories/[^"]+)", line (\d+)[^\n]*\n([^\n]*)', r.stdout + r.stderr)
        errs = [(f, int(l)) for f, l, x in errs if 'Warning' not in x]
        if r.returncode == 0: break
        if not errs: return dict(m, error='no error location', log=(r.stdout + r.stderr)[-500:])
        for f, l in dict(errs).items():
            ns = None
            try: ns = tolerant(d, f)
            except RuntimeError: pass
            if ns is None:
                n = admit(f'{d}/{f}', l)
                if n is None: return dict(m, error=f'cannot admit at {f}:{l}', broken=broken)
                ns = [n]
            broken += ns
    # only modules that were compiled again can rest on a broken proof
    vo = lambda b, a: os.path.getmtime(f'{b}/theories/Props/{a}.vo')
    ths = [(a, n) for a, n in ths if vo(d, a) != vo(SCRATCH + '/base', a)]
    mods = sorted({a for a, _ in ths})
    if not mods: return dict(m, broken=broken, failed=[])
    q = 'From Verif.Props Require Import ' + ' '.join(mods) + '.\n'
    for a, n in ths: q += f'Check {a}.{n}. Print Assumptions {a}.{n}.\n'
    open(d + '/Q.v', 'w').write(q)
    r = subprocess.run(['coqc', '-Q', 'theories', 'Verif', 'Q.v'], cwd=d, capture_output=True, text=True, timeout=3600)
    failed = []
    cur = None
    for line in r.stdout.split('\n'):
        k = re.match(r'^([\w.]*?)(c\d\d\w*)(\s|$)', line)
        if k: cur = k.group(2)
        for b in broken:
            if re.match(r'^(?:[\w.]*\.)?' + re.escape(b) + r'(\s|$|:)', line) and cur and b != cur or (b == cur):
                if cur not in failed: failed.append(cur)
    return dict(m, broken=broken, failed=failed)

def is_ex(x): return re.match(r'c\d+_ex(\d|_|$)', x) is not None

def record(m, r):
    print(json.dumps({k: r[k] for k in r if k not in ('old', 'new')}), flush=True)
    if 'error' in r: return
    thm = [x for x in r['failed'] if not is_ex(x)]
    with open(ROOT + '/seeded/LOG.jsonl', 'a') as f:
        f.write(json.dumps(dict(definition=m['def'], file='rocq/theories/Model/' + m['file'],
                edit=f"{m['old']}  ==>  {m['new']}", breaks=m['claim'], theorems_failed=thm,
                examples_failed=[x for x in r['failed'] if is_ex(x)], first_broken_lemmas=r['broken'][:8],
                theorems_tightened=m.get('tightened', []),
                how=r.get('how', 'proofs patched one after another; theorems_failed lists those observed to fail'))) + '\n')

if __name__ == '__main__':
    from concurrent.futures import ThreadPoolExecutor
    import queue, threading
    ms = json.load(open(sys.argv[1]))
    done = set()
    if os.path.exists(ROOT + '/seeded/LOG.jsonl'):
        for l in open(ROOT + '/seeded/LOG.jsonl'): done.add(json.loads(l)['edit'])
    if '--all' not in sys.argv: ms = [m for m in ms if f"{m['old']}  ==>  {m['new']}" not in done]
    if '--keep-base' not in sys.argv: base()
    n = int(os.environ.get('MUT_POOL', '2'))
    free = queue.Queue(); lock = threading.Lock()
    for i in range(n): free.put(f'w{i}')
    def job(m):
        w = free.get()
        try: r = run(m, w)
        except Exception as e: r = dict(m, error=repr(e))
        finally: free.put(w)
        with lock: record(m, r)
    with ThreadPoolExecutor(n) as ex: list(ex.map(job, ms))
