#!/usr/bin/env python3
"""Mutation testing, quickly: like mutate.py, but only the first broken proof of every file is found.

usage: quickmut.py MUTATIONS.json [--all] [--keep-base]

The model file is edited in a scratch copy and everything that depends on it is rebuilt with make -k.  The proof around the first error of
every file is broken; the theorems that failed are those whose proofs use a broken lemma, directly or through other lemmas (by name).  If
nothing but examples broke, the mutation is handed to mutate.py, which goes on past the examples.
"""
import json, os, re, shutil, subprocess, sys, time
sys.path.insert(0, os.path.dirname(os.path.abspath(__file__)))
import mutate
from mutate import SCRATCH, J, ROOT, is_ex, chunks

def graph(d):
    """lemma -> the lemmas that mention it in a file that can see it; and the property theorems.  A lemma is a pair of file and name."""
    needs = {}
    for l in open(f'{d}/.Makefile.d'):
        a, _, b = l.partition(':')
        for t in a.split():
            if t.endswith('.vo'): needs.setdefault(t[:-1], set()).update(x[:-1] for x in b.split() if x.endswith('.vo'))
    def sees(f, acc):
        for x in needs.get(f, ()):
            if x not in acc: acc.add(x); sees(x, acc)
        return acc
    body, thms = {}, set()
    for sub in ('Proofs', 'Props', 'Spec'):
        for f in sorted(os.listdir(f'{d}/theories/{sub}')):
            if not f.endswith('.v'): continue
            for n, c in chunks(open(f'{d}/theories/{sub}/{f}').read()):
                if n:
                    k = (f'theories/{sub}/{f}', n)
                    body.setdefault(k, set()).update(re.findall(r"[\w']+", c))
                    if sub == 'Props' and re.match(r'c\d\d', n): thms.add(k)
    named = {}
    for k in body: named.setdefault(k[1], []).append(k)
    seen = {f: sees(f, {f}) for f in {k[0] for k in body}}
    users = {}
    for k, ids in body.items():
        for i in ids & named.keys():
            for o in named[i]:
                if o != k and o[0] in seen[k[0]]: users.setdefault(o, set()).add(k)
    return users, thms

def enclosing(path, line):
    src = open(path).read().split('\n')
    for h in range(line - 1, -1, -1):
        m = re.match(r"\s*(?:Lemma|Theorem|Example|Corollary|Fact|Remark|Fixpoint|Definition)\s+([\w']+)", src[h])
        if m: return m.group(1)

def quick(m, w, users, thms):
    d = f'{SCRATCH}/{w}'
    subprocess.run(['rm', '-rf', d]); subprocess.run(['cp', '-a', SCRATCH + '/base', d], check=True)
    p = f"{d}/theories/Model/{m['file']}"
    t = open(p).read()
    if t.count(m['old']) < 1: return dict(m, error='pattern not found')
    open(p, 'w').write(t.replace(m['old'], m['new'], 1))
    r = subprocess.run(['make', '-k', '-j' + J], cwd=d, capture_output=True, text=True, timeout=14400)
    if r.returncode == 0: return dict(m, broken=[], failed=[])
    errs = re.findall(r'File "\./(theories/[^"]+)", line (\d+)[^\n]*\n([^\n]*)', r.stdout + r.stderr)
    errs = {f: int(l) for f, l, x in errs if 'Warning' not in x}
    if any('/Model/' in f for f in errs): return dict(m, error='does not typecheck ' + str(errs))
    at = [(f, enclosing(f'{d}/{f}', l)) for f, l in errs.items()]
    at = [b for b in at if b[1]]
    broken = [b[1] for b in at]
    if all(is_ex(b) for b in broken): return None
    seen, todo = set(at), list(at)
    while todo:
        for u in users.get(todo.pop(), ()):
            if u not in seen: seen.add(u); todo.append(u)
    return dict(m, broken=broken, failed=sorted(k[1] for k in seen & thms),
                how='make -k; theorems_failed lists the theorems whose proofs fail or rest on a lemma whose proof fails')

if __name__ == '__main__':
    from concurrent.futures import ThreadPoolExecutor
    import queue, threading
    ms = json.load(open(sys.argv[1]))
    done = {json.loads(l)['edit'] + json.loads(l)['definition'] for l in open(ROOT + '/seeded/LOG.jsonl')}
    if '--all' not in sys.argv: ms = [m for m in ms if f"{m['old']}  ==>  {m['new']}{m['def']}" not in done]
    if '--keep-base' not in sys.argv: mutate.base()
    users, thms = graph(SCRATCH + '/base')
    n = int(os.environ.get('MUT_POOL', '2'))
    free = queue.Queue(); lock = threading.Lock()
    for i in range(n): free.put(f'w{i}')
    def job(m):
        w = free.get(); t0 = time.time()
        try:
            r = quick(m, w, users, thms)
            if r is None: r = mutate.run(m, w)
        except Exception as e: r = dict(m, error=repr(e))
        finally: free.put(w)
        with lock: mutate.record(m, dict(r, secs=int(time.time() - t0)))
    with ThreadPoolExecutor(n) as ex: list(ex.map(job, ms))
