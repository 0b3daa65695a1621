#!/usr/bin/env python3
"""Extracts from the scripts of /repo (as text, via ast) what they do to files, in order, into rocq/theories/Model/SaveTable.v.
Usage: gen_save.py > SaveTable.v"""
import ast
import glob

ROOT = '/repo/'


def files():
    r = []
    for f in sorted(glob.glob(ROOT + 'scripts/*.py') + glob.glob(ROOT + 'runs/*/*.py')):
        s = open(f).read()
        if 'os.mkdir(path)' in s and ('path = os.path.join("results/", timestamp)' in s) and 'for run_idx' not in s:
            r.append(f)
    return r


def coq(s):
    assert '"' not in s
    return '"' + s + '"'


def text(e):
    """the pieces of a text: ('Lit', s) or ('Hole', variable)"""
    if isinstance(e, ast.Constant):
        return [('Lit', e.value)]
    if isinstance(e, ast.JoinedStr):
        r = []
        for v in e.values:
            if isinstance(v, ast.Constant):
                r.append(('Lit', v.value))
            else:
                assert v.conversion == -1 and v.format_spec is None
                r.append(('Hole', ast.unparse(v.value)))
        return r
    if isinstance(e, ast.BinOp) and isinstance(e.op, ast.Add):
        return text(e.left) + text(e.right)
    if isinstance(e, ast.Name):
        return [('Hole', e.id)]
    raise Exception(ast.dump(e))


def template(ps):
    return '[' + '; '.join(f'{k} {coq(s)}' for k, s in ps) + ']'


def where(e):
    """(place, pieces) of a path"""
    if isinstance(e, ast.Call):
        assert ast.unparse(e.func) == 'os.path.join' and len(e.args) == 2
        d = ast.unparse(e.args[0])
        assert d in ("path", "'results/'"), d
        return ('AtRun' if d == 'path' else 'AtResults', text(e.args[1]))
    ps = text(e)
    if ps[0][0] == 'Lit' and ps[0][1].startswith('results/'):
        ps[0] = ('Lit', ps[0][1][len('results/'):])
        return ('AtResults', [p for p in ps if p[1] != ''])
    return ('AtCwd', ps)


def writes(n):
    """the paths a statement opens for writing, with the lines"""
    r = []
    for c in ast.walk(n):
        if not isinstance(c, ast.Call):
            continue
        f = ast.unparse(c.func)
        if f in ('open', 'lzma.open'):
            mode = c.args[1].value if len(c.args) > 1 else 'r'
            if 'w' in mode:
                r.append((c.lineno, c.args[0]))
            else:
                assert 'r' in mode and 'a' not in mode
        elif f == 'savemat' or f.endswith('.savefig'):
            r.append((c.lineno, c.args[0]))
        elif f in ('np.savetxt', 'np.save', 'os.remove', 'os.rename', 'os.makedirs') or f.endswith('.to_csv'):
            raise Exception(f)
    return sorted(r, key=lambda x: x[0])


def script(f):
    t = ast.parse(open(f).read())
    step = None
    for n in t.body:
        if isinstance(n, ast.FunctionDef):
            w = writes(n)
            if w:
                assert n.name == 'simulation_step' and len(w) == 1
                # the write is a statement of the function itself, not under a condition
                assert any(isinstance(s, ast.With) and writes(s) for s in n.body)
                step = where(w[0][1])
    cited = []

    def seq(body, inner=False):
        out = []

        def other():
            if not out or out[-1] != 'SOther':
                out.append('SOther')
        for s in body:
            if isinstance(s, (ast.FunctionDef, ast.ClassDef, ast.Import, ast.ImportFrom)):
                continue
            src = ast.unparse(s)
            calls = [c for c in ast.walk(s) if isinstance(c, ast.Call)]
            names = [ast.unparse(c.func) for c in calls]
            w = writes(s)
            if 'os.mkdir' in names:
                assert isinstance(s, ast.Expr) and names[0] == 'os.mkdir'
                a = calls[0].args[0]
                cited.append(s.lineno)
                if ast.unparse(a) == 'path':
                    out.append('SMkdir')
                else:
                    pl, ps = where(a)
                    assert pl == 'AtRun'
                    out.append(f'SMkdirIn {template(ps)}')
            elif 'setup_logger' in names:
                c = [c for c in calls if ast.unparse(c.func) == 'setup_logger'][0]
                kw = {k.arg: k.value for k in c.keywords}
                pl, ps = where(kw['log_file'])
                assert ps == [('Lit', 'log.log')] and pl in ('AtResults', 'AtRun')
                cited.append(s.lineno)
                out.append(f'SOpenLog {pl}')
            elif 'shutil.move' in names:
                assert isinstance(s, ast.Expr)
                assert where(calls[0].args[0]) == ('AtResults', [('Lit', 'log.log')])
                assert where(calls[0].args[1]) == ('AtRun', [('Lit', 'log.log')])
                cited.append(s.lineno)
                out.append('SMove')
            elif 'pool.map' in names or 'simulation_step' in src:
                assert not w
                cited.append(s.lineno)
                out.append('SPool ' + (f'(Some ({step[0]}, {template(step[1])}))' if step else 'None'))
            elif w:
                assert len(w) == 1 and isinstance(s, (ast.With, ast.Expr)), src
                pl, ps = where(w[0][1])
                assert pl == 'AtRun'
                cited.append(w[0][0])
                out.append(f'SWrite {template(ps)}')
            elif isinstance(s, ast.Expr) and names[:1] in (['logger.exception'],):
                assert inner
            elif isinstance(s, ast.Raise):
                assert inner and s is body[-1]
            else:
                other()
        return out
    main = []
    tries = []
    for s in t.body:
        assert not tries or isinstance(s, ast.FunctionDef), (f, s.lineno)
        if isinstance(s, ast.If) and '__name__' in ast.unparse(s.test):
            for b in s.body:
                assert not tries
                (tries if isinstance(b, ast.Try) else main).append(b)
        else:
            (tries if isinstance(s, ast.Try) else main).append(s)
    pre = seq(main)
    body, handler = [], None
    if tries:
        (tr,) = tries
        assert len(tr.handlers) == 1 and not tr.orelse and not tr.finalbody
        h = tr.handlers[0]
        assert ast.unparse(h.type) == 'Exception' and ast.unparse(h.body[0]) == 'logger.exception(e)' and ast.unparse(h.body[-1]) == 'raise e'
        body = seq(tr.body)
        handler = seq(h.body, True)
    return pre, body, handler, cited


def show(l, ind):
    return '[' + (';\n' + ' ' * ind).join(l) + ']'


print('''(** What the scripts do to files, in order: generated by tools/gen_save.py from the text of the scripts.
    A run of statements which touch no files of the run is one [SOther]; the logged lines are not in the table.
    Left out: simulated_data_entropy_bitwise_decoder_weighted_model_averaged.py, which makes a directory in a loop, and
    scripts/unify_results.py, whose files are those of Model/Unify.v. *)
From Coq Require Import String List.
From Verif Require Import Model.Saving.
Import ListNotations.
Local Open Scope string_scope.
Local Open Scope list_scope.
''')
names = []
for f in files():
    pre, body, handler, cited = script(f)
    rel = f[len(ROOT):]
    nm = 'sv_' + rel[:-3].split('/', 1)[1].replace('/', '_').replace('HC_eilat_July_2018', 'eilat').replace('clsutering_analysis_', '') if rel.startswith('runs/') else 'sv_' + rel[8:-3]
    names.append((rel, nm))
    print(f'(** {rel}:{", ".join(map(str, sorted(set(cited))))}. *)')
    print(f'Definition {nm} : script := {{|')
    print(f'  sc_pre := {show(pre, 13)};')
    print(f'  sc_body := {show(body, 14)};')
    print(f'  sc_handler := {"None" if handler is None else "Some " + show(handler, 4)} |}}.\n')
print('''(** The scripts above, by the name of the file. *)
Definition saving_scripts : list (string * script) :=''')
print('  [' + ';\n   '.join(f'({coq(r)}, {n})' for r, n in names) + '].')
