#!/usr/bin/env python3
"""Extracts from the Python files of /repo (as text, via ast) where names are bound and where they are read, into
rocq/theories/Model/NamesTable.v.
Usage: gen_names.py > NamesTable.v;  gen_names.py --check prints what an analysis of the same kind as that of Proofs/NamesP.v finds."""
import ast
import builtins
import glob
import itertools
import sys

ROOT = '/repo/'
SKIP = ('mavlink_utils/HC_dialect.py', 'mavlink_utils/minimal_dialect.py')
BUILTIN = set(dir(builtins)) | {'__file__', '__name__'}


def files():
    return [f for f in sorted(glob.glob(ROOT + '**/*.py', recursive=True))
            if '/tests/' not in f and 'test_' not in f.split('/')[-1] and f[len(ROOT):] not in SKIP]


class Scope:
    """names bound by the code of a module, function or class: those of a function are called f.x"""
    def __init__(self, kind, prefix, bound, parent):
        self.kind, self.prefix, self.bound, self.parent = kind, prefix, bound, parent

    def name(self, x):
        s = self
        while s:
            if x in s.bound and (s is self or s.kind != 'class'):
                return s.prefix + x
            s = s.parent
        return None if x in BUILTIN else x


def targets(t):
    """the names a target binds"""
    if isinstance(t, ast.Name): return [t.id]
    if isinstance(t, (ast.Tuple, ast.List)): return [x for e in t.elts for x in targets(e)]
    if isinstance(t, ast.Starred): return targets(t.value)
    return []


def bound(body):
    """the names bound by statements, not by functions in them; those declared global are left out"""
    r, g = set(), set()
    def go(n):
        if isinstance(n, (ast.FunctionDef, ast.ClassDef)): r.add(n.name); return
        if isinstance(n, (ast.Lambda, ast.ListComp, ast.SetComp, ast.DictComp, ast.GeneratorExp)): return
        if isinstance(n, ast.Global): g.update(n.names)
        if isinstance(n, (ast.Import, ast.ImportFrom)): r.update((a.asname or a.name.split('.')[0]) for a in n.names)
        if isinstance(n, ast.ExceptHandler) and n.name: r.add(n.name)
        if isinstance(n, ast.Name) and isinstance(n.ctx, ast.Store): r.add(n.id)
        assert not isinstance(n, (ast.NamedExpr, ast.Nonlocal, ast.Delete, ast.Yield, ast.Match, ast.AsyncFunctionDef)), ast.dump(n)
        for c in ast.iter_child_nodes(n): go(c)
    for s in body: go(s)
    return r - g


class Gen:
    def __init__(self, tree):
        self.tree = tree
        self.funs = {}       # name -> [(node, scope)]: what may be called where the name is read
        self.stack = []
        self.called = set()
        src = list(ast.walk(tree))
        self.set_opts = {t.attr for n in src if isinstance(n, (ast.Assign, ast.AugAssign)) for t in (n.targets if isinstance(n, ast.Assign) else [n.target])
                         if isinstance(t, ast.Attribute) and ast.unparse(t.value) == 'args'}
        self.types = {}
        for n in src:
            if isinstance(n, ast.Call) and ast.unparse(n.func).endswith('.add_argument'):
                k = {x.arg: x.value for x in n.keywords}
                self.types[n.args[0].value.lstrip('-')] = ast.unparse(k['type']) if 'type' in k else 'str'

    # conditions on options: ('Is', option, value), ('True', option), ('Not', c), ('Or', c, d), 'Opaque'
    def cond(self, e):
        def opt(a): return isinstance(a, ast.Attribute) and ast.unparse(a.value) == 'args' and a.attr not in self.set_opts and self.types.get(a.attr) in ('int', 'str')
        if isinstance(e, ast.Compare) and len(e.ops) == 1 and opt(e.left):
            c = e.comparators[0]
            if isinstance(e.ops[0], (ast.Eq, ast.NotEq)) and isinstance(c, ast.Constant):
                r = ('Is', e.left.attr, c.value)
                return r if isinstance(e.ops[0], ast.Eq) else ('Not', r)
            if isinstance(e.ops[0], ast.In) and isinstance(c, ast.Set):
                r = [('Is', e.left.attr, x.value) for x in c.elts]
                return ('Or', r[0], r[1]) if len(r) == 2 else 'Opaque'
        if isinstance(e, ast.Call) and ast.unparse(e.func) == 'bool' and opt(e.args[0]): return ('Truthy', e.args[0].attr)
        if isinstance(e, ast.UnaryOp) and isinstance(e.op, ast.Not):
            r = self.cond(e.operand)
            return ('Not', r) if r != 'Opaque' else r
        return 'Opaque'

    # expressions: what is read and called, in order
    def expr(self, e, sc, out):
        if e is None: return
        if isinstance(e, ast.Name):
            x = sc.name(e.id)
            if x is not None:
                self.read(x, out)
                if x in self.funs: self.calls(x, out)
            return
        if isinstance(e, ast.BoolOp):
            self.expr(e.values[0], sc, out)
            self.maybe(e.values[1:], sc, out); return
        if isinstance(e, ast.Compare) and len(e.ops) > 1:
            self.expr(e.left, sc, out); self.expr(e.comparators[0], sc, out)
            self.maybe(e.comparators[1:], sc, out); return
        if isinstance(e, ast.IfExp):
            self.expr(e.test, sc, out)
            a, b = [], []
            self.expr(e.body, sc, a); self.expr(e.orelse, sc, b)
            if a or b: out.append(('If', 'Opaque', a, b))
            return
        if isinstance(e, ast.Lambda):
            s = Scope('lambda', '\0', {a.arg for a in e.args.args}, sc)
            self.maybe([e.body], s, out); return
        if isinstance(e, (ast.ListComp, ast.SetComp, ast.GeneratorExp, ast.DictComp)):
            self.expr(e.generators[0].iter, sc, out)
            s = Scope('comp', '\0', {x for g in e.generators for x in targets(g.target)}, sc)
            rest = []
            for k, g in enumerate(e.generators):
                if k: rest.append(g.iter)
                rest += g.ifs
            rest += [e.key, e.value] if isinstance(e, ast.DictComp) else [e.elt]
            self.maybe(rest, s, out); return
        for c in ast.iter_child_nodes(e):
            if isinstance(c, ast.expr): self.expr(c, sc, out)
            elif isinstance(c, ast.keyword): self.expr(c.value, sc, out)
            elif isinstance(c, (ast.expr_context, ast.operator, ast.unaryop, ast.cmpop, ast.boolop)): pass
            else: raise Exception(ast.dump(c))

    def read(self, x, out):
        if x.startswith('\0'): return
        if out and out[-1][0] == 'Eval':
            if x not in out[-1][1]: out[-1][1].append(x)
        else: out.append(('Eval', [x]))

    def maybe(self, es, sc, out):
        r = []
        for e in es: self.expr(e, sc, r)
        if r: out.append(('If', 'Opaque', r, []))

    def calls(self, x, out):
        for node, sc in self.funs[x]:
            if node in self.stack: continue
            self.called.add(node)
            out.append(('Loop', [self.call(node, sc)]))

    def call(self, node, sc):
        self.stack.append(node)
        a = node.args
        ps = [p.arg for p in a.posonlyargs + a.args + a.kwonlyargs] + [p.arg for p in (a.vararg, a.kwarg) if p]
        pre = (sc.prefix if sc.kind != 'module' else '') + node.name + '.'
        loc = (bound(node.body) | set(ps))
        glob_ = {x for n in ast.walk(node) if isinstance(n, ast.Global) for x in n.names}
        s = Scope('fun', pre, loc, sc)
        b = self.block(node.body, s)
        self.stack.pop()
        return ('Call', sorted(pre + x for x in loc - set(ps)), [pre + p for p in ps], b)

    def bind(self, t, sc, out):
        """reads of a target, then the names it binds"""
        def subs(t):
            if isinstance(t, (ast.Tuple, ast.List)):
                for e in t.elts: subs(e)
            elif isinstance(t, ast.Starred): subs(t.value)
            elif isinstance(t, (ast.Attribute, ast.Subscript)):
                for c in ast.iter_child_nodes(t):
                    if isinstance(c, ast.expr): self.expr(c, sc, out)
        subs(t)
        xs = [sc.name(x) for x in targets(t)]
        if xs: out.append(('Bind', xs))

    def block(self, body, sc):
        out = []
        for s in body:
            if not isinstance(s, (ast.Pass, ast.Global)) and not (isinstance(s, ast.Expr) and isinstance(s.value, ast.Constant)): out.append(('#', s.lineno))
            self.stmt(s, sc, out)
        return out

    def ev(self, out):
        """every statement may fail, even if it reads nothing"""
        out.append(('Eval', []))

    def stmt(self, s, sc, out):
        E = lambda e: self.expr(e, sc, out)
        if isinstance(s, ast.Expr):
            if isinstance(s.value, ast.Constant): return
            self.ev(out); E(s.value)
        elif isinstance(s, ast.Assign):
            self.ev(out); E(s.value)
            for t in s.targets: self.bind(t, sc, out)
        elif isinstance(s, ast.AnnAssign):
            self.ev(out); E(s.value)
            if sc.kind != 'fun': E(s.annotation)
            if s.value is not None: self.bind(s.target, sc, out)
        elif isinstance(s, ast.AugAssign):
            self.ev(out)
            t = s.target
            if isinstance(t, ast.Name): self.read(sc.name(t.id), out)
            else:
                for c in ast.iter_child_nodes(t):
                    if isinstance(c, ast.expr): E(c)
            E(s.value)
            if isinstance(t, ast.Name): out.append(('Bind', [sc.name(t.id)]))
        elif isinstance(s, (ast.Import, ast.ImportFrom)):
            self.ev(out)
            out.append(('Bind', [sc.name(a.asname or a.name.split('.')[0]) for a in s.names]))
        elif isinstance(s, ast.If):
            if ast.unparse(s.test) == "__name__ == '__main__'":
                out += self.block(s.body, sc); return
            if ast.unparse(s.test).startswith("__name__ == '__main__'"): 
                out.append(('If', 'Opaque', self.block(s.body, sc), [])); return
            self.ev(out); E(s.test)
            out.append(('If', self.cond(s.test), self.block(s.body, sc), self.block(s.orelse, sc)))
        elif isinstance(s, ast.For):
            assert not s.orelse
            self.ev(out); E(s.iter)
            b = []
            self.bind(s.target, sc, b)
            out.append(('Loop', b + self.block(s.body, sc)))
        elif isinstance(s, ast.While):
            assert not s.orelse
            t = []
            self.expr(s.test, sc, t)
            self.ev(out); out += t
            out.append(('Loop', self.block(s.body, sc) + t))
        elif isinstance(s, ast.With):
            for i in s.items:
                self.ev(out); E(i.context_expr)
                if i.optional_vars: self.bind(i.optional_vars, sc, out)
            out += self.block(s.body, sc)
        elif isinstance(s, ast.Try):
            assert not s.orelse and not s.finalbody and len(s.handlers) == 1, ast.unparse(s)[:300]
            h = s.handlers[0]
            hb = []
            if h.type is not None: self.expr(h.type, sc, hb)
            hb += ([('Bind', [sc.name(h.name)])] if h.name else []) + self.block(h.body, sc)
            out.append(('Try', self.block(s.body, sc), hb))
        elif isinstance(s, ast.Raise):
            self.ev(out); E(s.exc); out.append(('Raise',))
        elif isinstance(s, ast.Return):
            self.ev(out); E(s.value); out.append(('Return',))
        elif isinstance(s, ast.Continue): out.append(('Continue',))
        elif isinstance(s, ast.Break): out.append(('Break',))
        elif isinstance(s, ast.Assert):
            self.ev(out); E(s.test)
        elif isinstance(s, (ast.Pass, ast.Global)): pass
        elif isinstance(s, ast.FunctionDef):
            self.ev(out)
            for d in s.decorator_list: E(d)
            for d in s.args.defaults + s.args.kw_defaults: E(d)
            if not self.future:
                for a in s.args.posonlyargs + s.args.args + s.args.kwonlyargs: E(a.annotation)
                E(s.returns)
            x = sc.name(s.name)
            out.append(('Bind', [x]))
            if sc.kind == 'class': self.funs.setdefault(sc.owner, []).append((s, sc))
            else: self.funs[x] = [(s, sc)]
        elif isinstance(s, ast.ClassDef):
            self.ev(out)
            for d in s.decorator_list: E(d)
            for d in s.bases: E(d)
            c = Scope('class', s.name + '.', bound(s.body), sc)
            c.owner = sc.name(s.name)
            out += self.block(s.body, c)
            out.append(('Bind', [c.owner]))
        else: raise Exception(ast.dump(s))

    def module(self):
        self.future = any(isinstance(n, ast.ImportFrom) and n.module == '__future__' for n in self.tree.body)
        sc = Scope('module', '', bound(self.tree.body), None)
        out = self.block(self.tree.body, sc)
        # then anything defined here and not called yet may be called, any number of times in any order
        alts = []
        for fs in list(self.funs.values()):
            for node, s in fs:
                if node in self.called: continue
                alts = [('If', 'Opaque', [self.call(node, s)], alts)]
        if alts: out.append(('Loop', alts))
        return out


# the analysis: (normal, returned, continued) states as frozensets or None, exceptions as the states where they may arise
def analyse(prog, dec, calm=False):
    bad = []
    def meet(*l):
        l = [x for x in l if x is not None]
        return frozenset.intersection(*l) if l else None
    def block(b, st):
        ret = con = exc = None
        for s in b:
            if st is None: break
            n, r, c, e = stmt(s, st)
            st, ret, con, exc = n, meet(ret, r), meet(con, c), meet(exc, e)
        return st, ret, con, exc
    def stmt(s, st):
        k = s[0]
        if k == '#': return st, None, None, None
        if k == 'Eval':
            before = None if calm else st
            for x in s[1]:
                if x not in st: bad.append(x)
                if x not in hi: return None, None, None, before
                st = st | {x}
            return st, None, None, before
        if k == 'Bind': return st | set(s[1]), None, None, None
        if k == 'Raise': return None, None, None, st
        if k == 'Return': return None, st, None, None
        if k in ('Continue', 'Break'): return None, None, st, None
        if k == 'If':
            d = dec(s[1])
            rs = [block(b, st) for v, b in ((True, s[2]), (False, s[3])) if d is None or d == v]
            return tuple(meet(*x) for x in zip(*rs))
        if k == 'Loop':
            n, r, c, e = block(s[1], st)
            return (meet(n, c) if calm else st), r, None, e
        if k == 'Try':
            n, r, c, e = block(s[1], st)
            if e is None: return n, r, c, None
            n2, r2, c2, e2 = block(s[2], e)
            return meet(n, n2), meet(r, r2), meet(c, c2), meet(e, e2)
        if k == 'Call':
            n, r, c, e = block(s[3], (st - set(s[1])) | set(s[2]))
            m = meet(n, r)
            return m, None, None, e
        raise Exception(k)
    hi = binds(prog, dec)
    end = block(prog, frozenset())
    return bad, end[0] is not None


def binds(b, dec):
    r = set()
    for s in b:
        if s[0] == 'Bind': r |= set(s[1])
        elif s[0] == 'If':
            d = dec(s[1])
            if d is not False: r |= binds(s[2], dec)
            if d is not True: r |= binds(s[3], dec)
        elif s[0] == 'Loop': r |= binds(s[1], dec)
        elif s[0] == 'Try': r |= binds(s[1], dec) | binds(s[2], dec)
        elif s[0] == 'Call': r |= set(s[2]) | binds(s[3], dec)
    return r


def atoms(prog):
    r = {}
    def c(x):
        if x == 'Opaque': return
        if x[0] == 'Is': r.setdefault(x[1], set()).add(x[2])
        elif x[0] == 'Truthy': r.setdefault(x[1], set()).add(0)
        else:
            for y in x[1:]: c(y)
    def go(b):
        for s in b:
            if s[0] == 'If': c(s[1])
            for x in s[1:]:
                if isinstance(x, list) and x and isinstance(x[0], tuple): go(x)
    go(prog)
    return r


def dec_of(env):
    def d(c):
        if c == 'Opaque': return None
        if c[0] == 'Is': return env[c[1]] == c[2]
        if c[0] == 'Truthy': return env[c[1]] != 0
        if c[0] == 'Not': return not d(c[1])
        if c[0] == 'Or': return d(c[1]) or d(c[2])
    return d


def number(p, names):
    """names replaced by their numbers"""
    def n(x):
        if x not in names: names[x] = len(names)
        return names[x]
    r = []
    for s in p:
        if s[0] in ('Eval', 'Bind'): r.append((s[0], [n(x) for x in s[1]]))
        elif s[0] == 'If': r.append(('If', s[1], number(s[2], names), number(s[3], names)))
        elif s[0] == 'Loop': r.append(('Loop', number(s[1], names)))
        elif s[0] == 'Try': r.append(('Try', number(s[1], names), number(s[2], names)))
        elif s[0] == 'Call': r.append(('Call', [n(x) for x in s[1]], [n(x) for x in s[2]], number(s[3], names)))
        else: r.append(s)
    return r


def coq_value(v):
    return f'(VInt {v})' if isinstance(v, int) else f'(VStr "{v}")'


def coq_cond(c):
    if c == 'Opaque': return c
    if c[0] == 'Is': return f'(Is "{c[1]}" {coq_value(c[2])})'
    if c[0] == 'Truthy': return f'(Truthy "{c[1]}")'
    return '(' + c[0] + ' ' + ' '.join(coq_cond(x) for x in c[1:]) + ')'


def coq(p, ind):
    """a list of statements, a line for each line of the source"""
    def ns(l): return '[' + ';'.join(map(str, l)) + ']'
    lines, cur = [], None
    for s in p:
        if s[0] == '#': cur = [f'(* {s[1]} *)']; lines.append(cur); continue
        if cur is None: cur = []; lines.append(cur)
        if s[0] in ('Eval', 'Bind'): t = f'{s[0]} {ns(s[1])}'
        elif s[0] == 'If': t = f'If {coq_cond(s[1])} {coq(s[2], ind + 1)} {coq(s[3], ind + 1)}'
        elif s[0] == 'Loop': t = f'Loop {coq(s[1], ind + 1)}'
        elif s[0] == 'Try': t = f'Try {coq(s[1], ind + 1)} {coq(s[2], ind + 1)}'
        elif s[0] == 'Call': t = f'Call {ns(s[1])} {ns(s[2])} {coq(s[3], ind + 1)}'
        else: t = s[0]
        cur.append(t)
    if not p: return '[]'
    out = []
    last = max(i for i, l in enumerate(lines) if any(not x.startswith('(*') for x in l))
    for i, l in enumerate(lines):
        c = [x for x in l if x.startswith('(*')]
        t = [x for x in l if not x.startswith('(*')]
        out.append(' '.join(c + ['; '.join(t)]) + (';' if t and i < last else ''))
    if len(out) == 1 and len(out[0]) < 100: return '[' + out[0] + ']'
    pad = '\n' + ' ' * (ind + 1)
    return '[' + pad.join(out) + ']'


def ident(f):
    return 'py_' + f[len(ROOT):-3].replace('/', '_').replace('__init__', 'init')


def table():
    print("""(** Where the files of the repository bind names and where they read them.  Generated by tools/gen_names.py from their text: every file but
    the two generated dialects and the tests.  The number before a statement is its line.  Names are numbered, in a list for every file; the
    name x of a function f is f.x. *)
From Coq Require Import String ZArith NArith List.
From Verif Require Import Model.Names.
Import ListNotations.
Local Open Scope string_scope.
Local Open Scope list_scope.
Local Open Scope Z_scope.
Local Open Scope N_scope.
""")
    ids = []
    for f in files():
        src = open(f).read()
        p = Gen(ast.parse(src)).module()
        if not p: continue
        names = {}
        q = number(p, names)
        i = ident(f)
        ids.append((i, f))
        print(f'(** {f[len(ROOT):]}:1-{len(src.splitlines())}. *)')
        print(f'Definition {i} : file := {{| f_name := "{f[len(ROOT):]}";')
        l, w = [], '  f_vars := ['
        for k, x in enumerate(names):
            w += ('; ' if k else '') + f'"{x}"'
            if len(w) > 120: l.append(w); w = '    '
        print('\n'.join(l + [w]) + '];')
        print('  f_body :=\n   ' + coq(q, 2) + ' |}.\n')
    print('(** All of them. See the files themselves, from line 1 of each. *)')
    print('Definition files : list file := [' + ';\n  '.join(i for i, _ in ids) + '].')


def main():
    for f in files():
        p = Gen(ast.parse(open(f).read())).module()
        at = atoms(p)
        found, stuck = {}, []
        for vals in itertools.product(*[sorted(v, key=str) + ['other'] for v in at.values()]):
            env = dict(zip(at, vals))
            b, ends = analyse(p, dec_of(env), '--calm' in sys.argv)
            if not ends: stuck.append(env)
            for x in set(b): found.setdefault(x, []).append(env)
        n = 1
        for v in at.values(): n *= len(v) + 1
        print(f[len(ROOT):], n, 'classes')
        for x, es in found.items(): print('    ', x, len(es), es if len(es) < n and len(es) < 9 else ('all' if len(es) == n else es[:3]))
        if stuck: print('     never ends', len(stuck), stuck[:9])


if __name__ == '__main__':
    main() if '--check' in sys.argv else table()
