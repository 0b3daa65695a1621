#!/usr/bin/env python3
"""Extracts from the classes of /repo (as text, via ast) where methods set attributes of self and where they read them, into
rocq/theories/Model/AttrsTable.v, in the statements of Model/Names.v.
Usage: gen_attrs.py > AttrsTable.v;  gen_attrs.py --check prints what the analysis of gen_names.py finds."""
import ast
import sys
import gen_names as G
from gen_names import ROOT, Scope, number, coq, analyse

CHECK = '--check' in sys.argv


class Attrs(G.Gen):
    """attributes of self in the methods of one class and its bases: names are attributes, locals are left out"""
    def __init__(self, cls, classes, tree):
        super().__init__(tree)
        self.classes, self.cls = classes, cls
        self.mro = []
        c = cls
        while c:
            self.mro.append(c)
            bases = [ast.unparse(b) for b in classes[c][0].bases]
            assert len(bases) <= 1
            c = bases[0] if bases and bases[0] in classes else None
        self.methods, self.fixed = {}, set()
        for c in reversed(self.mro):
            for s in classes[c][0].body:
                if isinstance(s, ast.FunctionDef): self.methods[s.name] = (c, s)
            self.fixed |= G.bound(classes[c][0].body)
        self.future = True

        # what is kept of the arguments of the constructor: self.a = p there, once, and never again
        sets = {}
        for c in self.mro:
            for n in ast.walk(classes[c][0]):
                for t in (n.targets if isinstance(n, ast.Assign) else [n.target] if isinstance(n, (ast.AnnAssign, ast.AugAssign)) else []):
                    for x in ast.walk(t):
                        if isinstance(x, ast.Attribute) and ast.unparse(x.value) == 'self': sets.setdefault(x.attr, []).append(n)
        init = self.methods.get('__init__', (None, None))[1]
        ps = {a.arg for a in init.args.args} - G.bound(init.body) if init else set()
        self.kept = {a: l[0].value.id for a, l in sets.items() if len(l) == 1 and init and l[0] in init.body and isinstance(getattr(l[0], 'value', None), ast.Name) and l[0].value.id in ps}

    def cond(self, e):
        if isinstance(e, ast.Compare) and len(e.ops) == 1 and isinstance(e.ops[0], ast.Eq) and isinstance(e.comparators[0], ast.Constant):
            l, v = e.left, e.comparators[0].value
            if isinstance(v, (int, str)):
                if isinstance(l, ast.Attribute) and self.is_self(l.value) and l.attr in self.kept: return ('Is', self.kept[l.attr], v)
                if isinstance(l, ast.Name) and self.stack and self.stack[-1].name == '__init__' and self.owner[-1] == self.cls and l.id in self.kept.values(): return ('Is', l.id, v)
        return 'Opaque'

    def is_self(self, e): return isinstance(e, ast.Name) and e.id == self.me[-1]

    def expr(self, e, sc, out):
        if e is None or isinstance(e, ast.Name): return
        if isinstance(e, ast.Call) and isinstance(e.func, ast.Attribute):    # arguments first, then the body of the method
            v = e.func.value
            if self.is_self(v) and e.func.attr in self.methods or isinstance(v, ast.Call) and ast.unparse(v.func) == 'super':
                for a in e.args: self.expr(a, sc, out)
                for k in e.keywords: self.expr(k.value, sc, out)
                self.expr(e.func, sc, out)
                return
        if isinstance(e, ast.Attribute) and self.is_self(e.value):
            if e.attr in self.methods: self.invoke(*self.methods[e.attr], out)
            elif e.attr not in self.fixed and not e.attr.startswith('__'): self.read(e.attr, out)
            return
        if isinstance(e, ast.Attribute) and isinstance(e.value, ast.Call) and ast.unparse(e.value.func) == 'super':
            m = self.above(e.attr)
            if m: self.invoke(*m, out)
            return
        super().expr(e, sc, out)

    def above(self, m):
        here = self.owner[-1]
        for c in self.mro[self.mro.index(here) + 1:]:
            for s in self.classes[c][0].body:
                if isinstance(s, ast.FunctionDef) and s.name == m: return c, s
        return None

    def body(self, c, node):
        deco = {ast.unparse(d) for d in node.decorator_list}
        self.stack.append(node); self.owner.append(c)
        self.me.append(None if 'staticmethod' in deco or 'classmethod' in deco else node.args.args[0].arg)
        sc = Scope('fun', '', set(), None)
        b = self.block(node.body, sc)
        self.stack.pop(); self.owner.pop(); self.me.pop()
        return b

    def invoke(self, c, node, out):
        if node in self.stack: return
        out.append(('Call', [], [], self.body(c, node)))

    def bind(self, t, sc, out):
        binds = []
        def subs(t):
            if isinstance(t, (ast.Tuple, ast.List)):
                for e in t.elts: subs(e)
            elif isinstance(t, ast.Starred): subs(t.value)
            elif isinstance(t, ast.Attribute) and self.is_self(t.value): 
                if t.attr not in self.fixed: binds.append(t.attr)
            elif isinstance(t, (ast.Attribute, ast.Subscript)):
                for c in ast.iter_child_nodes(t):
                    if isinstance(c, ast.expr): self.expr(c, sc, out)
        subs(t)
        if binds: out.append(('Bind', binds))

    def stmt(self, s, sc, out):
        if isinstance(s, ast.AugAssign):
            self.ev(out)
            t = s.target
            if isinstance(t, ast.Attribute) and self.is_self(t.value):
                self.expr(t, sc, out); self.expr(s.value, sc, out)
                if t.attr not in self.fixed: out.append(('Bind', [t.attr]))
            else:
                for c in ast.iter_child_nodes(t):
                    if isinstance(c, ast.expr): self.expr(c, sc, out)
                self.expr(s.value, sc, out)
            return
        if isinstance(s, (ast.Import, ast.ImportFrom)): self.ev(out); return
        if isinstance(s, ast.FunctionDef):
            assert not any(self.is_self(x) for x in ast.walk(s))
            self.ev(out); return
        if isinstance(s, ast.Try):
            assert not s.orelse and not s.finalbody and len(s.handlers) == 1
            out.append(('Try', self.block(s.body, sc), self.block(s.handlers[0].body, sc))); return
        super().stmt(s, sc, out)

    def program(self, last=None, first=None, only=None):
        """the constructor and the first method, then any (or only some) methods in any order, each of which may fail; then the last one"""
        self.stack, self.owner, self.me = [], [], []
        out = []
        if '__init__' in self.methods:
            self.invoke(*self.methods['__init__'], out)
        if first: out.append(('Call', [], [], self.body(*self.methods[first])))
        alts = []
        for m, (c, node) in reversed(list(self.methods.items())):
            if m == '__init__' or only and m not in only: continue
            alts = [('If', 'Opaque', [('Call', [], [], self.body(c, node))], alts)]
        end = []
        if last: end = [('Call', [], [], self.body(*self.methods[last]))]
        return out + [('Loop', [('Try', alts, [])])] + end


def classes():
    r = {}
    for f in G.files():
        tree = ast.parse(open(f).read())
        for n in tree.body:
            if isinstance(n, ast.ClassDef): r[n.name] = (n, f, tree)
    return r


def programs():
    cs = classes()
    for c, (n, f, tree) in cs.items():
        if any(ast.unparse(b) in ('Enum', 'Exception', 'ValueError') for b in n.bases): continue
        yield f, c, n, Attrs(c, cs, tree).program()
        if c == 'DUDE': yield f, c + '.denoise_sample', n, Attrs(c, cs, tree).program('denoise_sample')
        if c == 'BMM': yield f, c + '.fit', n, Attrs(c, cs, tree).program(first='fit', only=('fit', 'predict', 'score', 'score_samples'))


def check():
    for f, c, n, p in programs():
        at = G.atoms(p)
        for calm in (False, True):
            for vals in G.itertools.product(*[sorted(v, key=str) + ['other'] for v in at.values()]):
                env = dict(zip(at, vals))
                b, e = analyse(p, G.dec_of(env), calm)
                print(f[len(ROOT):], c, env, 'calm' if calm else 'any', sorted(set(b)), e, len(str(p)))


def table():
    print("""(** Where the methods of the classes set attributes of their object and where they read them: the constructor, then any methods in any order.
    Generated by tools/gen_attrs.py from the text of the files: every class but enumerations and exceptions.  The number before a statement is
    its line.  Attributes are numbered, in a list for every class. *)
From Coq Require Import String ZArith NArith List.
From Verif Require Import Model.Names.
Import ListNotations.
Local Open Scope string_scope.
Local Open Scope list_scope.
Local Open Scope Z_scope.
Local Open Scope N_scope.
""")
    ids = []
    for f, c, n, p in programs():
        names = {}
        q = number(p, names)
        i = 'at_' + c.replace('.', '_')
        ids.append(i)
        print(f'(** {f[len(ROOT):]}:{n.lineno}-{n.end_lineno}' + (', at the end a call of denoise_sample' if c == 'DUDE.denoise_sample' else ', first a call of fit, then of fit, predict, score and score_samples' if c == 'BMM.fit' else '') + '. *)')
        print(f'Definition {i} : file := {{| f_name := "{c}";')
        l, w = [], '  f_vars := ['
        for k, x in enumerate(names):
            w += ('; ' if k else '') + f'"{x}"'
            if len(w) > 120: l.append(w); w = '    '
        print('\n'.join(l + [w]) + '];')
        print('  f_body :=\n   ' + coq(q, 2) + ' |}.\n')
    print('(** All the classes; the files are named at each. E.g. decoders/decoder.py:18. *)')
    print('Definition attr_programs : list file := [' + ';\n  '.join(i for i in ids if i != 'at_DUDE_denoise_sample') + '].')


if __name__ == '__main__':
    check() if CHECK else table()
