#!/usr/bin/env python3
"""Writes rocq/theories/Model/ImportsTable.v: what every file of the code imports and which names it binds, in order.

usage: gen_imports.py > rocq/theories/Model/ImportsTable.v

Statements other than imports from the code itself become [Other] with the names they bind at the top level of the file (those of imports
of other packages included).  Of the two generated dialects only the names that some file imports are listed.
"""
import ast, os, sys
R = '/repo'
SKIP = {'tests'}
BESIDE = 'runs/clsutering_analysis/functions.py'    # imported by the scripts beside it, as the module functions
files = sorted(os.path.relpath(os.path.join(d, f), R) for d, _, fs in os.walk(R) for f in fs if f.endswith('.py'))
files = [p for p in files if p.split('/')[0] not in SKIP]
tree = {p: ast.parse(open(f'{R}/{p}').read()) for p in files}
is_init = lambda p: p.endswith('/__init__.py')
mod = lambda p: 'functions' if p == BESIDE else (p[:-len('/__init__.py')] if is_init(p) else p[:-3]).replace('/', '.')
path = {mod(p): p for p in files}
dirs = {'.'.join(p.split('/')[:i]) for p in files for i in range(1, len(p.split('/')))}

def find(name, here):
    """The module of the code that a name stands for when the file [here] imports it: its own directory comes first, then the root."""
    d = os.path.dirname(here)
    first = name.split('.')[0]
    if first == 'functions' and d == os.path.dirname(BESIDE): return name
    if not is_library(here) and d and (os.path.exists(f'{R}/{d}/{first}.py') or os.path.isdir(f'{R}/{d}/{first}')):
        sys.exit(f'{here}: {first} is found beside it')
    return name if name in path or name in dirs else None

library = {'decoders', 'inference', 'protocol_meta', 'utils', 'mavlink_utils', 'data_generation'}
def is_library(p): return p.split('/')[0] in library or p == BESIDE

def bound(n):
    """The names a statement binds in the namespace of its file."""
    out = []
    def go(n):
        if isinstance(n, (ast.FunctionDef, ast.ClassDef)): out.append(n.name); return
        if isinstance(n, (ast.Lambda, ast.ListComp, ast.SetComp, ast.DictComp, ast.GeneratorExp)): return
        if isinstance(n, (ast.Import, ast.ImportFrom)):
            for a in n.names: out.append(a.asname or a.name.split('.')[0])
        if isinstance(n, ast.Name) and isinstance(n.ctx, ast.Store): out.append(n.id)
        if isinstance(n, ast.ExceptHandler) and n.name: pass
        for c in ast.iter_child_nodes(n): go(c)
    go(n)
    return out

def absolute(n, p):
    if not n.level: return n.module
    base = mod(p).split('.')
    base = base if is_init(p) else base[:-1]
    base = base[:len(base) - (n.level - 1)]
    return '.'.join(base + ([n.module] if n.module else []))

def own(n, p):
    if isinstance(n, ast.ImportFrom): return find(absolute(n, p), p)
    return any(find(a.name, p) for a in n.names)

def is_main(n): return isinstance(n, ast.If) and ast.unparse(n.test).replace('"', "'") == "__name__ == '__main__'"

def body(p):
    out = []
    def other(line, xs):
        if out and out[-1][0] == 'Other': out[-1][2].extend(x for x in xs if x not in out[-1][2])
        else: out.append(['Other', line, list(dict.fromkeys(xs))])
    def go(stmts, top):
        for n in stmts:
            if is_main(n):
                if not is_library(p): go(n.body, True)
            elif isinstance(n, ast.ImportFrom) and own(n, p):
                out.append(['From', n.lineno, absolute(n, p), [(a.name, a.asname or a.name) for a in n.names]])
                assert all(a.name != '*' for a in n.names)
            elif isinstance(n, ast.Import) and own(n, p):
                for a in n.names:
                    if find(a.name, p): out.append(['Import', n.lineno, a.name, a.asname or a.name.split('.')[0]])
                    else: other(n.lineno, [a.asname or a.name.split('.')[0]])
            else:
                for m in ast.walk(n):
                    if isinstance(m, (ast.Import, ast.ImportFrom)): assert not own(m, p), (p, m.lineno)
                other(n.lineno, bound(n))
    go(tree[p].body, True)
    return out

bodies = {p: body(p) for p in files}
wanted = {x for b in bodies.values() for s in b if s[0] == 'From' for x, _ in s[3]}
for b in bodies.values():    # what is imported is not bound under a condition only
    for s in b:
        if s[0] == 'From':
            for x, _ in s[3]:
                t = tree[path[s[2]]].body
                assert not any(x in bound(n) for n in t) or any(x in bound(n) for n in t if not isinstance(n, (ast.If, ast.Try, ast.For, ast.While, ast.With))), (s[2], x)
q = lambda s: f'"{s}"'
def names(xs): return '[' + '; '.join(map(q, xs)) + ']'
def show(p):
    rows = []
    for s in bodies[p]:
        if s[0] == 'Other':
            xs = [x for x in s[2] if x in wanted] if 'dialect' in p else s[2]
            rows.append(f'(* {s[1]} *) Other {names(xs)}')
        elif s[0] == 'From': rows.append(f'(* {s[1]} *) From {q(s[2])} [' + '; '.join(f'({q(x)}, {q(y)})' for x, y in s[3]) + ']')
        else: rows.append(f'(* {s[1]} *) Import {q(s[2])} {q(s[3])}')
    return '[' + ';\n    '.join(rows) + ']'
def wrap(s, w=150):
    out = []
    for l in s.split('\n'):
        while len(l) > w:
            i = l.rfind('; ', 0, w)
            if i < 20: break
            out.append(l[:i + 1]); l = '      ' + l[i + 2:]
        out.append(l)
    return '\n'.join(out)
ident = lambda m: m.replace('.', '_')

def main():
    print('''(** What the files of the code import and which names they bind, in order.
    Generated by tools/gen_imports.py from the text of the files: all but the tests.  The number before a statement is its line. *)
From Coq Require Import String List.
From Verif Require Import Model.Imports.
Import ListNotations.
Local Open Scope string_scope.
Local Open Scope list_scope.
''')
    mods = []
    lib = [p for p in files if is_library(p)]
    need = {mod(p) for p in lib}
    for m in sorted(need | {'.'.join(m.split('.')[:i]) for m in need for i in range(1, len(m.split('.')))}):
        parent, _, last = m.rpartition('.')
        p = path.get(m)
        if p: print(f'(** {p}:1-{max(1, len(open(R + "/" + p).read().splitlines()))}. *)')
        else: sys.exit(f'{m} has no __init__.py')
        print(wrap(f'Definition mo_{ident(m)} : modl := {{| m_name := {q(m)}; m_parent := {"Some " + q(parent) if parent else "None"}; m_last := {q(last)};\n'
              f'  m_body :=\n   {show(p) if p else "[]"} |}}.\n'))
        mods.append(f'mo_{ident(m)}')
    print('(** The modules of the code; decoders/__init__.py:1. *)\nDefinition modules : list modl :=\n  [' + ';\n   '.join(mods) + '].\n')
    scr = []
    for p in files:
        if is_library(p): continue
        print(f'(** {p}:1-{len(open(R + "/" + p).read().splitlines())}. *)')
        print(wrap(f'Definition sc_{ident(mod(p))} : string * list istmt := ({q(p)},\n   {show(p)}).\n'))
        scr.append(f'sc_{ident(mod(p))}')
    print('(** The scripts; runs/ and scripts/, e.g. scripts/unify_results.py:1. *)\nDefinition import_scripts : list (string * list istmt) :=\n  [' + ';\n   '.join(scr) + '].\n')
    print('(** __all__ of the packages; decoders/__init__.py:8, inference/__init__.py:8, protocol_meta/__init__.py:5. *)')
    ex = []
    for p in lib:
        for n in tree[p].body:
            if isinstance(n, (ast.Assign, ast.AnnAssign)) and ast.unparse(n.targets[0] if isinstance(n, ast.Assign) else n.target) == '__all__':
                ex.append(f'({q(mod(p))}, {names(ast.literal_eval(n.value))})')
    print(wrap('Definition exports : list (string * list string) :=\n  [' + ';\n   '.join(ex) + '].'))
main()
