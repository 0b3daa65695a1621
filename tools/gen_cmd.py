#!/usr/bin/env python3
"""Extracts the options and the recorded commands (cmd.txt) of the scripts of /repo (as text, via ast) into rocq/theories/Model/Commands.v.
Usage: gen_cmd.py > Commands.v"""
import ast
import glob
import os


def files():
    return [f for f in sorted(glob.glob('/repo/scripts/*.py')+glob.glob('/repo/runs/*/*.py')) if "cmd = f'python" in open(f).read()]
def load(f):
    t=ast.parse(open(f).read())
    opts=[];alias={}
    lines=[]
    for n in t.body:
        if isinstance(n,ast.Expr) and isinstance(n.value,ast.Call) and ast.unparse(n.value.func)=='parser.add_argument':
            c=n.value; kw={k.arg:k.value for k in c.keywords}
            assert len(c.args)==1
            name=c.args[0].value; assert name.startswith('--')
            d=eval(ast.unparse(kw['default'])); ty=ast.unparse(kw['type'])
            assert set(kw)<= {'default','type','help'},kw
            opts.append((name[2:],ty,d,n.lineno))
        if isinstance(n,ast.Assign) and len(n.targets)==1 and isinstance(n.targets[0],ast.Name):
            v=n.value; x=n.targets[0].id
            if isinstance(v,ast.Attribute) and ast.unparse(v.value)=='args': alias[x]=('Arg',v.attr)
            elif isinstance(v,ast.IfExp) and ast.unparse(v).startswith('args.') and ast.unparse(v.orelse)=='None':
                assert ast.unparse(v.test)==ast.unparse(v.body)+' > 0'
                alias[x]=('Pos',v.body.attr)
            elif x=='n': alias['n']=('Count',)
    def expr(e):
        if isinstance(e,ast.Call) and ast.unparse(e.func)=='str': return expr(e.args[0])
        if isinstance(e,ast.Attribute) and ast.unparse(e.value)=='args': return ('Arg',e.attr)
        if isinstance(e,ast.Name):
            if e.id=='__file__': return ('File',)
            return alias[e.id]
        raise Exception(ast.dump(e))
    def text(e):
        if isinstance(e,ast.JoinedStr):
            r=[]
            for v in e.values:
                if isinstance(v,ast.Constant): r.append(('Lit',v.value))
                else: r.append(('Val',expr(v.value)))
            return r
        if isinstance(e,ast.Constant): return [('Lit',e.value)]
        if isinstance(e,ast.BinOp): return text(e.left)+text(e.right)
        return [('Val',expr(e))]
    def stm(n):
        if isinstance(n,ast.Assign) and ast.unparse(n.targets[0])=='cmd': lines.append(n.lineno); return text(n.value)
        if isinstance(n,ast.AugAssign) and ast.unparse(n.target)=='cmd': lines.append(n.end_lineno); return text(n.value)
        if isinstance(n,ast.If) and 'cmd' in [ast.unparse(x) for x in ast.walk(n) if isinstance(x,ast.Name)] and not '__main__' in ast.unparse(n.test):
            a=[y for m in n.body for y in stm(m)]; b=[y for m in n.orelse for y in stm(m)]
            c=n.test
            if isinstance(c.ops[0],ast.IsNot): return [('IfSome',expr(c.left),a,b)]
            assert isinstance(c.ops[0],ast.Gt) and ast.unparse(c.comparators[0])=='0'
            assert not b
            return [('IfPos',expr(c.left)[1],a)]
        return []
    body=t.body
    for n in t.body:
        if isinstance(n,ast.If) and '__main__' in ast.unparse(n.test) and 'cmd = ' in ast.unparse(n): body=n.body
    items=[y for m in body for y in stm(m)]
    single=[n.lineno for n in t.body if isinstance(n,ast.If) and ast.unparse(n.test)=='args.n_clusters == 1'
            and 'args.classifier_train = 0' in [ast.unparse(m) for m in n.body]]
    assert not [n for n in ast.walk(t) if isinstance(n,ast.Assign) and ast.unparse(n.targets[0]).startswith('args.')
                and ast.unparse(n)!='args.classifier_train = 0']
    return opts,items,(min(lines),max(lines)),single


def q(s):
    return '"%s"' % s.replace('"', '""')


def item(i):
    if i[0] == 'Lit':
        return 'Lit ' + q(i[1])
    if i[0] == 'Val':
        return 'Val ' + (i[1][0] if len(i[1]) == 1 else '(%s %s)' % (i[1][0], q(i[1][1])))
    if i[0] == 'IfSome':
        assert i[1][0] == 'Pos'
        return 'If %s %s %s' % (q(i[1][1]), items(i[2]), items(i[3]))
    return 'If %s %s []' % (q(i[1]), items(i[2]))


def items(l):
    return '[' + '; '.join(map(item, l)) + ']'


def default(ty, d):
    if isinstance(d, str):
        return '(DStr %s)' % q(d)
    if isinstance(d, float):
        return '(DFloat %s)' % q(repr(d))
    return '(DInt %s)' % (d if d >= 0 else '(%d)' % d)


TY = {'int': 'TInt', 'float': 'TFloat', 'str': 'TStr'}
print('(** Generated by tools/gen_cmd.py: the options of the scripts and the commands they record. *)')
print('From Coq Require Import String List ZArith.')
print('From Verif.Model Require Import Cmd.')
print('Import ListNotations.\nLocal Open Scope string_scope.\nLocal Open Scope Z_scope.\n')
names = []
for f in files():
    o, its, (a, b), single = load(f)
    rel = f[len('/repo/'):]
    name = 's_' + os.path.dirname(rel).split('/')[-1].lower().replace('hc_eilat_july_2018', 'hc') + '_' + os.path.basename(rel)[:-3].lower()
    names.append(name)
    ls = [l for _, _, _, l in o]
    print('(** %s:%d-%d (options), %s%d-%d (command). *)' % (rel, min(ls), max(ls), '%d-%d (one cluster), ' % (single[0], single[0] + 2) if single else '', a, b))
    print('Definition %s : script := Script %s' % (name, q(rel)))
    print('  [' + ';\n   '.join('Opt %s %s %s' % (q(n), TY[t], default(t, d)) for n, t, d, _ in o) + ']')
    print('  %s' % ('true' if single else 'false'))
    print('  [' + ';\n   '.join(map(item, its)) + '].\n')
print('(** All of them. *)')
print('Definition scripts : list script :=\n  [' + ';\n   '.join(names) + '].')
