#!/usr/bin/env python3
"""Extracts the generated constructors, pack methods and *_encode/*_send methods of /repo/mavlink_utils/HC_dialect.py (as text, via ast)
into rocq/theories/Model/ApiTable.v.  Usage: gen_api.py > ApiTable.v"""
import ast
SRC = '/repo/mavlink_utils/HC_dialect.py'
tree = ast.parse(open(SRC).read())
q = lambda s: '"%s"' % s
lst = lambda l: '[' + '; '.join(l) + ']'
name = lambda e: e.id if isinstance(e, ast.Name) else e.attr


def params(f, drop):
    a = f.args
    assert not (a.vararg or a.kwarg or a.kwonlyargs or a.posonlyargs)
    ns = [x.arg for x in a.args]
    defaults = [ast.literal_eval(d) for d in a.defaults]
    for d in drop:                                     # trailing parameter force_mavlink1=False
        assert ns[-1] == d and defaults[-1] is False
        ns, defaults = ns[:-1], defaults[:-1]
    assert ns[0] == 'self'
    return ns[1:], defaults


def attr(e):
    if isinstance(e, ast.Subscript):
        assert e.value.value.id == 'self'
        return '(%s, Some %d)' % (q(e.value.attr), ast.literal_eval(e.slice))
    assert e.value.id == 'self'
    return '(%s, None)' % q(e.attr)


classes, encs, sends, order, span = {}, [], [], [], []
for n in tree.body:
    if isinstance(n, ast.Assign) and getattr(n.targets[0], 'id', '') == 'mavlink_map':
        order = [v.id for v in n.value.values]
    if not isinstance(n, ast.ClassDef):
        continue
    fs = {s.name: s for s in n.body if isinstance(s, ast.FunctionDef)}
    if n.name.startswith('MAVLink_') and n.name.endswith('_message') and n.name != 'MAVLink_message':
        init, pack = fs['__init__'], fs['pack']
        ps, ds = params(init, [])
        assert not ds
        sup = init.body[0].value
        assert ast.unparse(sup) == 'MAVLink_message.__init__(self, %s.id, %s.name)' % (n.name, n.name)
        assert ast.unparse(init.body[1]) == 'self._fieldnames = %s.fieldnames' % n.name
        for s, a in ((init.body[2], 'instance_field'), (init.body[3], 'instance_offset')):
            assert ast.unparse(s) == 'self._%s = %s.%s' % (a, n.name, a)
        sets = []
        for s in init.body[4:]:
            assert len(s.targets) == 1 and s.targets[0].value.id == 'self'
            sets.append('(%s, %s)' % (q(s.targets[0].attr), q(s.value.id)))
        assert len(pack.body) == 1
        call = pack.body[0].value
        assert ast.unparse(call.func) == 'MAVLink_message.pack' and ast.unparse(call.args[3].func) == 'struct.pack'
        packs = [attr(a) for a in call.args[3].args[1:]]
        classes[n.name] = (n.lineno, n.end_lineno, ps, sets, packs)
    if n.name == 'MAVLink':
        for f in fs.values():
            ret = f.body[-1].value if isinstance(f.body[-1], ast.Return) else None
            if f.name.endswith('_encode'):
                ps, ds = params(f, [])
                assert len(f.body) == 2 and not ret.keywords
                encs.append((f.name, ps, ds, ret.func.id, [a.id for a in ret.args]))
                span += [f.lineno, f.end_lineno]
            elif f.name.endswith('_send') and len(f.body) == 2:
                ps, ds = params(f, ['force_mavlink1'])
                assert ast.unparse(ret.func) == 'self.send' and ast.unparse(ret.keywords[0]) == 'force_mavlink1=force_mavlink1'
                inner = ret.args[0]
                assert inner.func.value.id == 'self' and not inner.keywords
                sends.append((f.name, ps, ds, inner.func.attr, [a.id for a in inner.args]))
                span += [f.lineno, f.end_lineno]
print("""(** GENERATED by tools/gen_api.py from /repo/mavlink_utils/HC_dialect.py.  Do not edit by hand. *)
From Coq Require Import List ZArith String.
Import ListNotations.
Local Open Scope string_scope.

(** The generated methods of a message class: the parameters of __init__, the assignments self.attribute = parameter, and the arguments that
    pack hands to struct.pack, self.attribute or self.attribute[i]; mavlink_utils/HC_dialect.py:2189-8390, in the order of mavlink_map. *)
Record ctor := Ctor { k_name : string; k_params : list string; k_sets : list (string * string); k_packs : list (string * option nat) }.

(** A generated method of class MAVLink that calls another one: its parameters, the defaults of the last ones, what is called, with which
    arguments; mavlink_utils/HC_dialect.py:%d-%d.  Left out: the parameter force_mavlink1 of the _send methods, which is passed on. *)
Record method := Method { h_name : string; h_params : list string; h_defaults : list Z; h_calls : string; h_args : list string }.
""" % (min(span), max(span)))
print("(** The constructors and pack methods; mavlink_utils/HC_dialect.py:2189-8390. *)\nDefinition ctors : list ctor :=\n[")
print(";\n".join("  (* lines %d-%d *)\n  Ctor %s\n    %s\n    %s\n    %s" % (classes[c][0], classes[c][1], q(c), lst(map(q, classes[c][2])), lst(classes[c][3]), lst(classes[c][4])) for c in order))
print("].\n")
for nm, rows in (('encodes', encs), ('sends', sends)):
    print("(** The *_%s methods; mavlink_utils/HC_dialect.py:%d-%d. *)\nDefinition %s : list method :=\n[" % (nm[:-1], min(span), max(span), nm))
    print(";\n".join("  Method %s %s [%s]%%Z %s %s" % (q(a), lst(map(q, b)), '; '.join(map(str, c)), q(d), lst(map(q, e))) for a, b, c, d, e in rows))
    print("].\n")
