#!/usr/bin/env python3
"""Extracts the message table of /repo/mavlink_utils/HC_dialect.py (as text, via ast) into
rocq/theories/Model/Dialect.v.  Usage: gen_dialect.py > Dialect.v, gen_dialect.py minimal > MinimalTable.v"""
import ast, sys
MINIMAL = 'minimal' in sys.argv
NAME = 'mavlink_utils/minimal_dialect.py' if MINIMAL else 'mavlink_utils/HC_dialect.py'
SRC = '/repo/' + NAME
tree = ast.parse(open(SRC).read())
ids, classes, order = {}, {}, []
maplines = None
for n in tree.body:
    if isinstance(n, ast.Assign) and isinstance(n.targets[0], ast.Name):
        nm = n.targets[0].id
        if nm.startswith('MAVLINK_MSG_ID_'):
            ids[nm] = ast.literal_eval(n.value)
        if nm == 'mavlink_map':
            order = [(k.id, v.id) for k, v in zip(n.value.keys, n.value.values)]
            maplines = (n.lineno, n.end_lineno)
    if isinstance(n, ast.ClassDef) and n.name.startswith('MAVLink_') and n.name.endswith('_message') \
            and n.name != 'MAVLink_message':
        d = {'line': n.lineno, 'end': n.end_lineno}
        for s in n.body:
            if isinstance(s, ast.Assign):
                t = s.targets[0].id
                try:
                    d[t] = ast.literal_eval(s.value)
                except Exception:
                    if t == 'id':
                        d[t] = ids[s.value.id]
                    elif t == 'unpacker':
                        d[t] = s.value.args[0].value
            if isinstance(s, ast.FunctionDef) and s.name == 'pack':
                call = s.body[0].value
                d['pack_extra'] = call.args[2].value
                d['pack_fmt'] = call.args[3].args[0].value
        classes[n.name] = d

def sl(l): return "[" + "; ".join('"%s"' % x for x in l) + "]"
def nl(l): return "[" + "; ".join(str(x) for x in l) + "]%nat"
if MINIMAL:
    print("(** GENERATED by tools/gen_dialect.py from /repo/mavlink_utils/minimal_dialect.py.  Do not edit by hand. *)")
    print("From Coq Require Import List NArith String.\nFrom Verif.Model Require Import Dialect.\nImport ListNotations.\nLocal Open Scope string_scope.\n")
else:
    print("(** GENERATED by tools/gen_dialect.py from /repo/mavlink_utils/HC_dialect.py.  Do not edit by hand. *)")
    print("From Coq Require Import List NArith String.\nImport ListNotations.\nLocal Open Scope string_scope.\n")
    print("""(** Class attributes of one generated message class; mavlink_utils/HC_dialect.py:2189-8390.
    [mc_key] is the key under which the class is stored in mavlink_map (8392-8548); [mc_unpacker] is the format of the
    class' struct.Struct; [mc_pack_extra]/[mc_pack_fmt] are the literals used by the class' own pack method.
    Left out: docstrings, fielddisplays_by_name, fieldenums_by_name, fieldunits_by_name, instance offsets,
    native_format (a bytearray with the same letters as format). *)
Record msg_class := MC {
  mc_key : N;
  mc_id : N;
  mc_name : string;
  mc_fieldnames : list string;
  mc_ordered : list string;
  mc_fieldtypes : list string;
  mc_format : string;
  mc_orders : list nat;
  mc_lengths : list nat;
  mc_array_lengths : list nat;
  mc_crc_extra : N;
  mc_unpacker : string;
  mc_pack_extra : N;
  mc_pack_fmt : string
}.
""")
print("(** The values of [mavlink_map], in insertion order; %s:%d-%d. *)" % (NAME, *maplines))
print("Definition " + ("minimal_classes" if MINIMAL else "mavlink_classes") + " : list msg_class :=\n[")
rows = []
for k, c in order:
    d = classes[c]
    rows.append("  (* %s, lines %d-%d *)\n  MC %d%%N %d%%N \"%s\"\n     %s\n     %s\n     %s\n     \"%s\" %s %s %s %d%%N \"%s\" %d%%N \"%s\"" % (
        c, d['line'], d['end'], ids[k], d['id'], d['name'], sl(d['fieldnames']), sl(d['ordered_fieldnames']),
        sl(d['fieldtypes']), d['format'], nl(d['orders']), nl(d['lengths']), nl(d['array_lengths']),
        d['crc_extra'], d['unpacker'], d['pack_extra'], d['pack_fmt']))
print(";\n".join(rows))
print("].")
