#!/usr/bin/env python3
"""Extracts the message definitions of /repo/mavlink_utils/{HC,minimal}_dialect.xml (as text) into
rocq/theories/Model/XmlTable.v.  Usage: gen_xml.py > XmlTable.v"""
import re
import xml.etree.ElementTree as ET

def load(path):
    src = open(path).read()
    ends = [i + 1 for i, l in enumerate(src.split('\n')) if '</message>' in l]
    starts = [i + 1 for i, l in enumerate(src.split('\n')) if re.search(r'<message\s', l)]
    out = []
    for k, m in enumerate(ET.fromstring(src).find('messages')):
        fs = []
        for f in m:
            assert f.tag in ('field', 'description'), f.tag
            if f.tag == 'field':
                t, n = re.fullmatch(r'(\w+)(?:\[(\d+)\])?', f.get('type')).groups()
                fs.append((f.get('name'), t, int(n or 0)))
        out.append((int(m.get('id')), m.get('name'), fs, starts[k], ends[k]))
    assert len(starts) == len(ends) == len(out)
    return out

print('''(** The message definitions of the dialects: generated from the XML files by tools/gen_xml.py.
    Left out: descriptions, enumerations, and the attributes of fields other than name and type.
    mavlink_utils/HC_dialect.xml, mavlink_utils/minimal_dialect.xml. *)
From Coq Require Import String List NArith.
Import ListNotations.
Local Open Scope string_scope.

(** <field type="T[n]" name="...">: name, element type, number of elements (0 when the type has no brackets);
    mavlink_utils/HC_dialect.xml, e.g. line %d. *)
Record xfield := XF { xf_name : string; xf_type : string; xf_array : nat }.

(** <message id="..." name="..."> and its fields in the order of the file; mavlink_utils/HC_dialect.xml, e.g. line %d. *)
Record xmsg := XM { xm_id : N; xm_name : string; xm_fields : list xfield }.
''' % ((lambda s: (s + 2, s))(load('/repo/mavlink_utils/HC_dialect.xml')[0][3])))
for d, name in (('HC', 'hc_xml'), ('minimal', 'minimal_xml')):
    path = 'mavlink_utils/%s_dialect.xml' % d
    ms = load('/repo/' + path)
    print('(** <messages>; %s:%d-%d. *)' % (path, ms[0][3] - 1, ms[-1][4] + 1))
    print('Definition %s : list xmsg :=\n[' % name)
    rows = []
    for i, n, fs, a, b in ms:
        rows.append('  (* lines %d-%d *)\n  XM %d%%N "%s"\n     [%s]' % (a, b, i, n,
                    ';\n      '.join('XF "%s" "%s" %d' % f for f in fs)))
    print(';\n'.join(rows))
    print('].\n')
