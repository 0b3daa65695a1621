#!/usr/bin/env python3
"""Extracts the enumerations of /repo/mavlink_utils/{HC,minimal}_dialect.{py,xml} (as text) into
rocq/theories/Model/EnumTable.v.  Usage: gen_enums.py > EnumTable.v"""
import re
import xml.etree.ElementTree as ET

print('''(** The enumerations of the dialects: generated from the XML files and from the generated modules by tools/gen_enums.py.
    Left out: descriptions and the texts of parameters.
    mavlink_utils/HC_dialect.xml, mavlink_utils/minimal_dialect.xml, mavlink_utils/HC_dialect.py, mavlink_utils/minimal_dialect.py. *)
From Coq Require Import String List NArith.
Import ListNotations.
Local Open Scope string_scope.
Local Open Scope N_scope.

(** <entry value="..." name="..."> with the indices of its <param index="...">; mavlink_utils/HC_dialect.xml, e.g. line 7. *)
Record xentry := XE { xe_name : string; xe_value : option N; xe_params : list N }.
(** <enum name="..."> and its entries in the order of the file; mavlink_utils/HC_dialect.xml, e.g. line 5. *)
Record xenum := XEnum { xn_name : string; xn_entries : list xentry }.

(** A statement of the enums part of a module; mavlink_utils/HC_dialect.py, e.g. lines 270, 271, 272 and 765. *)
Inductive estmt :=
| SEnum (e : string)                    (* enums['e'] = {} *)
| SConst (n : string) (v : N)           (* n = v *)
| SEntry (e : string) (v : N) (n : string)   (* enums['e'][v] = EnumEntry('n', ...) *)
| SParam (e : string) (v i : N).        (* enums['e'][v].param[i] = ... *)
''')
for d, nm in (('HC', 'hc'), ('minimal', 'minimal')):
    path = 'mavlink_utils/%s_dialect.xml' % d
    src = open('/repo/' + path).read()
    root = ET.fromstring(src)
    ls = src.split('\n')
    a = [i + 1 for i, l in enumerate(ls) if '<enums>' in l]; b = [i + 1 for i, l in enumerate(ls) if '</enums>' in l]
    assert len(a) == len(b) == 1
    rows = []
    for e in root.find('enums'):
        assert e.tag == 'enum'
        ents = []
        for en in e:
            assert en.tag in ('entry', 'description')
            if en.tag == 'entry':
                v = en.get('value')
                assert v is None or re.fullmatch(r'\d+', v)
                ps = [int(p.get('index')) for p in en.findall('param')]
                ents.append('XE "%s" %s [%s]' % (en.get('name'), 'None' if v is None else '(Some %s)' % v, '; '.join(map(str, ps))))
        rows.append('  XEnum "%s"\n    [%s]' % (e.get('name'), ';\n     '.join(ents)))
    print('(** <enums>; %s:%d-%d. *)' % (path, a[0], b[0]))
    print('Definition %s_xml_enums : list xenum :=\n[' % nm); print(';\n'.join(rows)); print('].\n')

    path = 'mavlink_utils/%s_dialect.py' % d
    ls = open('/repo/' + path).read().split('\n')
    a, b = ls.index('enums = {}'), ls.index('# message IDs')
    out, names = [], []
    intext = False
    for i in range(a + 1, b):
        l = ls[i]
        if m := re.fullmatch(r"enums\['(\w+)'\] = \{\}", l): out.append('SEnum "%s"' % m[1])
        elif m := re.fullmatch(r"enums\['(\w+)'\]\[(\d+)\] = EnumEntry\('(\w+)', '''[^']*(?:'[^']+)*'''\)", l): out.append('SEntry "%s" %s "%s"' % (m[1], m[2], m[3]))
        elif m := re.fullmatch(r"enums\['(\w+)'\]\[(\d+)\]\.param\[(\d+)\] = '''[^']*(?:'[^']+)*'''", l): out.append('SParam "%s" %s %s' % (m[1], m[2], m[3]))
        elif m := re.fullmatch(r"(\w+) = (\d+) #.*", l): out.append('SConst "%s" %s' % (m[1], m[2])); names.append(m[1])
        else: assert re.fullmatch(r'\s*(#.*)?', l), (i + 1, l)
    # no other top-level statement binds one of the names
    for i, l in enumerate(ls):
        m = re.match(r'(?:class |def |import )?(\w+)', l)
        assert not (m and m[1] in names and not a < i < b), (i, l)
    print('(** The statements after enums = {}; %s:%d-%d. *)' % (path, a + 2, b))
    print('Definition %s_py_enums : list estmt :=\n[' % nm); print(';\n'.join('  ' + x for x in out)); print('].\n')
