"""Registers a property: python3 tools/reg.py file.json with id, title, statement, quantifier, why, anchors, design (two cells), modelled (three cells or null), files."""
import json, sys
d = json.load(open(sys.argv[1]))
root = __file__.rsplit('/', 2)[0]
p = root + '/tools/props.py'; s = open(p).read()
if 'P("%s"' % d['id'] not in s:
    new = 'P(%s, %s,\n  %s,\n  %s, %s, %s)\n' % tuple(json.dumps(d[k], ensure_ascii=False) for k in ('id', 'title', 'statement', 'quantifier', 'why', 'anchors'))
    s = s.replace('if __name__ == "__main__":', new + 'if __name__ == "__main__":'); open(p, 'w').write(s)
p = root + '/DESIGN.md'; s = open(p).read()
prev = '| C%02d |' % (int(d['id'][1:]) - 1)
if '| %s |' % d['id'] not in s:
    i = s.index('\n', s.index(prev)); s = s[:i] + '\n| %s | %s | %s |' % (d['id'], *d['design']) + s[i:]
if d.get('modelled'):
    row = '| %s | %s | %s |' % tuple(d['modelled'])
    if row not in s:
        i = s.index('\n', s.index(d['after'])); s = s[:i] + '\n' + row + s[i:]
open(p, 'w').write(s)
p = root + '/rocq/_CoqProject'; s = open(p).read().rstrip('\n') + '\n'
for f in d['files']:
    if 'theories/%s.v\n' % f not in s: s += 'theories/%s.v\n' % f
open(p, 'w').write(s)
