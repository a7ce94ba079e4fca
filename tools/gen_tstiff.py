"""Boundary flags of the fifteen panels of the T-stiffener drivers, read from /repo as text.
The flag x1u of the loaded edge depends on run_static_case (compression) and is written `e`."""
import re, sys
SRC = '/repo/panels/multidomain/tstiff2d_1stiff_compression.py'
text = open(SRC).read()
flags = {}
for p, name, val in re.findall(r'\bp(\d\d)\.([xy][12][uvw]r?) = (\d)', text):
    flags.setdefault((p, name), []).append(val)
def val(p, name):
    v = flags[(p, name)]
    if len(set(v)) == 1:
        return v[0]
    assert v == ['1', '0']
    return 'e'
def edge(p, s, d):
    return 'mkEdge %s %s %s %s' % (val(p, s + '1' + d), val(p, s + '1' + d + 'r'), val(p, s + '2' + d), val(p, s + '2' + d + 'r'))
for i in range(1, 16):
    p = '%02d' % i
    es = [edge(p, s, d) for s in 'xy' for d in 'uvw']
    sys.stdout.write('  | %d%%nat => with_edges p (%s)\n' % (i, ') ('.join(es)))
for other in ('freq', 'flutter'):
    t = open(SRC.replace('compression', other)).read()
    f2 = {}
    for p, name, v in re.findall(r'\bp(\d\d)\.([xy][12][uvw]r?) = (\d)', t):
        f2.setdefault((p, name), []).append(v)
    for k in flags:
        want = '1' if val(*k) == 'e' else val(*k)
        if f2[k] != [want]:
            sys.stderr.write('%s differs at %s: %s %s\n' % (other, k, f2[k], want))
