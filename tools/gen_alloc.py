"""Writes rocq/theories/Model_Alloc.v: the lengths of the arrays allocated by the assembly kernels
(`fdim = ...` in the .pyx files of /repo), one definition per kernel."""
import re, os, sys
R = '/repo/panels/'
FILES = [('models/plate_clpt_donnell_bardell.pyx', 'plate_'), ('models/cylshell_clpt_donnell_bardell.pyx', 'cyl_'),
         ('models/plate_clpt_donnell_bardell_num.pyx', 'plate_'), ('models/cylshell_clpt_donnell_bardell_num.pyx', 'cyl_'),
         ('stiffener/models/bladestiff1d_clt_donnell_bardell.pyx', ''), ('stiffener/models/bladestiff2d_clt_donnell_bardell.pyx', '')] + \
        [('multidomain/connections/%s.pyx' % k, '') for k in ('kCSSxcte', 'kCSSycte', 'kCBFxcte', 'kCBFycte', 'kCSB', 'kCpd')]
out = []
for f, pre in FILES:
    name = None
    for no, l in enumerate(open(R + f), 1):
        m = re.match(r'def (\w+)\(', l)
        if m: name = m.group(1)
        m = re.match(r'\s+fdim = (\d+)((?:\*[mn]\d?)+)', l)
        if m:
            vs = m.group(2)[1:].split('*')
            params = sorted(set(vs), key=lambda v: (v[1:], v[0]))
            out.append('(* /repo/panels/%s:%d *)\nDefinition fdim_%s%s (%s : nat) : nat := (%s * %s)%%nat.' % (f, no, pre, name, ' '.join(params), m.group(1), ' * '.join(vs)))
p = os.path.join(os.path.dirname(os.path.abspath(__file__)), '..', 'rocq', 'theories', 'Model_Alloc.v')
open(p, 'w').write('''(* GENERATED by tools/gen_alloc.py: the lengths of the arrays of rows, columns and values that the
   assembly kernels allocate (np.zeros((fdim,), ...)). Definitions only. *)
From Coq Require Import Arith.

''' + '\n'.join(out) + '\n')
print(len(out))
