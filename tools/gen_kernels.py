"""Transcribe the kernel expressions of the .pyx files into Coq definitions.

For every function the local assignments `var = f(..)|fp(..)|fpp(..)|integral_xx(..)`, the
attribute reads `var = obj.attr`, the laminate reads and the triplets
`kr[c] = row+d; kc[c] = col+e; kv[c] += expr` are copied in order of appearance.
"""
import re

REPO = '/repo/panels/'
OUT = '/verif/rocq/theories/'

ATTR = {'a': 'sh_a', 'b': 'sh_b', 'r': 'sh_r', 'm': 'sh_m', 'n': 'sh_n',
        'beta': 'sh_beta', 'gamma': 'sh_gamma'}


def num(s):
    """Coq text for a numeric literal"""
    if '.' not in s:
        return s
    ip, fp = s.split('.')
    fp = fp.rstrip('0')
    if fp == '':
        return str(int(ip))
    m = int((ip + fp))
    d = 10**len(fp)
    from math import gcd
    if len(fp) <= 3:
        g = gcd(m, d)
        m //= g
        d //= g
    return '(%d/%d)' % (m, d)


def expr(e, rename=None):
    """translate a Python/Cython arithmetic expression to Coq (R_scope)"""
    rename = rename or {}
    out = []
    pos = 0
    tok = re.compile(r'\s*(?:(cs\[col\+([0-9])\])|([0-9]+\.?[0-9]*)|([A-Za-z_]\w*)|(\*\*|[-+*/()]))')
    while pos < len(e):
        if e[pos:].strip() == '':
            break
        m = tok.match(e, pos)
        assert m, (e, e[pos:])
        pos = m.end()
        if m.group(1):
            out.append('cs (col + %s)%%nat' % m.group(2))
        elif m.group(3):
            out.append(num(m.group(3)))
        elif m.group(4):
            out.append(rename.get(m.group(4), m.group(4)))
        else:
            out.append('^' if m.group(5) == '**' else m.group(5))
    s = ''
    for t in out:
        if t in '+-' and s and not s.endswith('('):
            s += ' %s ' % t
        else:
            s += t
    s = s.replace('*', ' * ').replace('/', ' / ') if False else s
    return s


def body(path, name):
    lines = open(REPO + path).read().split('\n')
    st = [i for i, l in enumerate(lines) if re.match(r'def %s\(' % name, l)][0]
    en = len(lines)
    for i in range(st + 1, len(lines)):
        if re.match(r'(def|cdef) ', lines[i]):
            en = i
            break
    while lines[en - 1].strip() == '':
        en -= 1
    # drop docstring
    txt = lines[st:en]
    keep = []
    indoc = False
    for i, l in enumerate(txt):
        if l.strip().startswith(('r"""', '"""')):
            if l.count('"""') == 1:
                indoc = not indoc
            continue
        if indoc:
            continue
        if keep and keep[-1][1].split('#')[0].count('(') > keep[-1][1].split('#')[0].count(')'):
            keep[-1] = (keep[-1][0], keep[-1][1].split('#')[0].rstrip() + ' ' + l.strip())
            continue
        keep.append((st + i + 1, l))
    return st + 1, en, keep


def wrap(s, n=110, ind='      '):
    out = []
    cur = ''
    for w in re.split(r'(?<=[-+*/ ])', s):
        if len(cur) + len(w) > n:
            out.append(cur)
            cur = ind
        cur += w
    out.append(cur)
    return '\n'.join(out)


def kernel(path, name, coqname, params, given=None):
    """params: list of (coq binder text).  Returns text of the _ker definition and loop info."""
    l0, l1, lines = body(path, name)
    attr = dict(given or {})      # var -> (obj, attr)
    lets = []
    trip = []
    loops = []
    cur = {}
    skip = False
    for no, l in lines:
        code = l.split('#')[0].rstrip()
        if not code.strip() or code.strip().startswith('cdef'):
            continue
        if re.match(r'\s*if row > col:', code):
            skip = True
            skipline = no
            continue
        m = re.match(r'\s*for (\w+) in range\((\w+)\):', code)
        if m:
            loops.append((m.group(1), m.group(2), no))
            continue
        found = False
        for part in code.split(';'):
            part = part.strip()
            m = re.fullmatch(r'(\w+) = (shell|p1|p2|p|s)\.(\w+)', part)
            if m:
                attr[m.group(1)] = (m.group(2), m.group(3))
                found = True
        if found:
            continue
        st = code.strip()
        m = re.fullmatch(r'([ABD][126][126]) = F\[([0-9])(?:\*6 \+ |,\s*)([0-9])\]', st)
        if m:
            lets.append('let %s := F %s%%nat %s%%nat in' % m.groups())
            continue
        m = re.fullmatch(r'(\w+) = (f|fp|fpp)\((\w+),\s*(-1\.|[-\w]+),\s*(\w+),\s*(\w+),\s*(\w+),\s*(\w+)\)', st)
        if m:
            v, fn, idx, x = m.groups()[:4]
            lets.append('let %s := b%s Bs %s %s %s in' % (v, fn, idx, x if x not in ('-1', '-1.') else '(-1)', edge(m.groups()[4:8], attr)))
            continue
        m = re.fullmatch(r'(\w+) = integral_(\w+)\((\w+),\s*(\w+),\s*([\w, ]+)\)', st)
        if m:
            v, fn, i1, i2, fl = m.groups()
            fl = [q.strip() for q in fl.split(',')]
            assert len(fl) == 8, st
            lets.append('let %s := t_%s T %s %s %s %s in' % (v, fn, i1, i2, edge(fl[:4], attr), edge(fl[4:], attr)))
            continue
        m = re.fullmatch(r'(\w+) = (2\*\w+/\w+ - 1\.?)', st)
        if m:
            lets.append('let %s := %s in' % (m.group(1), expr(m.group(2))))
            continue
        m = re.fullmatch(r'\w+r\[c\] = row\+([0-9])', st)
        if m:
            cur['d'] = m.group(1)
            continue
        m = re.fullmatch(r'\w+c\[c\] = col\+([0-9])', st)
        if m:
            cur['e'] = m.group(1)
            continue
        m = re.fullmatch(r'\w+v\[c\] \+= (.*)', st)
        if m:
            trip.append((cur['d'], cur['e'], expr(m.group(1)), no))
            cur = {}
            continue
    # only last four loops are the i/k/j/l nest
    nest = loops[-4:]
    order = ''.join(v[0][0] for v in nest)
    assert order in ('ikjl', 'jlik'), (name, order, loops)
    names = {v[0][0]: v[0] for v in nest}
    used = ' '.join(lets) + ' '.join(t[2] for t in trip)
    heads = []
    for v, (o, at) in attr.items():
        if at in ATTR and at not in ('m', 'n') and re.search(r'\b%s\b' % v, used):
            heads.append('let %s := %s %s in' % (v, ATTR[at], o))
    lets = dedup(lets)
    # drop unused lets
    lets2 = []
    for k, L in enumerate(lets):
        v = L.split()[1]
        rest = ' '.join(x.split(':=', 1)[1] for x in lets[k + 1:]) + ' ' + ' '.join(t[2] for t in trip)
        if re.search(r'\b%s\b' % re.escape(v), rest):
            lets2.append(L)
    out = '(* %s:%d-%d, loop nest %s, innermost block; triplets at lines %s *)\n' % (
        '/repo/panels/' + path, l0, l1, order, ', '.join(str(t[3]) for t in trip))
    out += 'Definition %s_ker %s (%s %s %s %s : nat) : block :=\n' % (
        coqname, ' '.join(params), names['i'], names['k'], names['j'], names['l'])
    for L in heads + lets2:
        out += '  %s\n' % L
    out += '  [ ' + ';\n    '.join(wrap('(%s%%nat, %s%%nat, %s)' % (t[0], t[1], t[2])) for t in trip) + ' ].\n\n'
    return out, order, skip


def dedup(lets):
    """repeated identical assignments (same variable, same right-hand side): keep the last"""
    out = []
    for k, L in enumerate(lets):
        v = L.split()[1]
        later = [x for x in lets[k + 1:] if x.split()[1] == v]
        if later:
            assert later[-1] == L, (L, later)
            continue
        out.append(L)
    return out


STR = ['exx', 'eyy', 'gxy', 'kxx', 'kyy', 'kxy']


def strain_fint(path, name, cname):
    """strain accumulation terms (and internal force terms) of fkG_num / calc_fint"""
    l0, l1, lines = body(path, name)
    attr = {}
    lets = []
    terms = {}
    res = {}
    fint = []
    for no, l in lines:
        code = l.split('#')[0].rstrip()
        if not code.strip() or code.strip().startswith('cdef'):
            continue
        found = False
        for part in code.split(';'):
            m = re.fullmatch(r'(\w+) = (shell|s)\.(\w+)', part.strip())
            if m:
                attr[m.group(1)] = ('s', m.group(3))
                found = True
        if found:
            continue
        st = code.strip()
        m = re.fullmatch(r'(\w+) = (f|fp|fpp)\((\w+),\s*(-1\.|[-\w]+),\s*(\w+),\s*(\w+),\s*(\w+),\s*(\w+)\)', st)
        if m:
            v, fn, idx, x = m.groups()[:4]
            lets.append('let %s := b%s Bs %s %s %s in' % (v, fn, idx, x, edge(m.groups()[4:8], attr)))
            continue
        m = re.fullmatch(r'(wxi|weta|exx|eyy|gxy|kxx|kyy|kxy) \+= (.*)', st)
        if m:
            terms[m.group(1)] = (expr(m.group(2)), no)
            continue
        m = re.fullmatch(r'([NM](?:xx|yy|xy)) = (.*)', st)
        if m:
            res[m.group(1)] = (expr(m.group(2)), no)
            continue
        m = re.fullmatch(r'fint\[col\+([0-9])\] \+= (.*)', st)
        if m:
            fint.append((m.group(1), expr(m.group(2)), no))
    lets = dedup(lets)

    def pick(e):
        o = ''
        for v in ['a', 'b', 'r']:
            if re.search(r'\b%s\b' % v, e):
                o += '  let %s := sh_%s s in\n' % (v, v)
        for L in lets:
            if re.search(r'\b%s\b' % L.split()[1], e):
                o += '  ' + L + '\n'
        return o
    C = '/repo/panels/' + path
    o = ''
    for w in ['wxi', 'weta']:
        e, no = terms[w]
        o += '(* %s:%d *)\nDefinition %s_%s_term (Bs : basis) (s : shell) (cs : nat -> R) (col0 : nat) (xi eta : R) (i j : nat) : R :=\n' % (C, no, cname, w)
        o += '  let col := dofpos col0 (sh_m s) i j in\n' + pick(e) + '  ' + wrap(e) + '.\n'
    for w in STR:
        e, no = terms[w]
        o += '(* %s:%d *)\nDefinition %s_%s_term (Bs : basis) (s : shell) (cs : nat -> R) (col0 : nat) (xi eta wxi weta : R) (i j : nat) : R :=\n' % (C, no, cname, w)
        o += '  let col := dofpos col0 (sh_m s) i j in\n' + pick(e) + '  ' + wrap(e) + '.\n'
    for w in res:
        e, no = res[w]
        par = '(Nxx0 Nyy0 Nxy0 : R) ' if 'xx0' in ' '.join(x[0] for x in res.values()) else ''
        o += '(* %s:%d *)\nDefinition %s_%s %s(F : nat -> nat -> R) (exx eyy gxy kxx kyy kxy : R) : R :=\n' % (C, no, cname, w, par)
        for q in re.findall(r'[ABD][126][126]', e):
            i0 = {'1': 0, '2': 1, '6': 2}
            blk = {'A': (0, 0), 'B': (0, 3), 'D': (3, 3)}[q[0]]
            o += '  let %s := F %d%%nat %d%%nat in\n' % (q, blk[0] + i0[q[1]], blk[1] + i0[q[2]])
        o += '  ' + wrap(e) + '.\n'
    if fint:
        o += '(* %s:%s *)\nDefinition %s_ker (Bs : basis) (s : shell) (xi eta weight intx inty wxi weta Nxx Nyy Nxy Mxx Myy Mxy : R) (i j : nat) : list (nat * R) :=\n' % (C, ', '.join(str(x[2]) for x in fint), cname)
        o += pick(' '.join(x[1] for x in fint))
        o += '  [ ' + ';\n    '.join(wrap('(%s%%nat, %s)' % (x[0], x[1])) for x in fint) + ' ].\n'
    return o + '\n'


def edge(fl, attr):
    g = [attr.get(f) for f in fl]
    assert all(g), (fl, attr)
    o = g[0][0]
    at = [x[1] for x in g]
    m = re.fullmatch(r'([xy])1([uvw])', at[0])
    if m and all(x[0] == o for x in g):
        d, c = m.groups()
        if at == [d + '1' + c, d + '1' + c + 'r', d + '2' + c, d + '2' + c + 'r']:
            return '(sh_%s%s %s)' % (d, c, o)
    def one(x):
        m = re.fullmatch(r'([xy])([12])([uvw])(r?)', x[1])
        return '(e%s%s (sh_%s%s %s))' % (m.group(2), 'r' if m.group(4) else 't', m.group(1), m.group(3), x[0])
    print('NOTE irregular flags', fl, g)
    return '(mkEdge %s)' % ' '.join(one(x) for x in g)


HEAD = '''(* GENERATED by tools/gen_kernels.py: expressions transcribed from the cited .pyx lines.
   Decimals are written as fractions; double arithmetic is modelled by real arithmetic. *)
From Coq Require Import Reals List.
From Verif Require Import Base_Sum Model_Types Model_Coo.
Import ListNotations.
Open Scope R_scope.

'''

S = '(s : shell)'


def rn(t):
    """rename the shell object to s"""
    return re.sub(r'(sh_\w+) shell\b', r'\1 s', t)


def ana(path, out, which, pre):
    o = HEAD
    for name, par in which:
        cname = pre + name
        t, order, skip = kernel(path, name, cname, par)
        assert skip and order == 'ikjl'
        o += rn(t)
        args = ' '.join(re.findall(r'\((\w+(?: \w+)*) :', ' '.join(par)))
        o += '(* the assembled coo_matrix (row0, col0 as passed by the caller) *)\n'
        o += 'Definition %s %s (row0 col0 : nat) : coo :=\n  loop_ikjl true row0 col0 (sh_m s) (sh_n s) (sh_m s) (sh_n s) (%s_ker %s).\n\n' % (
            cname, ' '.join(par), cname, args)
    open(OUT + out, 'w').write(o)


def num_(path, out, which, pre):
    o = HEAD
    for name, par in which:
        t, order, skip = kernel(path, name, pre + name, par)
        assert skip
        o += rn(t)
    for name in ['fkG_num', 'calc_fint']:
        o += strain_fint(path, name, pre + name)
    open(OUT + out, 'w').write(o)


T = '(T : tables)'
B = '(Bs : basis)'
F = '(F : nat -> nat -> R)'


def main():
    NN = '(Nxx Nyy Nxy : R)'
    A = [('fk0', [T, S, F]), ('fkG0', [T, S, NN]), ('fkM', [T, S, '(rho h d : R)']),
         ('fkAx', [T, S, '(beta gamma : R)']), ('fkAy', [T, S, '(beta : R)']), ('fcA', [T, S, '(aeromu : R)'])]
    for pre, fn in [('Plate', 'plate'), ('Cyl', 'cylshell')]:
        path = 'models/%s_clpt_donnell_bardell.pyx' % fn
        ana(path, 'Model_%sAna.v' % pre, A, pre.lower() + '_')
        path = 'models/%s_clpt_donnell_bardell_num.pyx' % fn
        PT = '(xi eta weight intx inty : R)'
        N = [('fkC_num', [B, S, F, PT, '(wxi weta : R)']), ('fkG_num', [B, S, PT, NN])]
        if pre == 'Plate':
            N += [('fkM_num', [B, S, PT, '(h rho d : R)']), ('fkAx_num', [B, S, PT]), ('fkAy_num', [B, S, PT])]
        else:
            N += [('fkAx_num', [B, S, PT])]
        num_(path, 'Model_%sNumKer.v' % pre, N, pre.lower() + '_')
    # connections
    o = HEAD
    for ty, cte in [('SSycte', 'ycte'), ('SSxcte', 'xcte'), ('BFycte', 'ycte'), ('BFxcte', 'xcte')]:
        path = 'multidomain/connections/kC%s.pyx' % ty
        K = '(kt kr : R)'
        for blk, par, mn in [
                ('11', [T, B, K, '(p1 : shell)', '(%s1 : R)' % cte], 'p1 p1'),
                ('12', [T, B, K, '(p1 p2 : shell)', '(%s1 %s2 : R)' % (cte, cte)], 'p1 p2'),
                ('22', [T, B, K, '(p1 p2 : shell)', '(%s2 : R)' % cte], 'p2 p2')]:
            name = 'fkC%s%s' % (ty, blk)
            o += conn(path, name, par, mn)
    path = 'multidomain/connections/kCSB.pyx'
    for blk, par, mn in [('11', [T, '(kt dsb : R)', '(p1 : shell)'], 'p1 p1'),
                         ('12', [T, '(kt dsb : R)', '(p1 p2 : shell)'], 'p1 p2'),
                         ('22', [T, '(kt : R)', '(p1 p2 : shell)'], 'p2 p2')]:
        o += conn(path, 'fkCSB%s' % blk, par, mn)
    open(OUT + 'Model_Conn.v', 'w').write(o)
    # stiffeners: the flags, a, b, m and n are arguments, taken from the bay s and the flange q
    flags = [d + e + c + r for d in 'xy' for e in '12' for c in 'uvw' for r in ('', 'r')]
    g1 = {k: ('s', k) for k in flags + ['a', 'b']}
    g2 = dict(g1)
    g2.update({k + 'f': ('q', k) for k in flags})
    o = HEAD
    path = 'stiffener/models/bladestiff1d_clt_donnell_bardell.pyx'
    o += conn(path, 'fkCf', [T, B, S, '(ys bf df E1 F1 S1 Jxx : R)'], 's s', given=g1)
    o += conn(path, 'fkGf', [T, B, S, '(ys Fx : R)'], 's s', given=g1)
    o += conn(path, 'fkMf', [T, B, S, '(ys rho h hb hf bf df : R)'], 's s', given=g1)
    path = 'stiffener/models/bladestiff2d_clt_donnell_bardell.pyx'
    o += conn(path, 'fkCss', [T, B, '(kt kr : R)', S, '(ys : R)'], 's s', given=g2)
    o += conn(path, 'fkCsf', [T, B, '(kt kr : R)', '(s q : shell)', '(ys bf : R)'], 's q', given=g2)
    o += conn(path, 'fkCff', [T, B, '(kt kr a bf : R)', '(q : shell)'], 'q q', given={k: v for k, v in g2.items() if k not in 'ab'})
    # bf is the width of the flange there, and the basis functions here
    o = re.sub(r'\bbf\b(?! Bs)', 'bfl', o)
    open(OUT + 'Model_StiffKer.v', 'w').write(o)


def conn(path, name, par, mn, coqname=None, given=None):
    t, order, skip = kernel(path, name, coqname or name, par, given)
    pa, pb = mn.split()
    args = ' '.join(re.findall(r'\((\w+(?: \w+)*) :', ' '.join(par)))
    o = t
    o += 'Definition %s %s (row0 col0 : nat) : coo :=\n  loop_%s %s row0 col0 (sh_m %s) (sh_n %s) (sh_m %s) (sh_n %s) (%s_ker %s).\n\n' % (
        name, ' '.join(par), order, 'true' if skip else 'false', pa, pa, pb, pb, name, args)
    return o


if __name__ == '__main__':
    main()
