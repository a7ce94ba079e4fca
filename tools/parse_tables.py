"""Parse the C++ tables of /repo/panels/core/src into exact rationals.

Used by gen_tables.py to write the generated Coq data modules, and usable on
its own for exploration.  Reads /repo as text only.
"""
import re
from fractions import Fraction as F

SRC = '/repo/panels/core/src/'

LIT = r'[0-9]+\.?[0-9]*(?:e[+-]?[0-9]+)?'


def dec(s):
    """decimal literal -> (mantissa, exponent) with value mantissa/10**exponent"""
    s = s.strip()
    sign = 1
    if s[0] in '+-':
        if s[0] == '-':
            sign = -1
        s = s[1:]
    e = 0
    if 'e' in s:
        s, ee = s.split('e')
        e = int(ee)
    if '.' in s:
        ip, fp = s.split('.')
    else:
        ip, fp = s, ''
    m = int((ip + fp) or '0')
    d = len(fp) - e
    if d < 0:
        m *= 10**(-d)
        d = 0
    return sign*m, d


def val(p):
    return F(p[0], 10**p[1])


def parse_poly(s):
    """sum of  lit*pow(xi, k) | lit*xi | lit | pow(xi,k) | xi terms -> [(k, (m,d))]"""
    s = s.replace(' ', '').replace('pow(xi,', 'P(')
    terms = re.findall(r'[+-]?(?:[0-9.]+(?:e[+-]?[0-9]+)?\*?)?(?:P\([0-9]+\)|xi)?', s)
    terms = [t for t in terms if t]
    assert ''.join(terms) == s, (s, terms)
    out = []
    for t in terms:
        m = re.fullmatch(r'([+-]?)((?:[0-9.]+(?:e[+-]?[0-9]+)?)?)\*?(?:P\(([0-9]+)\)|(xi))?', t)
        assert m, t
        sg, lit, k, x = m.groups()
        lit = lit or '1'
        kk = int(k) if k else (1 if x else 0)
        out.append((kk, dec(sg + lit)))
    return out


def parse_functions():
    """returns {name: {i: (flag or None, poly)}} for the 3 vec_ and 3 scalar functions"""
    txt = open(SRC + 'bardell_functions.cpp').read()
    res = {}
    for name in ['vec_f', 'vec_fp', 'vec_fpp', 'f', 'fp', 'fpp']:
        m = re.search(r'EXPORTIT (?:void|double) %s\(.*?\)\s*\{(.*?)\n\}' % name, txt, re.S)
        body = m.group(1)
        d = {}
        if name.startswith('vec_'):
            for mm in re.finditer(r'f[p]*\[([0-9]+)\] = (.*?);', body):
                d[int(mm.group(1))] = mm.group(2)
        else:
            for mm in re.finditer(r'case ([0-9]+):\s*return (.*?);', body):
                d[int(mm.group(1))] = mm.group(2)
        out = {}
        for i, e in d.items():
            mm = re.fullmatch(r'(xi[12][tr])\*\((.*)\)', e)
            if mm:
                out[i] = (mm.group(1), parse_poly(mm.group(2)))
            elif re.match(r'.*xi[12][tr]', e):
                mm = re.fullmatch(r'([+-]?[0-9.]+)\*(xi[12][tr])(\*xi)?', e)
                assert mm, e
                out[i] = (mm.group(2), [(1 if mm.group(3) else 0, dec(mm.group(1)))])
            elif re.fullmatch(r'xi\*\((.*)\)', e):
                inner = parse_poly(re.fullmatch(r'xi\*\((.*)\)', e).group(1))
                out[i] = (None, [(k + 1, v) for k, v in inner])
            else:
                out[i] = (None, parse_poly(e))
        res[name] = out
    return res


def parse_integrals():
    txt = open(SRC + 'bardell.cpp').read()
    res = {}
    for name in ['ff', 'ffp', 'ffpp', 'fpfp', 'fpfpp', 'fppfpp']:
        m = re.search(r'EXPORTIT double integral_%s\(.*?\)\s*\{(.*?)\n\}' % name, txt, re.S)
        body = m.group(1)
        i = None
        d = {}
        depth = 0
        for line in body.split('\n'):
            st = line.strip()
            if st.startswith('switch('):
                depth += 1
                assert st == ('switch(i) {' if depth == 1 else 'switch(j) {'), st
            elif st == '}':
                depth -= 1
            elif st.startswith('case '):
                k = int(st[5:-1])
                if depth == 1:
                    i = k
                else:
                    j = k
            elif st == 'default:':
                j = None
            elif st.startswith('return '):
                e = st[7:-1]
                if j is None or depth == 1:
                    assert e == '0.', e
                    continue
                parts = e.split('*')
                lit = None
                flags = []
                sg = ''
                for p in parts:
                    if p.startswith('-') and not re.match(r'-[0-9]', p):
                        sg = '-'
                        p = p[1:]
                    if re.fullmatch(r'[xy][12][tr]', p):
                        flags.append(p)
                    else:
                        assert lit is None, e
                        lit = p
                lit = dec(sg + (lit or '1'))
                assert (i, j) not in d
                d[(i, j)] = (lit, flags)
            elif st == '':
                pass
            else:
                raise ValueError(st)
        res[name] = d
    return res


def parse_gauss():
    txt = open(SRC + 'legendre_gauss_quadrature.cpp').read()
    res = {}
    for m in re.finditer(r'case ([0-9]+):(.*?)return;', txt, re.S):
        n = int(m.group(1))
        p = {}
        w = {}
        for mm in re.finditer(r'(points|weights)\[([0-9]+)\] = (.*?);', m.group(2)):
            (p if mm.group(1) == 'points' else w)[int(mm.group(2))] = dec(mm.group(3))
        assert sorted(p) == list(range(n)) and sorted(w) == list(range(n)), n
        res[n] = ([p[i] for i in range(n)], [w[i] for i in range(n)])
    return res


# exact Bardell functions (0-based index)
def dfact(n):
    r = 1
    while n > 1:
        r *= n
        n -= 2
    return r


def fact(n):
    r = 1
    for k in range(2, n + 1):
        r *= k
    return r


def exact(i):
    """exact polynomial coefficients {k: Fraction}"""
    if i == 0:
        return {3: F(1, 4), 1: F(-3, 4), 0: F(1, 2)}
    if i == 1:
        return {3: F(1, 8), 2: F(-1, 8), 1: F(-1, 8), 0: F(1, 8)}
    if i == 2:
        return {3: F(-1, 4), 1: F(3, 4), 0: F(1, 2)}
    if i == 3:
        return {3: F(1, 8), 2: F(1, 8), 1: F(-1, 8), 0: F(-1, 8)}
    r = i + 1
    out = {}
    for n in range(0, r//2 + 1):
        if r - 2*n - 1 < 0:
            continue
        k = 2*r - 2*n - 7
        df = dfact(k) if k > 0 else 1
        if k < -1:
            # (−3)!! = −1, (−5)!! = 1/3
            raise ValueError
        out[r - 2*n - 1] = F((-1)**n * df, 2**n * fact(n) * fact(r - 2*n - 1))
    return out


def deriv(p):
    return {k - 1: k*v for k, v in p.items() if k > 0}


def pmul(p, q):
    o = {}
    for a, x in p.items():
        for b, y in q.items():
            o[a + b] = o.get(a + b, 0) + x*y
    return o


def integ(p):
    return sum((2*v/(k + 1) for k, v in p.items() if k % 2 == 0), F(0))
