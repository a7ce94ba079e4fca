"""Generate the Data_*.v modules (exact decimal literals of the C++ tables)."""
from parse_tables import parse_functions, parse_integrals, parse_gauss

OUT = '/verif/rocq/theories/'
FL = {'xi1t': 0, 'xi1r': 1, 'xi2t': 2, 'xi2r': 3}
FX = {'x1t': 0, 'x1r': 1, 'x2t': 2, 'x2r': 3}
FY = {'y1t': 0, 'y1r': 1, 'y2t': 2, 'y2r': 3}


def z(m):
    return '(%d)' % m if m < 0 else '%d' % m


def lit(p):
    return '(%s,%d%%nat)' % (z(p[0]), p[1])


HEAD = '(* GENERATED by tools/gen_tables.py from %s -- do not edit *)\nFrom Coq Require Import ZArith List.\nImport ListNotations.\nOpen Scope Z_scope.\n\n'


def functions():
    Fs = parse_functions()
    o = HEAD % '/repo/panels/core/src/bardell_functions.cpp'
    o += '''(* One entry per index i = 0..29 : (boundary flag multiplying the polynomial, if any;
   terms (exponent, (mantissa, decimals))), i.e. mantissa / 10^decimals * xi^exponent.
   flag 0,1,2,3 = xi1t, xi1r, xi2t, xi2r.
   vec_* : the arrays filled by vec_f, vec_fp, vec_fpp; lit_* : the switch of f, fp, fpp. *)
Definition lit_entry : Type := (option nat * list (nat * (Z * nat)))%type.
'''
    for name in ['vec_f', 'vec_fp', 'vec_fpp', 'f', 'fp', 'fpp']:
        T = Fs[name]
        assert sorted(T) == list(range(30))
        o += '\nDefinition %s : list lit_entry := [\n' % (name if name.startswith('vec') else 'lit_' + name)
        rows = []
        for i in range(30):
            fl, p = T[i]
            flag = 'None' if fl is None else 'Some %d%%nat' % FL[fl]
            rows.append('  (%s, [%s])' % (flag, '; '.join('(%d%%nat,%s)' % (k, lit(v)) for k, v in p)))
        o += ';\n'.join(rows) + '\n].\n'
    open(OUT + 'Data_Bardell.v', 'w').write(o)


def integrals():
    Is = parse_integrals()
    o = HEAD % '/repo/panels/core/src/bardell.cpp'
    o += '''(* For each table: outer list = the cases of switch(i); inner list = the cases of switch(j):
   (j, ((mantissa, decimals), (flag of the first function, flag of the second))).
   flags 0..3 = x1t x1r x2t x2r (first), y1t y1r y2t y2r (second). *)
Definition int_entry : Type := ((Z * nat) * (option nat * option nat))%type.
'''
    for name in ['ff', 'ffp', 'ffpp', 'fpfp', 'fpfpp', 'fppfpp']:
        T = Is[name]
        o += '\nDefinition lit_int_%s : list (nat * list (nat * int_entry)) := [\n' % name
        rows = []
        for i in sorted({k[0] for k in T}):
            r = []
            for j in sorted({k[1] for k in T if k[0] == i}):
                l, flags = T[(i, j)]
                fx = [FX[f] for f in flags if f in FX]
                fy = [FY[f] for f in flags if f in FY]
                assert len(fx) + len(fy) == len(flags) and len(fx) <= 1 and len(fy) <= 1
                ff = lambda q: 'Some %d%%nat' % q[0] if q else 'None'
                r.append('(%d%%nat,(%s,(%s,%s)))' % (j, lit(l), ff(fx), ff(fy)))
            rows.append('  (%d%%nat, [%s])' % (i, ';\n    '.join(r)))
        o += ';\n'.join(rows) + '\n].\n'
    open(OUT + 'Data_BardellInt.v', 'w').write(o)


def gauss():
    G = parse_gauss()
    o = HEAD % '/repo/panels/core/src/legendre_gauss_quadrature.cpp'
    o += '''(* cases of switch(n): (n, list of (point, weight)) with decimals (mantissa, decimals) *)
Definition lit_gauss : list (nat * list ((Z * nat) * (Z * nat))) := [
'''
    rows = []
    for n in sorted(G):
        P, W = G[n]
        rows.append('  (%d%%nat, [%s])' % (n, ';\n    '.join('(%s,%s)' % (lit(p), lit(w)) for p, w in zip(P, W))))
    o += ';\n'.join(rows) + '\n].\n'
    open(OUT + 'Data_Gauss.v', 'w').write(o)


functions()
integrals()
gauss()
