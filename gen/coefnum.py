"""Numerical exploration of the coefficient tables (not part of any proof)."""
import re, math, cmath, itertools, random, sys
from fractions import Fraction
from coefparse import *
import importlib.util
def load_T():
    src = open('/verif/gen/gen_tables.py').read().split('\ndef load')[0]
    g = {}; exec(src, g); return g['T']
T = load_T()
SY = {}
s = open('/verif/rocq/theories/Symmetry_model.v').read()
for m in re.finditer(r'Definition sym_(\w+) := mk_symmetry (\[.*?\])\s+(\[.*?\])\s+(\[.*?\])\s+(\[.*?\])\s+(\w+) (\[.*?\])\.', s, re.S):
    nm = m.group(1)
    sig = re.findall(r'\("(\w+)", (\w+)\)', m.group(2))
    mult = re.findall(r'\((\w+), "(\w+)"\)', m.group(3))
    tri = re.findall(r'\((\w+), "(\w+)"\)', m.group(4))
    al = re.findall(r'\("(\w+)", (\d+)\)', m.group(5))
    SY[nm] = dict(sig=sig, mult=mult, tri=tri, allowed=[(a, int(b)) for a, b in al])
SY['ISO2'] = SY['ISO']; SY['ISO2LR'] = SY['ISOLR']
def loadtab(f, nm):
    d = {}
    for l in open(B + f):
        m = re.match(r'\s*%s\[(\d+)\]\s*=\s*Invar\(([^)]*)\);\s*$' % nm, l)
        if m: d[int(m.group(1))] = tuple(int(x) for x in m.group(2).split(','))
    return d
def comb(sym, a, b):
    r = []
    for (n, t), x, y in zip(SY[sym]['sig'], a, b):
        r.append(x + y if t == 'Additive' else x * y if t == 'Multiplicative' else (x + y) % 3)
    return tuple(r)
def allowed(sym, I):
    d = dict(zip([n for n, t in SY[sym]['sig']], I))
    return all(d[a] >= m for a, m in SY[sym]['allowed'])
def mult(sym, I):
    d = dict(zip([n for n, t in SY[sym]['sig']], I)); r = 1
    for k, n in SY[sym]['mult']: r *= d[n] if k == 'MMult' else 2 * d[n] + 1
    return r
def su2(a, b, c): return abs(a - b) <= c - 1 and abs(b - c) <= a - 1 and abs(c - a) <= b - 1
def tri(sym, a, b, c):
    ns = [n for n, t in SY[sym]['sig']]
    for k, n in SY[sym]['tri']:
        i = ns.index(n); x, y, z = a[i], b[i], c[i]
        ok = su2(x, y, z) if k == 'TSU2' else su2(2*x+1, 2*y+1, 2*z+1) if k == 'TSU2T' else x == y + z if k == 'TU1' else x == y * z if k == 'TZ2' else x == (y + z) % 3
        if not ok: return False
    return True
def rnd(sym, lo=6, hi=20):
    r = []
    for n, t in SY[sym]['sig']:
        if t == 'Additive': r.append(random.randint(lo, hi))
        elif t == 'Multiplicative': r.append(random.choice((1, -1)))
        else: r.append(random.randint(0, 2))
    return tuple(r)
class Inf(Exception): pass
def csq(x):
    return cmath.sqrt(x)
def rsq(x):
    if isinstance(x, complex): return cmath.sqrt(x)
    if x < 0: return float('nan')
    return math.sqrt(x)
class F(float):
    pass
def div(a, b):
    if b == 0:
        if a == 0: return float('nan')
        return math.inf if (a > 0) == (math.copysign(1, b) > 0) else -math.inf
    return a / b
import ast
class Tr(ast.NodeTransformer):
    def visit_BinOp(self, n):
        self.generic_visit(n)
        if isinstance(n.op, ast.Div): return ast.Call(ast.Name('div_', ast.Load()), [n.left, n.right], [])
        return n
CACHE = {}
def ev(e, env):
    if e not in CACHE:
        x = re.sub(r'\bstd::', '', e)
        x = re.sub(r'(?<![\w.])(\d+)\.(?!\d)', r'\1.0', x)
        t = ast.fix_missing_locations(Tr().visit(ast.parse(x.strip(), mode='eval')))
        CACHE[e] = compile(t, e[:30], 'eval')
    def d(a, b):
        if isinstance(a, complex) or isinstance(b, complex): return a / b
        return div(a, b)
    g = {'sqrt': rsq, 'Sqrt': rsq, 'S': lambda ss: (ss - 1.0) / 2, 'ISO': lambda ss: (ss - 1.0) / 2, 'J': lambda ss: (ss - 1.0) / 2,
         'Power': lambda a, b: a ** b, 'pow': lambda a, b: a ** b, 'Complex': lambda a, b: complex(a, b), 'cmpl': lambda a, b=0: complex(a, b),
         'Invar': lambda *a: tuple(a), 'abs': abs, 'If': lambda c, a, b: a if c else b, 'div_': d, '__builtins__': {}}
    g.update(env)
    return eval(CACHE[e], g)
def env_of(sym, consts, I, var, NN=1):
    d = dict(zip([n for n, t in SY[sym]['sig']], I)); e = {'NN': NN, 'N': NN, 'M': 0}
    for v, x in consts:
        m = re.match(r'(\w+)\.get\("(\w+)"\)', x)
        if m:
            if m.group(1) == var: e[v] = d[m.group(2)]
        elif x.startswith('step'): e[v] = NN
        else:
            try: e[v] = ev(x, e)
            except Exception as ex: pass
    return e
def consts_impl(sym):
    fn = R + 'sym-%s-impl.hpp' % {'ISO2': 'ISO', 'ISO2LR': 'ISOLR'}.get(sym, sym)
    out = []; on = False
    for l in open(fn):
        m = re.match(r'\s*void Symmetry(\w+)<SC>::(make_matrix\w*)', l)
        if m: on = m.group(1) == sym
        m = re.match(r'\s*(?:const )?(?:int|auto|double)\s+(\w+)\s*=\s*(.*?);', l)
        if m and on: out.append((m.group(1), m.group(2)))
    return out
