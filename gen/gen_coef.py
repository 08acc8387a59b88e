#!/usr/bin/env python3
"""Generates theories/Coef_tab_<sym>.v from /repo/c++/symmetry: the coefficient tables used by make_matrix(), recalc_irreduc() and
recalc_doublet/triplet/quadruplet/orb_triplet(), and theories/Coef_tables.v that lists them."""
import ast, re, sys, os
from fractions import Fraction
sys.path.insert(0, os.path.dirname(os.path.abspath(__file__)))
from coefparse import *
from coefnum import T, SY
OUT = '/verif/rocq/theories/'
UNTRANSLATED = {'QJ', 'QSC3', 'SPSU2C3'}    # decimals standing for surds / complex roots

def z(n): return '(%d)' % n if n < 0 else str(n)
def frac(s):
    x = float(s)
    for d in list(range(1, 200)):
        n = round(x * d)
        if float(Fraction(n, d)) == x: return Fraction(n, d)
    raise ValueError('decimal ' + s)
class Expr:
    """C++ expression -> cexpr; env maps C++ names to expressions/quantum numbers"""
    def __init__(self, sym, consts, var):
        self.names = [n for n, t in SY[sym]['sig']]
        self.env = {}
        for v, x in consts:
            m = re.match(r'(\w+)\.get\("(\w+)"\)', x)
            if m:
                if m.group(1) == var: self.env[v] = 'V%d' % self.names.index(m.group(2))
            elif x.startswith('step'): self.env[v] = 'NN'
            else: self.env[v] = x
    def num(self, f):
        f = Fraction(f)
        return 'cN %s' % z(f.numerator) if f.denominator == 1 else 'cQ %s %d' % (z(f.numerator), f.denominator)
    def const(self, n):
        """rational constant value or None"""
        if isinstance(n, ast.Constant): return frac(self.src(n)) if isinstance(n.value, float) else Fraction(n.value)
        if isinstance(n, ast.UnaryOp) and isinstance(n.op, ast.USub):
            c = self.const(n.operand); return None if c is None else -c
        return None
    def src(self, n): return repr(n.value)
    def lin(self, n):
        """integer linear form {qn index or 'NN' or 1: coefficient} for exponents of -1"""
        c = self.const(n)
        if c is not None: return {1: c}
        if isinstance(n, ast.Name):
            v = self.env[n.id]
            if v == 'NN': return {'NN': Fraction(1)}
            if v[0] == 'V': return {int(v[1:]): Fraction(1)}
            return self.lin(self.parse(v))
        if isinstance(n, ast.Call) and n.func.id in ('S', 'ISO', 'J'):
            d = self.lin(n.args[0]); d[1] = d.get(1, Fraction(0)) - 1
            return {k: v / 2 for k, v in d.items()}
        if isinstance(n, ast.UnaryOp): return {k: -v for k, v in self.lin(n.operand).items()}
        if isinstance(n, ast.BinOp):
            a, b = self.lin(n.left), self.lin(n.right)
            if isinstance(n.op, ast.Mult):
                if set(a) == {1}: return {k: v * a[1] for k, v in b.items()}
                if set(b) == {1}: return {k: v * b[1] for k, v in a.items()}
            s = 1 if isinstance(n.op, ast.Add) else -1
            assert isinstance(n.op, (ast.Add, ast.Sub))
            r = dict(a)
            for k, v in b.items(): r[k] = r.get(k, 0) + s * v
            return r
        raise ValueError(ast.dump(n))
    def parse(self, e):
        x = re.sub(r'\bstd::', '', e)
        x = re.sub(r'(?<![\w.])(\d+)\.(?!\d)', r'\1.0', x)
        return ast.parse(x.strip(), mode='eval').body
    def go(self, n):
        c = self.const(n)
        if c is not None: return '(%s)' % self.num(c)
        if isinstance(n, ast.Name):
            v = self.env[n.id]
            if v == 'NN': raise ValueError('NN')
            if re.match(r'V\d+$', v): return '(cV %s)' % v[1:]
            return self.go(self.parse(v))
        if isinstance(n, ast.UnaryOp) and isinstance(n.op, ast.USub): return '(cO %s)' % self.go(n.operand)
        if isinstance(n, ast.UnaryOp) and isinstance(n.op, ast.UAdd): return self.go(n.operand)
        if isinstance(n, ast.BinOp):
            k = {ast.Add: 'cA', ast.Sub: 'cB', ast.Mult: 'cM', ast.Div: 'cD'}[type(n.op)]
            return '(%s %s %s)' % (k, self.go(n.left), self.go(n.right))
        if isinstance(n, ast.Call):
            f = n.func.id
            if f in ('sqrt', 'Sqrt'): return '(cR %s)' % self.go(n.args[0])
            if f in ('S', 'ISO', 'J'):
                v = self.env.get(n.args[0].id) if isinstance(n.args[0], ast.Name) else None
                if v and re.match(r'V\d+$', v): return '(cH %s)' % v[1:]
                return '(cD (cB %s (cN 1)) (cN 2))' % self.go(n.args[0])
            if f in ('Power', 'pow'):
                b = self.const(n.args[0]); k = self.const(n.args[1])
                if k is not None and (2 * k).denominator == 1: return '(cW %s %s)' % (self.go(n.args[0]), z(int(2 * k)))
                if b == -1:
                    l = self.lin(n.args[1]); assert l.pop('NN') == 1
                    k = l.pop(1, Fraction(0)); assert k.denominator == 1 and all(v.denominator == 1 for v in l.values())
                    return '(cG [%s] %s)' % ('; '.join('(%d%%nat, %s)' % (i, z(int(v))) for i, v in sorted(l.items())), z(int(k)))
        raise ValueError(ast.dump(n)[:200])
    def __call__(self, e): return self.go(self.parse(e))

def shift(sym, env, e):
    """Invar(a, b, ...) -> list of sh"""
    a = split_args(e[e.index('(') + 1:-1]); out = []
    if sym == 'NONE' and a == []: return '[]'
    for x in a:
        m = re.match(r'\((\w+) \+ (\d+)\) % 3$', x)
        if m: out.append('ShMod3 %s%%nat %s' % (env[m.group(1)][1:], m.group(2))); continue
        n = ast.parse(x, mode='eval').body
        def lin(n):
            if isinstance(n, ast.Constant): return (None, 0, n.value)
            if isinstance(n, ast.Name): return (env[n.id][1:], 1, 0)
            if isinstance(n, ast.UnaryOp):
                v, m, k = lin(n.operand); s = -1 if isinstance(n.op, ast.USub) else 1; return (v, s * m, s * k)
            if isinstance(n, ast.BinOp):
                v, m, k = lin(n.left); w, m2, k2 = lin(n.right)
                if isinstance(n.op, ast.Mult):
                    if v is None: return (w, m2 * k, k2 * k)
                    if w is None: return (v, m * k2, k * k2)
                s = 1 if isinstance(n.op, ast.Add) else -1
                assert v is None or w is None
                return (v if v is not None else w, m + s * m2, k + s * k2)
            raise ValueError(x)
        v, m, k = lin(n)
        out.append('ShLin %s%%nat %s %s' % (v or '0', z(m), z(k)))
    return '[' + '; '.join(out) + ']'

def gen(sym, fs):
    rc, im = recalc(sym), impl(sym)
    L = []; ex = {}
    w = L.append
    def expr(E, e):
        if sym in UNTRANSLATED: return 'None'
        s = E(e)
        if len(s) < 24: return 'Some %s' % s
        if s not in ex: ex[s] = '%s_e%d' % (sym, len(ex))
        return 'Some %s' % ex[s]
    body = []
    names = []
    for ch, stem in fs:
        tag = stem.split('/')[-1].replace('-', '_')
        irr, ten, modes, seen = [], [], [], set()
        for func, case, inv, fil, c, f, iop, consts in rc:
            if func == 'recalc_global' or not fil.startswith(stem + '-') or c == 'M': continue
            key = (func, tuple(x.replace(' ', '') for x in inv), fil, c, f)
            if key in seen: continue
            seen.add(key)
            nm = '%s_t%d' % (tag, len(irr) + len(ten))
            if func == 'recalc_irreduc':
                E = Expr(sym, consts, 'Ip')
                assert inv[0] == 'I1'
                rr = ['(%s, %s, %s)' % (r[0], r[1], expr(E, r[2])) for r in rows(fil)]
                body.append('(** %s/nrg-recalc-%s.hpp recalc_irreduc, %s *)\nDefinition %s : irr_table := mk_irr %s %s %s %s [\n  %s].' %
                            ('/repo/c++/symmetry', sym, fil, nm, c, f, '%Z' and shift(sym, E.env, inv[1]), '', ';\n  '.join(rr)))
                irr.append(nm)
            else:
                E = Expr(sym, consts, 'I1')
                assert inv[0] == 'Ip'
                rr = ['(%s, %s, %s, %s, %s)' % (r[0], r[1], shift(sym, E.env, r[2]), shift(sym, E.env, r[3]), expr(E, r[4])) for r in rows(fil)]
                io = [x for x in split_args(iop[iop.index('(') + 1:-1])]
                io = [int(x) for x in io]
                body.append('(** %s/nrg-recalc-%s.hpp %s, %s *)\nDefinition %s : ten_table := mk_ten "%s" %s [%s] [\n  %s].' %
                            ('/repo/c++/symmetry', sym, func, fil, nm, func[7:], shift(sym, E.env, inv[1]), '; '.join(z(x) for x in io), ';\n  '.join(rr)))
                ten.append(nm)
        k = 0
        ci = []
        fn = R + 'sym-%s-impl.hpp' % {'ISO2': 'ISO', 'ISO2LR': 'ISOLR'}.get(sym, sym)
        for l in open(fn):
            m = re.match(r'\s*(?:const )?(?:int|auto|double)\s+(\w+)\s*=\s*(.*?);', l)
            if m: ci.append((m.group(1), m.group(2)))
        E = Expr(sym, ci, 'I')
        for (func, case, conds), LL in im.items():
            off, dia, dof = [], [], []
            for fil, ts in LL:
                if not fil.startswith(stem + '-'): continue
                for kind, i, j, c, f, co, fac in ts:
                    if c == 'M' or co[4] == 'M': continue
                    cn = '%s%s%s' % ('' if co[2] == 1 else '2*', 'conj ' if co[1] else '', co[0])
                    if kind.startswith('offdiag'):
                        assert co[4] == c or sym in ('QJ',), co
                        off.append('(%d, %d, %s, %s, "%s", %s)' % (i, j, c, f, cn, expr(E, fac)))
                    elif kind == 'diag_offdiag_function': dof.append('(%d, %d, %s, "%s", %s)' % (i, j, co[4], cn, expr(E, fac)))
                    else: dia.append('(%d, %s, "%s", %s)' % (i, co[4], cn + (' half' if kind.endswith('half') else ''), expr(E, fac)))
            if not (off or dia or dof): continue
            nm = '%s_m%d' % (tag, k); k += 1
            ty = ['list off_line', 'list diag_line', 'list dof_line']
            for sfx, t, l in zip('odf', ty, (off, dia, dof)):
                body.append('(** %s, %s %s *)\nDefinition %s_%s : %s := [\n  %s].' % ('/repo/c++/symmetry/sym-%s-impl.hpp' % {'ISO2': 'ISO', 'ISO2LR': 'ISOLR'}.get(sym, sym), func,
                            ' && '.join(conds).replace('"', ''), nm, sfx, t, ';\n  '.join(l)))
            mode = func[len('make_matrix'):].strip('_') or 'default'
            extra = [c for c in conds if 'rungs' in c or 'kappa' in c or 'delta' in c]
            if extra: mode += ' ' + ('rungs' if 'rungs' in extra[0] else 'kappa' if 'kappa' in extra[0] else 'delta')
            modes.append('mk_mode "%s" %s_o %s_d %s_f' % (mode, nm, nm, nm))
        body.append('Definition coef_%s : coef_set := mk_coef "%s" %d%%nat sym_%s {| tb_In := %s_In; tb_QN := %s_QN |}\n  [%s]\n  [%s]\n  [%s].' %
                    (tag, sym, ch, sym, tag, tag, '; '.join(irr), '; '.join(ten), ';\n   '.join(modes)))
        names.append('coef_' + tag)
    with open(OUT + 'Coef_tab_%s.v' % sym, 'w') as f:
        f.write('(** Generated by gen/gen_coef.py from /repo/c++/symmetry/{sym-%s-impl.hpp, nrg-recalc-%s.hpp, coefnew}. Do not edit. *)\n' % (sym, sym))
        f.write('From Coq Require Import List ZArith String.\nFrom Verif Require Import Base Invar_model Symmetry_model Symmetry_tables Coef_model.\nImport ListNotations.\n')
        f.write('Local Open Scope string_scope.\nLocal Open Scope list_scope.\nLocal Open Scope Z_scope.\n\n')
        for s, n in ex.items(): f.write('Definition %s := %s.\n' % (n, s))
        f.write('\n' + '\n'.join(body) + '\n')
    return names

if __name__ == '__main__':
    al = {}
    for sym, fs in T: al[sym] = gen(sym, fs)
    with open(OUT + 'Coef_tables.v', 'w') as f:
        f.write('(** Generated by gen/gen_coef.py: all coefficient tables. Do not edit. *)\nFrom Coq Require Import List.\nFrom Verif Require Import Coef_model.\n')
        f.write('From Verif Require Import ' + ' '.join('Coef_tab_' + s for s in al) + '.\nImport ListNotations.\n\n')
        f.write('Definition all_coef : list coef_set := [\n  %s].\n' % ';\n  '.join('; '.join(v) for v in al.values()))
