#!/usr/bin/env python3
"""Read the coefficient tables of /repo/c++/symmetry: which terms make_matrix() adds to the Hamiltonian and which
tables recalc_*() use, per symmetry type, number of channels and mode."""
import re, os
R = '/repo/c++/symmetry/'
B = R + 'coefnew/'

def split_args(s):
    out, d, cur = [], 0, ''
    for c in s:
        if c in '([{': d += 1
        if c in ')]}': d -= 1
        if c == ',' and d == 0: out.append(cur.strip()); cur = ''
        else: cur += c
    if cur.strip() or out: out.append(cur.strip())
    return out

def balanced(s, i):
    """s[i] == '(' ; index just after the matching ')'."""
    d = 0
    for k in range(i, len(s)):
        if s[k] == '(': d += 1
        if s[k] == ')':
            d -= 1
            if d == 0: return k + 1
    raise SystemExit('unbalanced ' + s[i:i + 60])

def calls(fn):
    """[(name, args)] of a .dat file made of macro calls."""
    s = open(B + fn).read(); out = []; i = 0
    while True:
        m = re.compile(r'\s*([A-Za-z_0-9]+)\s*\(').match(s, i)
        if not m:
            if s[i:].strip(): raise SystemExit('junk %r in %s' % (s[i:i + 60], fn))
            return out
        e = balanced(s, m.end() - 1)
        out.append((m.group(1), split_args(s[m.end():e - 1])))
        m2 = re.compile(r'\s*;').match(s, e)
        i = m2.end() if m2 else e

def rows(fn):
    """rows of a .dat file made of initialisers {a, b, ...},"""
    s = open(B + fn).read(); s = re.sub(r'//.*', '', s); out = []; i = 0
    while True:
        m = re.compile(r'\s*\{').match(s, i)
        if not m:
            if s[i:].strip(): raise SystemExit('junk %r in %s' % (s[i:i + 60], fn))
            return out
        e = s.index('}', m.end())
        out.append(split_args(s[m.end():e]))
        m2 = re.compile(r'\s*,').match(s, e + 1)
        i = m2.end() if m2 else e + 1

def subst(body, params, args):
    return re.sub(r'\b(%s)\b' % '|'.join(params), lambda m: '(' + args[params.index(m.group(1))] + ')', body)

def strip(s):
    s = s.strip()
    while s.startswith('(') and balanced(s, 0) == len(s): s = s[1:-1].strip()
    return s

def term(body):
    """One expanded macro -> (kind, i, j, ch, fnr, coef, factor) ; coef = (name, conj, mult, ch)."""
    m = re.match(r'\s*(?:this->)?(\w+)\(', body); kind = m.group(1)
    a = split_args(body[m.end():balanced(body, m.end() - 1) - 1])
    def fac(x):
        mm = re.match(r'\s*t_matel\(', x); e = balanced(x, mm.end() - 1)
        f = strip(x[mm.end() - 1:e]); rest = x[e:].strip()
        assert rest.startswith('*'); rest = rest[1:].strip(); mult = 1
        if rest.startswith('2.0 *'): mult = 2; rest = rest[5:].strip()
        conj = 0
        if rest.startswith('conj_me('): conj = 1; rest = strip(rest[7:])
        mm = re.match(r'coef\.(\w+)\((.*)\)$', rest); assert mm, rest
        ca = split_args(mm.group(2))
        return f, (mm.group(1), conj, mult, ca[0].strip(), strip(ca[1]))
    if kind in ('offdiag_function', 'offdiag_function_QJ'):
        _, i, j, ch, fnr, x = a[:6]; f, c = fac(x)
        return (kind, int(strip(i)), int(strip(j)), strip(ch), strip(fnr), c, f)
    if kind in ('offdiag_qst', 'offdiag_spsu2t'):
        i, j, ch, fnr, x = a[:5]; f, c = fac(x)
        return (kind, int(strip(i)), int(strip(j)), strip(ch), strip(fnr), c, f)
    if kind == 'diag_offdiag_function':
        _, i, j, x = a[:4]; f, c = fac(x)
        return (kind, int(strip(i)), int(strip(j)), None, None, c, f)
    if kind in ('diag_function', 'diag_function_half'):
        _, i, num, x = a[:4]
        mm = re.match(r'coef\.(\w+)\((.*)\)$', x); ca = split_args(mm.group(2))
        return (kind, int(strip(i)), int(strip(i)), None, None, (mm.group(1), 0, 1, ca[0].strip(), strip(ca[1])), strip(num))
    raise SystemExit('kind ' + kind)

def impl(sym):
    """{(function, class, channels or None, tuple of enclosing ifs): [(file, [terms])]}"""
    fn = R + 'sym-%s-impl.hpp' % {'ISO2': 'ISO', 'ISO2LR': 'ISOLR'}.get(sym, sym)
    macros, out = {}, {}
    func = cls = case = None; stack = []; depth = 0
    text = open(fn).read().replace('\\\n', ' ')
    for l in text.split('\n'):
        l0 = l; l = re.sub(r'//.*', '', l)
        m = re.match(r'\s*#undef\s+(\w+)', l)
        if m: macros.pop(m.group(1), None); continue
        m = re.match(r'\s*#define\s+(\w+)\(([^)]*)\)\s*(.*)$', l)
        if m: macros[m.group(1)] = ([x.strip() for x in m.group(2).split(',')], m.group(3)); continue
        m = re.match(r'\s*void Symmetry(\w+)<SC>::(make_matrix\w*)', l)
        if m: cls, func = m.groups(); case = None; stack = []; depth = l.count('{') - l.count('}'); continue
        if func is None: continue
        m = re.match(r'\s*#include\s+"(.*\.dat)"', l)
        if m:
            if cls == sym:
                ts = []
                for nm, a in calls(m.group(1)):
                    ps, body = macros[nm]
                    if len(ps) != len(a): raise SystemExit('arity %s %s %s' % (m.group(1), nm, a))
                    ts.append(term(subst(body, ps, a)))
                out.setdefault((func, case, tuple(c for c, d in stack)), []).append((m.group(1), ts))
            continue
        m = re.match(r'\s*case\s+(\d+)', l)
        if m: case = int(m.group(1))
        m = re.match(r'\s*\}?\s*(if \(.*\)|else)\s*\{', l)
        if m:
            if m.group(1) == 'else':
                # closes the previous if at the same depth
                pass
            op = l.count('{') - l.count('}')
            if l.strip().startswith('}'):
                c, d = last
                stack = [x for x in stack if x[1] < depth]
                stack.append(('!' + c, depth)); 
                if 'else' in l: case = None
            else:
                depth += op; stack.append((m.group(1), depth)); last = stack[-1]
            continue
        depth += l.count('{') - l.count('}')
        while stack and stack[-1][1] > depth: last = stack.pop()
        if depth <= 0 and '}' in l: func = None
    return out

def recalc(sym):
    """[(function, channels or None, I1 or Ip expression, file, ch, fnr, Iop, extra)]"""
    fn = R + 'nrg-recalc-%s.hpp' % sym
    out = []; func = case = inv = fil = None; name = None; consts = []
    for l in open(fn):
        m = re.match(r'.*Symmetry\w+<SC>::(recalc_\w+)', l)
        if m: func = m.group(1); case = inv = None; name = None; consts = []; continue
        if func is None: continue
        if re.match(r'\s*//', l): continue
        m = re.search(r'name == "([^"]*)"', l)
        if m: name = m.group(1); case = None
        m = re.search(r'\bcase\s+(\d+)', l)
        if m: case = int(m.group(1))
        m = re.search(r'\bswitch\b', l)
        if m: case = None
        m = re.match(r'\s*(?:const )?(?:Invar\s+)?(I1|Ip)\s*=\s*(Invar\(.*\));', l)
        if m: inv = (m.group(1), m.group(2))
        m = re.match(r'\s*(?:const )?(?:int|auto|double)\s+(\w+)\s*=\s*(.*);', l)
        if m and 'auto II' not in l and 'auto cn' not in l: consts.append((m.group(1), m.group(2)))
        m = re.match(r'\s*#include\s+"(.*\.dat)"', l)
        if m:
            fil = m.group(1)
            if func in ('recalc_global',): out.append((func, case, None, fil, None, None, name, tuple(consts)))
            continue
        m = re.search(r'opch\[(\w+)\]\[(\w+)\]\[II\]', l)
        if m: out.append((func, case, inv, fil, m.group(1), m.group(2), None, tuple(consts)))
        m = re.search(r'recalc_general\(diag, substruct, cold, I1, Ip, recalc_table, (.*)\);', l)
        if m: out.append((func, case, inv, fil, None, None, m.group(1), tuple(consts)))
    return out

if __name__ == '__main__':
    import sys
    for s in sys.argv[1:]:
        for k, v in impl(s).items(): print(s, k, [(f, len(t), t[:1]) for f, t in v])
        for r in recalc(s): print(s, r)
