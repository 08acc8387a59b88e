#!/usr/bin/env python3
"""Generate rocq/theories/Columns_tables.v: thermodynamic columns (constructor argument td_fields and calculate_TD) of every
symmetry class in /repo/c++/symmetry/sym-*-impl.hpp."""
import re, sys, glob
B = '/repo/c++/symmetry/'
FILES = {'ISO2': 'ISO', 'ISO2LR': 'ISOLR'}
SYMS = ['DBLISOSZ','DBLQSZ','DBLSU2','ISO','ISO2','ISOLR','ISO2LR','ISOSZ','ISOSZLR','NONE','P','PP','QJ','QS','QSC3','QSLR','QST','QSTZ','QSZ','QSZLR','QSZTZ','SL','SL3','SPSU2','SPSU2C3','SPSU2LR','SPSU2T','SPU1','SPU1LR','SU2','U1']
out = ['(** Generated by gen/gen_columns.py from the constructors and calculate_TD members of /repo/c++/symmetry/sym-*-impl.hpp. Do not edit. *)',
 'From Coq Require Import List ZArith String.', 'From Verif Require Import Base Invar_model Symmetry_model Columns_model.', 'Import ListNotations.', 'Local Open Scope string_scope.', '']
names = []
for s in SYMS:
    f = B + 'sym-%s-impl.hpp' % FILES.get(s, s)
    L = open(f).read().split('\n')
    ci = next(i for i, l in enumerate(L) if re.search(r'Symmetry\w+\(const Params &P\) *:', l))
    m = re.search(r'std::vector(?:<std::string>)?\{([^}]*)\}', L[ci])
    fields = re.findall(r'"([^"]*)"', m.group(1))
    ti = next(i for i, l in enumerate(L) if 'void calculate_TD(' in l)
    vars_, traces, cols = {}, {}, []
    tj = ti
    if not re.search(r'override \{\};?\s*$', L[ti]):
        tj = ti + 1
        while not re.match(r'^ {2,3}\}\s*$', L[tj]):
            l = re.sub(r'//.*', '', L[tj]).strip()
            tj += 1
            if not l or re.match(r'(bucket|auto) tr', l) or l.startswith('for (const auto') or l == '}': continue
            if re.match(r'const (auto|double) sumZ += this->calculate_Z\(I, eig, factor\);', l): continue
            g = re.match(r'const (?:auto|int) (\w+) *= I\.get\("(\w+)"\);$', l)
            if g: vars_[g.group(1)] = g.group(2); continue
            g = re.match(r'(\w+) *\+= sumZ \* (.*);$', l)
            if g:
                e = g.group(2).replace(' ', '')
                for pat, k in ((r'^(\w+)$', 'TQ'), (r'^(\w+)\*\1$', 'TQ2'), (r'^pow\((\w+),2\)$', 'TQ2'), (r'^SZ\((\w+)\)$', 'TSz'), (r'^pow\(SZ\((\w+)\),2\)$', 'TSz2'),
                               (r'^\((\w+)-1\)/2\.$', 'TSz'), (r'^pow\(\((\w+)-1\)/2\.,2\)$', 'TSz2'), (r'^\((\w+)\*\1-1\)/12\.$', 'TCas'), (r'^(\w+)\*\(\1\+1\)/3\.$', 'TOrb')):
                    h = re.match(pat, e)
                    if h: traces[g.group(1)] = '%s "%s"' % (k, vars_[h.group(1)]); break
                else: raise SystemExit('unparsed trace %r in %s' % (l, f))
                continue
            g = re.match(r'stats\.td\.set\("([^"]*)", *(.*)\);$', l)
            if g:
                e = g.group(2).replace(' ', '')
                h = re.match(r'^(\w+)/stats\.Z$', e)
                if h: cols.append((g.group(1), 'CMean (%s)' % traces[h.group(1)])); continue
                h = re.match(r'^\(4\*(\w+)\)/stats\.Z$', e)
                if h: cols.append((g.group(1), 'CMean4 (%s)' % traces[h.group(1)])); continue
                h = re.match(r'^\((\w+)/stats\.Z\)-pow\((\w+)/stats\.Z,2\)$', e)
                if h: cols.append((g.group(1), 'CVar (%s) (%s)' % (traces[h.group(1)], traces[h.group(2)]))); continue
            raise SystemExit('unparsed line %r in %s' % (l, f))
    out.append('(** sym-%s-impl.hpp:%d, %d-%d *)' % (FILES.get(s, s), ci + 1, ti + 1, tj + 1))
    out.append('Definition td_%s : td_columns := {| tc_fields := [%s];\n  tc_sets := [%s] |}.' % (s, '; '.join('"%s"' % x for x in fields), ';\n              '.join('("%s", %s)' % c for c in cols)))
    names.append('("%s", sym_%s, td_%s)' % (s, s, s))
out.append('')
out.append('Definition shipped_columns : list (string * symmetry * td_columns) := [\n  ' + ';\n  '.join(names) + '].')
open(sys.argv[1], 'w').write('\n'.join(out) + '\n')
