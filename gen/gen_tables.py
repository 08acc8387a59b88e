#!/usr/bin/env python3
"""Generate rocq/theories/Symmetry_tables.v from /repo/c++/symmetry/coefnew/*/*-{In2,QN}.dat."""
import re, sys
B = '/repo/c++/symmetry/coefnew/'
# symmetry -> [(channels, path stem, "sym-X-impl.hpp:line of the #include")]
T = [
 ('DBLISOSZ', [(2, 'dblisosz/dblisosz-2ch')]), ('DBLQSZ', [(2, 'dblqsz/dblqsz-2ch')]), ('DBLSU2', [(2, 'dblsu2/dblsu2-2ch')]),
 ('ISO', [(1, 'iso/iso-1ch'), (2, 'iso/iso-2ch'), (3, 'iso/iso-3ch')]), ('ISO2', [(1, 'iso2/iso2-1ch'), (2, 'iso2/iso2-2ch')]),
 ('ISOLR', [(2, 'isolr/isolr-2ch')]), ('ISO2LR', [(2, 'iso2lr/iso2lr-2ch')]), ('ISOSZ', [(1, 'isosz/isosz-1ch'), (2, 'isosz/isosz-2ch')]),
 ('ISOSZLR', [(2, 'isoszlr/isoszlr-2ch')]), ('NONE', [(1, 'none/none-1ch'), (2, 'none/none-2ch')]), ('P', [(1, 'p/p-1ch'), (2, 'p/p-2ch')]),
 ('PP', [(2, 'pp/pp-2ch')]), ('QJ', [(3, 'qj/qj')]), ('QS', [(c, 'qs/qs-%dch' % c) for c in (1, 2, 3, 4)]), ('QSC3', [(3, 'qsc3/qsc3')]),
 ('QSLR', [(2, 'qslr/qslr-2ch')]), ('QST', [(3, 'qst/qst')]), ('QSTZ', [(3, 'qstz/qstz')]), ('QSZ', [(c, 'qsz/qsz-%dch' % c) for c in (1, 2, 3)]),
 ('QSZLR', [(2, 'qszlr/qszlr-2ch')]), ('QSZTZ', [(3, 'qsztz/qsztz')]), ('SL', [(c, 'sl/sl-%dch' % c) for c in (1, 2, 3)]), ('SL3', [(3, 'sl3/sl3-3ch')]),
 ('SPSU2', [(c, 'spsu2/spsu2-%dch' % c) for c in (1, 2, 3)]), ('SPSU2C3', [(3, 'spsu2c3/spsu2c3')]), ('SPSU2LR', [(2, 'spsu2lr/spsu2lr-2ch')]),
 ('SPSU2T', [(3, 'spsu2t/spsu2t')]), ('SPU1', [(1, 'spu1/spu1-1ch'), (2, 'spu1/spu1-2ch')]), ('SPU1LR', [(1, 'spu1lr/spu1lr-1ch'), (2, 'spu1lr/spu1lr-2ch')]),
 ('SU2', [(1, 'su2/su2-1ch'), (2, 'su2/su2-2ch')]), ('U1', [(c, 'u1/u1-%dch' % c) for c in (1, 2, 3)])]
def load(f, nm):
    d = {}
    for l in open(B + f):
        m = re.match(r'\s*%s\[(\d+)\]\s*=\s*Invar\(([^)]*)\);\s*$' % nm, l)
        if m: d[int(m.group(1))] = [int(x) for x in m.group(2).split(',')]
        elif l.strip(): raise SystemExit('unparsed line %r in %s' % (l, f))
    if sorted(d) != list(range(1, len(d) + 1)): raise SystemExit('index gap in ' + f)
    return [d[i] for i in range(1, len(d) + 1)]
def lst(t):
    s = '; '.join('[' + '; '.join(('(%d)' if v < 0 else '%d') % v for v in r) + ']' for r in t)
    out, line = [], '  '
    for w in s.split(' '):
        if len(line) + len(w) > 116: out.append(line); line = '   '
        line += w + ' '
    return '\n'.join(out + [line.rstrip()])
o = ['(** Generated by gen/gen_tables.py: the local-state tables shipped with the code, 0-based order (after',
     '    /repo/c++/symmetry.hpp:74-77 [erase_first]). Do not edit. *)',
     'From Coq Require Import List ZArith String.', 'From Verif Require Import Base Invar_model Symmetry_model.',
     'Import ListNotations.', 'Local Open Scope string_scope.', 'Local Open Scope Z_scope.', '']
entries = []
for s, fs in T:
    for ch, f in fs:
        n = f.split('/')[1].replace('-', '_')
        for suf, nm in (('In2', 'In'), ('QN', 'QN')):
            o.append('(** /repo/c++/symmetry/coefnew/%s-%s.dat *)' % (f, suf))
            o.append('Definition %s_%s : list invar := [\n%s].' % (n, nm, lst(load(f + '-' + suf + '.dat', nm))))
        entries.append('  mk_shipped "%s" %d%%nat sym_%s {| tb_In := %s_In; tb_QN := %s_QN |}' % (s, ch, s, n, n))
o.append('')
o.append('(** All 51 (symmetry type, number of channels) combinations the [load()] functions provide. *)')
o.append('Definition shipped : list shipped_table := [\n' + ';\n'.join(entries) + '].')
open(sys.argv[1], 'w').write('\n'.join(o) + '\n')
