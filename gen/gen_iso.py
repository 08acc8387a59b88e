#!/usr/bin/env python3
"""Writes Coef_iso_*.v (evaluation of the check of Coef_iso.v for the sets evaluated in Coef_hop_*.v) and Coef_isos.v."""
import re, os
T = os.path.join(os.path.dirname(os.path.abspath(__file__)), '..', 'rocq', 'theories')
groups = ['QS', 'ISO', 'LR', 'QST', 'SPSU2T', 'AB', 'DBL']
order_names = []
def op_names(tabsrc, s):
    m = re.search(r'Definition coef_%s : coef_set := mk_coef "(\w+)" (\d+)%%nat .*?\n  \[(.*?)\]\n  \[(.*?)\]\n' % s, tabsrc, re.S)
    out = []
    for t in [x.strip() for x in m.group(4).split(';') if x.strip()]:
        out.append(re.search(r'Definition %s : ten_table := mk_ten "(\w+)"' % t, tabsrc).group(1))
    last = []
    for k, n in enumerate(out):
        if n not in out[k+1:]: last.append(n)
    return m.group(1), int(m.group(2)), last
allnames = []
for g in groups:
    src = open(f'{T}/Coef_run_{g}.v').read()
    tabs = re.findall(r'Coef_tab_\w+', src)
    tabsrc = ''.join(open(f'{T}/{t}.v').read() for t in tabs)
    sets = re.findall(r'Lemma car_(\w+)', src)
    allnames += sets
    out = ['(** Evaluation of the check of Coef_iso.v, with closed forms found by search (confirmed by the check). *)',
           'From Verif Require Import Coef_spec Coef_sector Coef_lines_spec Coef_check Coef_iso.',
           'From Verif Require Import Coef_hop_%s %s.' % (g, ' '.join(tabs)), 'From Coq Require Import String List.', 'Import ListNotations.', 'Local Open Scope string_scope.', '']
    for s in sets:
        name, ch, ops = op_names(tabsrc, s)
        items = []
        for n in ops:
            if name == 'SPU1LR' or (name == 'SPSU2' and ch == 3 and n == 'triplet'):
                items.append('left; reflexivity'); continue
            if n == 'doublet': c = f'dc_{s}'
            else:
                c = f'tc_{n}_{s}'
                out.append(f'Definition {c} := Eval vm_compute in ten_certs_of (mended coef_{s}) "{n}".')
            out += [f'Lemma iso_{n}_{s} : run_iso (mended coef_{s}) "{n}" {c} = true.', 'Proof. vm_cast_no_check (eq_refl true). Qed.']
            items.append(f'right; exists {c}; exact iso_{n}_{s}')
        l = '; '.join('"%s"' % n for n in ops)
        out += [f'Lemma iso_{s} : Forall (fun n => incomplete coef_{s} n = true \\/ exists T, run_iso (mended coef_{s}) n T = true) (op_names coef_{s}).',
                f'Proof. assert (E : op_names coef_{s} = [{l}]) by reflexivity. rewrite E. ' + ''.join(f'constructor; [{i}|]. ' for i in items) + 'constructor. Qed.']
    open(f'{T}/Coef_iso_{g}.v', 'w').write('\n'.join(out) + '\n')
car = open(f'{T}/Coef_car.v').read()
E = re.search(r'filter translated all_coef = \[(.*?)\]', car, re.S).group(1)
alltabs = sorted(set(re.findall(r'Coef_tab_\w+', car)))
order = [x.strip()[len('coef_'):] for x in E.split(';')]
assert sorted(order) == sorted(allnames)
out = ['(** The check of Coef_iso.v holds for every translated set of tables. *)',
       'From Coq Require Import List ZArith Bool String.',
       'From Verif Require Import Coef_model Coef_spec Coef_lines_spec Coef_iso Coef_tables.',
       'From Verif Require Import %s %s.' % (' '.join('Coef_iso_' + g for g in groups), ' '.join(alltabs)),
       'Import ListNotations.', '',
       'Lemma iso_all : Forall (fun cs => Forall (fun n => incomplete cs n = true \\/ exists T, run_iso (mended cs) n T = true) (op_names cs)) (filter translated all_coef).', 'Proof.',
       f'  assert (E : filter translated all_coef = [{E}]) by reflexivity.', '  rewrite E. clear E.']
out += [f'  constructor; [exact iso_{s}|].' for s in order] + ['  constructor.', 'Qed.']
open(f'{T}/Coef_isos.v', 'w').write('\n'.join(out) + '\n')
