#!/usr/bin/env python3
"""Writes Coef_hop_*.v (evaluation of the checks of Coef_check.v for the sets evaluated in Coef_run_*.v) and Coef_hop.v."""
import re, os
T = os.path.join(os.path.dirname(os.path.abspath(__file__)), '..', 'rocq', 'theories')
groups = ['QS', 'ISO', 'LR', 'QST', 'SPSU2T', 'AB', 'DBL']
names = []
for g in groups:
    src = open(f'{T}/Coef_run_{g}.v').read()
    tabs = re.findall(r'Coef_tab_\w+', src)
    sets = re.findall(r'Lemma car_(\w+)', src)
    names += sets
    out = ['(** Evaluation of the checks of Coef_check.v, with closed forms found by search (confirmed by the check). *)',
           'From Verif Require Import Coef_spec Coef_sector Coef_lines_spec Coef_check Coef_check_sound.',
           'From Verif Require Import Coef_run_%s %s.' % (g, ' '.join(tabs)), 'From Coq Require Import String.', 'Local Open Scope string_scope.', '']
    for s in sets:
        out += [f'Definition dc_{s} := Eval vm_compute in ten_certs_of (mended coef_{s}) "doublet".',
                f'Definition oc_{s} := Eval vm_compute in off_certs_of coef_{s}.',
                f'Definition gc_{s} := Eval vm_compute in diag_certs_of coef_{s}.',
                f'Lemma hop_{s} : run_lines (mended coef_{s}) cert_{s} dc_{s} oc_{s} gc_{s} = true.',
                'Proof. vm_cast_no_check (eq_refl true). Qed.']
    open(f'{T}/Coef_hop_{g}.v', 'w').write('\n'.join(out) + '\n')
car = open(f'{T}/Coef_car.v').read()
E = re.search(r'filter translated all_coef = \[(.*?)\]', car, re.S).group(1)
alltabs = sorted(set(re.findall(r'Coef_tab_\w+', car)))
order = [x.strip()[len('coef_'):] for x in E.split(';')]
assert sorted(order) == sorted(names)
out = ['(** The checks of Coef_check.v hold for every translated set of tables. *)',
       'From Coq Require Import List ZArith Bool String.',
       'From Verif Require Import Coef_model Coef_spec Coef_lines_spec Coef_check Coef_check_sound Coef_tables.',
       'From Verif Require Import %s %s.' % (' '.join('Coef_hop_' + g for g in groups), ' '.join(alltabs)),
       'Import ListNotations.', '',
       'Lemma hop_all : Forall (fun cs => exists C T O G, run_lines (mended cs) C T O G = true) (filter translated all_coef).', 'Proof.',
       f'  assert (E : filter translated all_coef = [{E}]) by reflexivity.', '  rewrite E. clear E.']
out += [f'  constructor; [do 4 eexists; exact hop_{s}|].' for s in order] + ['  constructor.', 'Qed.']
open(f'{T}/Coef_hop.v', 'w').write('\n'.join(out) + '\n')
