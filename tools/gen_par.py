#!/usr/bin/env python3
"""Generate rocq/theories/ParData.v: for each sector of run_wet_definitions_coeffs.json the
positions of the mirror images (the certificate checked in ParProofs.v)."""
import json
import re
import sys

REPO = sys.argv[1] if len(sys.argv) > 1 else '/repo'
OUT = sys.argv[2] if len(sys.argv) > 2 else '/verif/rocq/theories/ParData.v'
coeffs = json.load(open(REPO + '/wilson/data/run_wet_definitions_coeffs.json'))
if 'sb' not in coeffs:
    coeffs = next(v for v in coeffs.values() if isinstance(v, dict) and 'sb' in v)
DIP = ('dG', 'uG', 'dgamma', 'ugamma', 'egamma')
BNV = ('SduuLL', 'SduuRR', 'SuudLR', 'SuudRL', 'SduuLR', 'SduuRL')


def parity(key):
    if key in ('G', 'Gtilde'):
        return key, 1
    n, i = key.split('_')
    if n in DIP:
        return n + '_' + i[::-1], 1
    if 'nuedu' in n or n in ('SdduRL', 'SdudRL', 'SuddLL'):
        return None
    if n.startswith('V'):
        if 'nunu' in n:
            return key, 0
        if n.startswith('Vnu'):
            return n[:-2] + ('LR' if n.endswith('LL') else 'LL') + '_' + i, 0
        if 'uddu' in n:
            return n + '_' + i[::-1], 1
        if n.endswith('LL'):
            return n[:-2] + 'RR_' + i, 0
        if n.endswith('RR'):
            return n[:-2] + 'LL_' + i, 0
        pre = re.match(r'V[18]?', n).group(0)
        f = n[len(pre):-2]
        return pre + f[1] + f[0] + 'LR_' + i[2:] + i[:2], 0
    if 'uddu' in n:
        return n + '_' + i[::-1], 1
    if n in BNV:
        c = n[-2:]
        return n[:-2] + {'LL': 'RR', 'RR': 'LL', 'LR': 'RL', 'RL': 'LR'}[c] + '_' + i, 0
    return n + '_' + i[1] + i[0] + i[3] + i[2], 1


def syms(n):
    if n in ('VddLL', 'VddRR', 'VuuLL', 'VuuRR'):
        return [('0123', 0), ('2301', 0), ('1032', 1), ('3210', 1)]
    if n in ('VeeLL', 'VeeRR', 'VnunuLL'):
        return [('0123', 0), ('2301', 0), ('0321', 0), ('2103', 0), ('1032', 1), ('3210', 1), ('3012', 1), ('1230', 1)]
    if n in ('S1ddRR', 'S8ddRR', 'S1uuRR', 'S8uuRR', 'SeeRR'):
        return [('0123', 0), ('2301', 0)]
    if n.startswith('V') and 'uddu' not in n:
        return [('0123', 0), ('1032', 1)]
    return [('0123', 0)]


def labels(key):
    k, c = parity(key)
    if '_' not in k or len(k.split('_')[1]) == 2:
        return [(k, c)]
    n, i = k.split('_')
    return [(n + '_' + ''.join(i[int(x)] for x in p), c ^ d) for p, d in syms(n)]


out = []
for s, keys in coeffs.items():
    if any(parity(k) is None for k in keys):
        continue
    row = []
    for k in keys:
        hits = sorted((c, keys.index(l)) for l, c in labels(k) if l in keys)
        row.append('(%d, %s)' % (hits[0][1], 'true' if hits[0][0] else 'false'))
    out.append('  ("%s", [%s])' % (s, '; '.join(row)))
open(OUT, 'w').write('''(* GENERATED by tools/gen_par.py; do not edit.
   For each sector with mirror images: for each coefficient the position of its mirror image in the list of the
   coefficients of the sector, and whether it is conjugated.  Only a certificate: ParProofs.v checks it. *)
From Coq Require Import List String.
Import ListNotations.
Local Open Scope string_scope.

Definition par_data : list (string * list (nat * bool)) := [
''' + ';\n'.join(out) + '''].
''')
