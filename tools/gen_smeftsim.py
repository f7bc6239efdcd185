#!/usr/bin/env python3
"""Generate SimData.v from wilson/wcxf/converters/smeftsim.py (smeftsim_card_fill)."""
import ast, re
src = open('/repo/wilson/wcxf/converters/smeftsim.py').read()
tree = ast.parse(src)
fn = [f for f in tree.body if isinstance(f, ast.FunctionDef) and f.name == 'smeftsim_card_fill'][0]
iff = [s for s in fn.body if isinstance(s, ast.If)][0]
ini = [f for f in tree.body if isinstance(f, ast.FunctionDef) and f.name == 'initialize_smeftsim_card'][0]
iin = [s for s in ini.body if isinstance(s, ast.If)][0]
KINDS = {
    "format(abs(scaled_wc(K)) * lambda_smeft_value ** 2, '.6e')": 'VAbs',
    "format(abs(scaled_wc(K) * lambda_smeft_value ** 2), '.6e')": 'VAbsOut',
    "format(angle(scaled_wc(K)), '.6e')": 'VAng',
    "format(scaled_wc(K) * lambda_smeft_value ** 2, '.6e')": 'VVal',
}
def bname(t):
    return re.fullmatch(r"card\['Block'\]\['(\w+)'\]", ast.unparse(t)).group(1)
def entry(e):
    idx = [x.value for x in e.elts[:-2]]
    x = ast.unparse(e.elts[-2])
    com = e.elts[-1].value
    if x == "format(lambda_smeft_value, '.6e')":
        v = 'VLambda'
    else:
        key = re.search(r"scaled_wc\('([^']*)'\)", x).group(1)
        v = '%s "%s"' % (KINDS[re.sub(r"scaled_wc\('[^']*'\)", 'scaled_wc(K)', x)], key)
    return '([%s], %s, "%s")' % ('; '.join(map(str, idx)), v, com)
out = ["""(* Generated by tools/gen_smeftsim.py from wilson/wcxf/converters/smeftsim.py, lines 9-5319:
   the blocks of the parameter card, and for every line its indices, the expression of its
   value and its comment.  Do not edit. *)
From Coq Require Import List String ZArith.
Import ListNotations.
Local Open Scope string_scope.
Local Open Scope Z_scope.

(* the expressions: abs(scaled_wc(k))*L**2, abs(scaled_wc(k)*L**2), angle(scaled_wc(k)),
   scaled_wc(k)*L**2 and L, with L = lambda_smeft_value *)
Inductive vexpr := VAbs (k : string) | VAbsOut (k : string) | VAng (k : string) | VVal (k : string) | VLambda.
Definition cardline : Type := list Z * vexpr * string.
"""]
for n, body, ib in (('A', iff.body, iin.body), ('B', iff.orelse[0].body, iin.orelse[0].body)):
    names = [bname(s.targets[0]) for s in ib if isinstance(s, ast.Assign) and ast.unparse(s.targets[0]) != 'card']
    out.append('(* initialize_smeftsim_card(%r) *)\nDefinition init_%s : list string :=\n  [%s].' % (n, n, '; '.join('"%s"' % x for x in names)))
    bl = []
    for s in body:
        if isinstance(s, ast.Assign):
            es = s.value.values[0].elts
            out.append('(* smeftsim.py:%d *)\nDefinition %s_%s : list cardline :=\n  [%s].' % (s.lineno, n, bname(s.targets[0]), ';\n   '.join(entry(e) for e in es)))
            bl.append(bname(s.targets[0]))
        else:
            assert n == 'A' and ast.unparse(s.test) == "input_scheme_value == 'mw'"
    out.append('Definition card_%s : list (string * list cardline) :=\n  [%s].' % (n, '; '.join('("%s", %s_%s)' % (b, n, b) for b in bl)))
open('/verif/rocq/theories/SimData.v', 'w').write('\n'.join(out) + '\n')
