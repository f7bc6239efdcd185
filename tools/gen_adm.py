#!/usr/bin/env python3
"""Generate rocq/theories/AdmData.v from the text of wilson/run/wet/adm.py,
wilson/run/wet/definitions.py and wilson/data/run_wet_definitions_coeffs.json.

Every entry of every anomalous dimension matrix is translated one to one from the
abstract syntax of the source.  Entries that are the literal 0 are left out (the row
lists are sparse: pairs of column and expression)."""
import ast
import json
import sys
from fractions import Fraction

REPO = sys.argv[1] if len(sys.argv) > 1 else '/repo'
OUT = sys.argv[2] if len(sys.argv) > 2 else '/verif/rocq/theories/AdmData.v'
src = open(REPO + '/wilson/run/wet/adm.py').read()
tree = ast.parse(src)
ARGS = ['f', 'mu', 'md', 'ms', 'mc', 'mb', 'me', 'mmu', 'mtau']
VAR = {'mu': 'Mu', 'md': 'Md', 'ms': 'Ms', 'mc': 'Mc', 'mb': 'Mb', 'me': 'Me', 'mmu': 'Mmu', 'mtau': 'Mtau'}


def ex(e):
    if isinstance(e, ast.Constant):
        if e.value == 1j:
            return 'AJ'
        if isinstance(e.value, float):
            q = Fraction(repr(e.value))
            return '(Dec %d %d)' % (q.numerator, q.denominator)
        assert isinstance(e.value, int)
        return '(N %d)' % e.value
    if isinstance(e, ast.Name):
        return 'B0' if e.id == 'b0g' else '(V %s)' % VAR[e.id]
    if isinstance(e, ast.UnaryOp):
        assert isinstance(e.op, ast.USub)
        return '(Neg %s)' % ex(e.operand)
    op = {ast.Add: 'Add', ast.Mult: 'Mul', ast.Div: 'Div'}[type(e.op)]
    return '(%s %s %s)' % (op, ex(e.left), ex(e.right))


out = ['''(* GENERATED by tools/gen_adm.py; do not edit.
   Data of wilson/run/wet: the anomalous dimension matrices of adm.py, the table `classes`
   of definitions.py and the table data/run_wet_definitions_coeffs.json (definitions.py:33-35).
   An entry of a matrix is the expression written in the source; entries that are the
   literal 0 are left out, so a row is a list of (column, expression). *)
From Coq Require Import List ZArith String.
Import ListNotations.
Local Open Scope string_scope.
Local Open Scope Z_scope.

(* the mass arguments of the functions in adm.py *)
Inductive mvar := Mu | Md | Ms | Mc | Mb | Me | Mmu | Mtau.
(* the expressions in adm.py: integer literals, decimal literals (n / d in lowest terms), 1j, masses, b0g, -x, x + y, x * y, x / y *)
Inductive aexp :=
| N (n : Z) | Dec (n : Z) (d : positive) | AJ | V (v : mvar) | B0
| Neg (a : aexp) | Add (a b : aexp) | Mul (a b : aexp) | Div (a b : aexp).
Definition arow := list (nat * aexp).
Definition amat := list arow.
''']
names = []
for fn in tree.body:
    if isinstance(fn, ast.FunctionDef) and fn.name.startswith('adm_'):
        assert [a.arg for a in fn.args.args] == ARGS
        body = fn.body[1:]
        if len(body) == 2:
            assert ast.unparse(body[0]) == 'b0g = _b0g(f)'
        else:
            assert len(body) == 1
        ret = body[-1].value
        assert ast.unparse(ret.func) == 'np.array' and len(ret.args) == 1 and not ret.keywords
        rows = ret.args[0].elts
        n = len(rows)
        out.append('(* adm.py:%d-%d *)' % (fn.lineno, fn.end_lineno))
        rr = []
        for r in rows:
            assert len(r.elts) == n
            cs = []
            for j, e in enumerate(r.elts):
                if isinstance(e, ast.Constant) and e.value == 0:
                    continue
                cs.append('(%d%%nat, %s)' % (j, ex(e).strip() if not ex(e).startswith('(') else ex(e)[1:-1]))
            rr.append('[' + '; '.join(cs) + ']')
        out.append('Definition %s : amat := [\n  %s].\n' % (fn.name, ';\n  '.join(rr)))
        names.append(fn.name)
out.append('(* getattr(adm, name): the functions adm_*(f, ...) of adm.py *)')
out.append('Definition adm_table : list (string * amat) := [\n  %s].\n' % ';\n  '.join('("%s", %s)' % (n, n) for n in names))

d = open(REPO + '/wilson/run/wet/definitions.py').read()
for n in ast.parse(d).body:
    if isinstance(n, ast.Assign) and n.targets[0].id == 'classes':
        classes = ast.literal_eval(n.value)
        ln = (n.lineno, n.end_lineno)


def strs(l):
    return '[' + '; '.join('"%s"' % s for s in l) + ']'


out.append('(* definitions.py:%d-%d *)' % ln)
out.append('Definition classes : list (string * list string) := [\n  %s].\n'
           % ';\n  '.join('("%s", %s)' % (k, strs(v)) for k, v in classes.items()))
coeffs = json.load(open(REPO + '/wilson/data/run_wet_definitions_coeffs.json'))
out.append('(* data/run_wet_definitions_coeffs.json *)')
out.append('Definition coeffs : list (string * list string) := [\n  %s].'
           % ';\n  '.join('("%s", %s)' % (k, strs(v)) for k, v in coeffs.items()))
open(OUT, 'w').write('\n'.join(out) + '\n')
