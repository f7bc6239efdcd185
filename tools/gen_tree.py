#!/usr/bin/env python3
"""Translate the matching conditions c[...] = ... of _match_all_array in
/repo/wilson/match/smeft_tree.py into the Gallina term TreeProg.tree_prog.  A purely
syntactic translation: one constructor per Python operator.  sqrt(2) and
np.zeros((3,3,3,3)) become the variables "sqrt2" and "zeros"."""
import ast
SRC = '/repo/wilson/match/smeft_tree.py'
fn = [n for n in ast.parse(open(SRC).read()).body if isinstance(n, ast.FunctionDef) and n.name == '_match_all_array'][0]
OPS = {ast.Add: 'EAdd', ast.Sub: 'ESub', ast.Mult: 'EMul', ast.Div: 'EDiv'}
def q(s): return '"%s"' % s
def cv(e):
    t = type(e)
    if t is ast.BinOp:
        if isinstance(e.op, ast.Pow):
            assert isinstance(e.right.value, int)
            return '(EPow %s %d)' % (cv(e.left), e.right.value)
        return '(%s %s %s)' % (OPS[type(e.op)], cv(e.left), cv(e.right))
    if t is ast.UnaryOp and isinstance(e.op, ast.USub): return '(ENeg %s)' % cv(e.operand)
    if t is ast.Constant: assert e.value == int(e.value); return '(ENum %d)' % int(e.value)
    if t is ast.Name: return '(EV %s)' % q(e.id)
    if t is ast.Subscript: assert e.value.id == 'C'; return '(EC %s)' % q(e.slice.value)
    if t is ast.Call:
        if ast.unparse(e) == 'sqrt(2)': return '(EV "sqrt2")'
        if ast.unparse(e) == 'np.zeros((3, 3, 3, 3))': return '(EV "zeros")'
        if e.func.id == 'einsum':
            a = e.args[1:]
            return '(EEin%d %s %s)' % (len(a), q(e.args[0].value), ' '.join(cv(x) for x in a))
    raise SystemExit('unsupported: ' + ast.dump(e))
out = []
for s in fn.body:
    if isinstance(s, ast.Assign) and isinstance(s.targets[0], ast.Subscript) and s.targets[0].value.id == 'c':
        out.append((s.targets[0].slice.value, cv(s.value), s.lineno))
def wrap(s, w=150):
    lines, cur = [], '    '
    for tok in s.replace('(', ' (').split():
        if len(cur) + len(tok) + 1 > w: lines.append(cur); cur = '    '
        cur += ' ' + tok
    return '\n'.join(lines + [cur])
print('(* Generated by tools/gen_tree.py from wilson/match/smeft_tree.py:%d-%d; do not edit. *)' % (out[0][2], out[-1][2]))
print('From Coq Require Import List ZArith String.\nFrom Verif Require Import BetaModel.\nImport ListNotations.')
print('Local Open Scope string_scope.\nLocal Open Scope Z_scope.\n')
for k, e, a in out:
    print('(* smeft_tree.py:%d *)' % a)
    print('Definition t_%s : ex :=\n%s.' % (k, wrap(e)))
print('\n(* the assignments c[k] = ... in the order of the code *)\nDefinition tree_prog : list (string * ex) :=\n%s.' % wrap('[' + '; '.join('("%s", t_%s)' % (k, k) for k, _, _ in out) + ']'))
