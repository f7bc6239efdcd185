#!/usr/bin/env python3
"""Translate the body of beta() in /repo/wilson/run/smeft/beta.py into the Gallina term
BetaProg.beta_prog.  A purely syntactic translation: one constructor per Python operator."""
import ast, sys
SRC = '/repo/wilson/run/smeft/beta.py'
fn = [n for n in ast.parse(open(SRC).read()).body if isinstance(n, ast.FunctionDef) and n.name == 'beta'][0]
OPS = {ast.Add: 'EAdd', ast.Sub: 'ESub', ast.Mult: 'EMul', ast.Div: 'EDiv', ast.MatMult: 'EMat'}
def q(s): return '"%s"' % s
def cv(e):
    t = type(e)
    if t is ast.BinOp:
        if isinstance(e.op, ast.Pow):
            assert isinstance(e.right.value, int)
            return '(EPow %s %d)' % (cv(e.left), e.right.value)
        return '(%s %s %s)' % (OPS[type(e.op)], cv(e.left), cv(e.right))
    if t is ast.UnaryOp and isinstance(e.op, ast.USub): return '(ENeg %s)' % cv(e.operand)
    if t is ast.Constant:
        v = e.value
        if isinstance(v, complex):
            assert v.real == 0 and v.imag == int(v.imag); return '(EIm %d)' % int(v.imag)
        assert isinstance(v, int); return '(ENum %d)' % v
    if t is ast.Name: return '(EV %s)' % q(e.id)
    if t is ast.Subscript: assert e.value.id == 'C'; return '(EC %s)' % q(e.slice.value)
    if t is ast.Attribute and e.attr == 'T': return '(ET %s)' % cv(e.value)
    if t is ast.Call:
        f = e.func
        if isinstance(f, ast.Attribute):
            if f.attr == 'conj' and not e.args: return '(EConj %s)' % cv(f.value)
            if isinstance(f.value, ast.Name) and f.value.id == 'np' and len(e.args) == 1:
                if f.attr == 'conj': return '(EConj %s)' % cv(e.args[0])
                if f.attr == 'trace': return '(ETrace %s)' % cv(e.args[0])
        if isinstance(f, ast.Name) and f.id == 'my_einsum':
            a = e.args[1:]
            return '(EEin%d %s %s)' % (len(a), q(e.args[0].value), ' '.join(cv(x) for x in a))
    raise SystemExit('unsupported: ' + ast.dump(e))
out = []
for s in fn.body:
    if isinstance(s, ast.Assign):
        (t,) = s.targets
        if isinstance(t, ast.Name):
            if t.id == 'Beta': continue      # Beta = OrderedDict()
            out.append(('SLocal %s' % q(t.id), cv(s.value), s.lineno, s.end_lineno))
        else:
            assert t.value.id == 'Beta'
            out.append(('SBeta %s' % q(t.slice.value), cv(s.value), s.lineno, s.end_lineno))
    elif isinstance(s, ast.If):
        assert ast.unparse(s.test) == 'not newphys'
        out.append(('SReturnUnlessNP', '', s.lineno, s.end_lineno))
    elif isinstance(s, ast.Return): assert s.value.id == 'Beta'
    else: assert isinstance(s, ast.Expr) and isinstance(s.value, ast.Constant)   # docstrings
def wrap(s, w=150):
    lines, cur = [], '    '
    for tok in s.replace('(', ' (').split():
        if len(cur) + len(tok) + 1 > w: lines.append(cur); cur = '    '
        cur += ' ' + tok
    return '\n'.join(lines + [cur])
print('(* Generated by tools/gen_beta.py from wilson/run/smeft/beta.py:39-1814; do not edit. *)')
print('From Coq Require Import List ZArith String.\nFrom Verif Require Import BetaModel.\nImport ListNotations.')
print('Local Open Scope string_scope.\nLocal Open Scope Z_scope.\n')
names = []
for i, (head, e, a, b) in enumerate(out):
    n = 'st%02d' % i; names.append(n)
    print('(* beta.py:%d-%d *)' % (a, b))
    print('Definition %s : stmt := %s%s.' % (n, head, '\n' + wrap(e) if e else ''))
print('\n(* the function beta *)\nDefinition beta_prog : list stmt :=\n%s.' % wrap('[' + '; '.join(names) + ']'))
