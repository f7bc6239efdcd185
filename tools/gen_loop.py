#!/usr/bin/env python3
"""Generate rocq/theories/LoopData.v from /repo/wilson/match/smeft_loop.py.

Every matching condition c[k] = ... is a sum of terms; a term is a product of numbers, powers of
scalar variables, logarithms, sums of scalar variables, at most one scalar Wilson coefficient and
at most one tensor (einsum, np.diag, ...).  The terms with the same tensor and scalar coefficient
are collected (in exact arithmetic the order of the terms does not matter); their scalar factors
are written as a list of (numerator, denominator, monomial)."""
import ast, collections, re, sys
from fractions import Fraction as F
sys.setrecursionlimit(100000)
src = open('/repo/wilson/match/smeft_loop.py').read()
fun = [n for n in ast.parse(src).body if isinstance(n, ast.FunctionDef) and n.name == '_match_all_array'][0]
BASE = {'mW': 'BW', 'mZ': 'BZ', 'mH': 'BH', 'mt': 'Bt', 'vT': 'Bv', 'g1bar': 'Bg1', 'g2bar': 'Bg2', 'g3bar': 'Bg3', 'pi': 'Bpi', 'sqrt(2)': 'Br2', 'Nc': 'BNc', 'cf': 'Bcf',
        'aEvan': 'BEv', 'bEvan': 'BEv', 'cEvan': 'BEv', 'dEvan': 'BEv', 'eEvan': 'BEv', 'complex(0, 1)': 'Bi',
        'log(scale ** 2 / mW ** 2)': 'BlW', 'log(scale ** 2 / mZ ** 2)': 'BlZ', 'log(scale ** 2 / mH ** 2)': 'BlH', 'log(scale ** 2 / mt ** 2)': 'Blt'}
ORDER = ['BW', 'BZ', 'BH', 'Bt', 'Bv', 'Bg1', 'Bg2', 'Bg3', 'Bpi', 'Br2', 'BNc', 'Bcf', 'BEv', 'Bi', 'BlW', 'BlZ', 'BlH', 'Blt']
OPND = {'kd': 'Okd', 'kdt': 'Okt', 'V': 'OV', 'Vdag': 'OVd', 'mu': '(OM Fu)', 'md': '(OM Fd)', 'me': '(OM Fe)',
        'np.diag(mu)': '(OD Fu)', 'np.diag(md)': '(OD Fd)', 'np.diag(me)': '(OD Fe)'}

def terms(e, s=1):
    if isinstance(e, ast.BinOp) and isinstance(e.op, ast.Add): return terms(e.left, s) + terms(e.right, s)
    if isinstance(e, ast.BinOp) and isinstance(e.op, ast.Sub): return terms(e.left, s) + terms(e.right, -s)
    if isinstance(e, ast.UnaryOp) and isinstance(e.op, ast.USub): return terms(e.operand, -s)
    return [(s, e)]

def operand(u):
    m = re.fullmatch(r"C\['(\w+)'\]", u)
    return '(OC "%s")' % m.group(1) if m else OPND[u]

class Tab:
    def __init__(self, pre, ty): self.pre, self.ty, self.d = pre, ty, {}
    def get(self, x):
        if x not in self.d: self.d[x] = '%s%d' % (self.pre, len(self.d))
        return self.d[x]
    def dump(self): return ''.join('Definition %s : %s := %s.\n' % (n, self.ty, x) for x, n in self.d.items())
sums, monos, prefs, tensors = Tab('s', 'psum'), Tab('m', 'mono'), Tab('p', 'pref'), Tab('t', 'tensor')

def plain(e):
    """product of numbers and powers of base variables -> (coefficient, factors)"""
    c, f, s = split(e)[:3]
    assert not s
    return c, f
def z(n): return '(%d)' % n if n < 0 else '%d' % n
def fac(f): return '[' + '; '.join('(%s, %s)' % (b, z(f[b])) for b in ORDER if f.get(b)) + ']'

def split(e):
    """(coefficient, base factors, sum factors, tensor, scalar Wilson coefficients)"""
    c, f, s, t, w = F(1), collections.Counter(), collections.Counter(), None, []
    vec = []
    def go(e, p):
        nonlocal c, t
        if isinstance(e, ast.UnaryOp) and isinstance(e.op, ast.USub):
            assert p % 2; c = -c; return go(e.operand, p)
        if isinstance(e, ast.BinOp) and isinstance(e.op, ast.Mult): go(e.left, p); return go(e.right, p)
        if isinstance(e, ast.BinOp) and isinstance(e.op, ast.Div): go(e.left, p); return go(e.right, -p)
        if isinstance(e, ast.BinOp) and isinstance(e.op, ast.Pow): assert isinstance(e.right.value, int); return go(e.left, p * e.right.value)
        if isinstance(e, ast.Constant): c *= F(e.value) ** p; return
        u = ast.unparse(e)
        if u in BASE: f[BASE[u]] += p; return
        if isinstance(e, ast.BinOp) and isinstance(e.op, (ast.Add, ast.Sub)):
            l = []
            for sg, x in terms(e):
                a, b = plain(x); a *= sg; assert a.denominator == 1
                l.append('(%s, %s)' % (z(a.numerator), fac(b)))
            s[sums.get('[' + '; '.join(l) + ']')] += p; return
        assert p == 1, u
        m = re.fullmatch(r"einsum\('([^']*)', (.*)\)", u)
        if m: assert t is None; t = (m.group(1), [operand(x) for x in m.group(2).split(', ')]); return
        m = re.fullmatch(r"np\.diag\(\w+\)", u)
        if m: assert t is None; t = ('pr', [operand(u)]); return
        m = re.fullmatch(r"\((C\['\w+'\])\.T \* (m[ude])\)\.T", u)
        if m: assert t is None; t = ('pr,p->pr', [operand(m.group(1)), operand(m.group(2))]); return
        m = re.fullmatch(r"(C\['\w+'\])\[2, 2\]", u)
        if m: assert t is None; t = ('TT,TT', [operand(m.group(1)), 'Okt']); return
        if u in ('mu', 'md', 'me'): vec.append(u); return
        m = re.fullmatch(r"C\['(\w+)'\]", u)
        if m: w.append(m.group(1)); return
        raise Exception(u)
    go(e, 1)
    if vec:                                    # C['x'] * m: the columns are multiplied
        assert t is None and len(vec) == 1 and len(w) == 1
        t = ('pr,r->pr', [operand("C['%s']" % w[0]), OPND[vec[0]]]); w = []
    assert len(w) <= 1
    return c, f, s, t, w

lines, zero, nterms = [], [], 0
for st in fun.body:
    if not (isinstance(st, ast.Assign) and isinstance(st.targets[0], ast.Subscript) and st.targets[0].value.id == 'c'): continue
    k = st.targets[0].slice.value
    u = ast.unparse(st.value)
    if u == 'np.zeros((3, 3, 3, 3))': zero.append(k); continue
    if u == "V @ c['%s']" % k: assert k in ('dgamma', 'dG'); continue
    groups = collections.OrderedDict()
    for sg, e in terms(st.value):
        c, f, s, t, w = split(e); c *= sg; nterms += 1
        m = monos.get('(%s, [%s])' % (fac(f), '; '.join('(%s, %s)' % (x, z(s[x])) for x in sorted(s, key=lambda y: int(y[1:])) if s[x])))
        key = (tensors.get('("%s", [%s])' % (t[0], '; '.join(t[1]))) if t else None, w[0] if w else None)
        groups.setdefault(key, []).append((int(m[1:]), c))
    gl = []
    for (t, w), l in groups.items():
        l.sort()
        p = prefs.get('[' + '; '.join('T %s %d m%d' % (z(c.numerator), c.denominator, m) for m, c in l) + ']')
        gl.append('(%s, %s, %s)' % ('Some ' + t if t else 'None', 'Some "%s"' % w if w else 'None', p))
    lines.append('  ("%s", [%s])' % (k, ';\n    '.join(gl)))
out = open('/verif/rocq/theories/LoopData.v', 'w')
out.write('''(* Generated by tools/gen_loop.py from wilson/match/smeft_loop.py: the right-hand sides of the
   assignments c[k] = ... in _match_all_array, lines 60-149 (%d terms).
   The terms of one assignment that have the same tensor and the same scalar Wilson coefficient are
   collected.  aEvan, ..., eEvan are one variable (all are 1).  np.diag(m) is the operand OD of the
   einsum "pr", (C.T * m).T is "pr,p->pr", C * m is "pr,r->pr", and C[2,2] is "TT,TT" with kdt. *)
From Coq Require Import List ZArith String.
From Verif Require Import BetaSpec LoopSyntax.
Import ListNotations.
Local Open Scope Z_scope.
Local Open Scope string_scope.
Local Open Scope list_scope.
''' % nterms)
out.write('(* sums in denominators *)\n' + sums.dump() + 'Definition loop_sums : list psum := [' + '; '.join(sums.d.values()) + '].\n' + '(* monomials *)\n' + monos.dump() + '(* scalar factors *)\n' + prefs.dump() + '(* tensors *)\n' + tensors.dump())
out.write('(* smeft_loop.py:60-117 and 134-149 *)\nDefinition loop_prog : list (string * list group) := [\n' + ';\n'.join(lines) + '].\n')
out.write('(* smeft_loop.py:120-130 *)\nDefinition loop_zero : list string := [' + '; '.join('"%s"' % k for k in zero) + '].\n')
out.close()
print(nterms, len(sums.d), len(monos.d), len(prefs.d), len(tensors.d))
