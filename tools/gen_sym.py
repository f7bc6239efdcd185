#!/usr/bin/env python3
"""Transcribe the symmetrize_N / scale_8 / unscale_8 functions of
/repo/wilson/util/common.py into rocq/theories/SymTables.v, line by line."""
import ast,re
SRC='/repo/wilson/util/common.py'
src=open(SRC).read(); tree=ast.parse(src)
cls=[n for n in tree.body if isinstance(n,ast.ClassDef)][0]
fns={f.name:f for f in cls.body if isinstance(f,ast.FunctionDef)}
from fractions import Fraction as F
def idx(s):
    els=s.elts if isinstance(s,ast.Tuple) else [s]
    return [e.value if isinstance(e,ast.Constant) else e.id for e in els]
def target(t):
    assert isinstance(t,ast.Subscript)
    b=t.value
    if isinstance(b,ast.Attribute): return b.attr,b.value.id,idx(t.slice)
    return None,b.id,idx(t.slice)
def num(e):
    if isinstance(e,ast.Constant): return F(e.value)
    if isinstance(e,ast.BinOp) and isinstance(e.op,ast.Div): return num(e.left)/num(e.right)
    if isinstance(e,ast.UnaryOp): return -num(e.operand)
    raise ValueError(ast.dump(e))
def isnum(e):
    try: num(e); return True
    except Exception: return False
def lin(e):
    """list of (coef, part, array, idx)"""
    if isinstance(e,ast.Constant) and e.value==0: return []
    if isinstance(e,ast.Subscript): p,a,i=target(e); return [(F(1),p,a,i)]
    if isinstance(e,ast.UnaryOp) and isinstance(e.op,ast.USub): return [(-c,p,a,i) for c,p,a,i in lin(e.operand)]
    if isinstance(e,ast.BinOp):
        if isinstance(e.op,ast.Add): return lin(e.left)+lin(e.right)
        if isinstance(e.op,ast.Sub): return lin(e.left)+[(-c,p,a,i) for c,p,a,i in lin(e.right)]
        if isinstance(e.op,ast.Mult):
            assert isnum(e.left); return [(num(e.left)*c,p,a,i) for c,p,a,i in lin(e.right)]
    raise ValueError(ast.dump(e))
def q(f): return "(%d#%d)"%(f.numerator,f.denominator) if f>=0 else "(-%d#%d)"%(-f.numerator,f.denominator)
def ix(i): return "["+";".join(map(str,i))+"]"
def rhs(l): return "["+"; ".join("(%s,%s)"%(q(c),ix(i)) for c,p,a,i in l)+"]"
def stmt(s,read):
    p,a,i=target(s.targets[0]); assert a=='a'
    v=s.value
    if isinstance(v,ast.Call):
        assert v.func.attr=='conj' and p is None
        p2,a2,j=target(v.func.value); assert p2 is None and a2==read
        return "SetConj %s %s"%(ix(i),ix(j))
    l=lin(v)
    for c,p2,a2,j in l: assert a2==read and p2==p,(s.lineno,)
    return {"real":"SetRe","imag":"SetIm",None:"SetLin"}[p]+" "+ix(i)+" "+rhs(l)
out=["(* Generated by tools/gen_sym.py from the text of wilson/util/common.py; one list",
"   element per Python statement, in order. *)",
"From Coq Require Import List ZArith QArith.","From Verif Require Import SymModel.","Import ListNotations.","Local Open Scope Q_scope.","Local Open Scope nat_scope.",""]
for n in ['symmetrize_2','symmetrize_4','symmetrize_41','symmetrize_5','symmetrize_6','symmetrize_7','symmetrize_71','symmetrize_8','symmetrize_9']:
    f=fns[n]; body=[s for s in f.body if isinstance(s,ast.Assign)]
    rest=[s for s in f.body if not isinstance(s,(ast.Assign,ast.Return)) and not(isinstance(s,ast.Expr) and isinstance(s.value,ast.Constant))]
    assert not rest
    assert ast.unparse(body[0])=="a = np.array(b, copy=True, dtype=complex)"
    out.append("(* EFTutil.%s, wilson/util/common.py:%d-%d *)"%(n,f.lineno,f.end_lineno))
    out.append("Definition %s : list asgn :=\n  [ %s ]."%(n,";\n    ".join(stmt(s,'a') for s in body[1:])))
    out.append("")
for n in ['scale_8','unscale_8']:
    f=fns[n]
    body=[s for s in f.body if isinstance(s,ast.Assign)]
    assert ast.unparse(body[0])=="a = np.array(b, copy=True, dtype=complex)" and len(body)==1
    loop=[s for s in f.body if isinstance(s,ast.For)][0]
    assert ast.unparse(loop.iter)=='range(3)'
    out.append("(* EFTutil.%s, wilson/util/common.py:%d-%d; all right-hand sides read the\n   input b, so the statements commute with the copy *)"%(n,f.lineno,f.end_lineno))
    out.append("Definition %s : list asgn :=\n  flat_map (fun i =>\n  [ %s ]) [0;1;2]."%(n,";\n    ".join(stmt(s,'b') for s in loop.body)))
    out.append("")
open('/verif/rocq/theories/SymTables.v','w').write("\n".join(out))
