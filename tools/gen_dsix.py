#!/usr/bin/env python3
"""Generate DsixData.v from wilson/wcxf/converters/dsixtools_definitions.py (two literal
dictionaries of index tuples).  The file is parsed with ast, not executed."""
import ast, sys
src = open(sys.argv[1] if len(sys.argv) > 1 else '/repo/wilson/wcxf/converters/dsixtools_definitions.py').read()
vals = {}
pos = {}
for node in ast.parse(src).body:
    if isinstance(node, ast.Assign):
        vals[node.targets[0].id] = ast.literal_eval(node.value)
        pos[node.targets[0].id] = (node.lineno, node.end_lineno)
def q(n): return '"%s"' % n
print("(* Generated by tools/gen_dsix.py from wilson/wcxf/converters/dsixtools_definitions.py. *)")
print("From Coq Require Import List String.")
print("From Verif Require Import PyBase SymModel.")
print("Import ListNotations.")
print("Local Open Scope string_scope.")
for name in ('redundant_elements', 'vanishing_im_parts'):
    print("\n(* %s, dsixtools_definitions.py:%d-%d *)" % ((name,) + pos[name]))
    print("Definition %s : dict string (list idx) := [" % name)
    items = []
    for k, v in vals[name].items():
        items.append("  (%s, [%s])" % (q(k), "; ".join("[%s]" % ";".join(map(str, t)) for t in v)))
    print(";\n".join(items) + "]%nat.")
