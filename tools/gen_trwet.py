#!/usr/bin/env python3
"""Generate rocq/theories/TrBlocks.v (the functions of wilson/translate/wet.py up to line 1697)
and rocq/theories/TrData.v (the tables in wilson/data used by them).

Each Python function is translated statement by statement from its abstract syntax tree into a
Gallina function from the flavour string to a program (TrLang.prog).  The translation knows
the few statement forms used in the file and stops on anything else."""
import ast
import json
import sys

REPO = sys.argv[1] if len(sys.argv) > 1 else '/repo'
OUT = sys.argv[2] if len(sys.argv) > 2 else '/verif/rocq/theories'
src = open(REPO + '/wilson/translate/wet.py').read()
tree = ast.parse(src)
SYMS = {'m_b': 'Ym_b', 'm_c': 'Ym_c', 'm_s': 'Ym_s', 'm_u': 'Ym_u', 'm_d': 'Ym_d', 'm_e': 'Ym_e',
        'm_mu': 'Ym_mu', 'm_tau': 'Ym_tau', 'GF': 'YGF'}
FLAVS = ('dflav', 'uflav', 'lflav', 'llflav')


class Unknown(Exception):
    pass


def q(s):
    return '"' + s.replace('"', '""') + '"'


class Fn:
    def __init__(self, f, conts):
        self.f = f
        self.ty = {}          # variable -> type
        self.conts = conts    # names of the dictionary arguments
        self.alias = {}       # scalar variables
        self.n = 0

    # ----- types of expressions -----
    def has_cont(self, e):
        for n in ast.walk(e):
            if isinstance(n, ast.Name) and (n.id in self.conts or self.ty.get(n.id) == 'ex'):
                return True
        return False

    # ----- strings; binds is the list of (name, res expression) to be bound before -----
    def s(self, e, b):
        if isinstance(e, ast.Constant) and isinstance(e.value, str):
            return q(e.value)
        if isinstance(e, ast.Name):
            t = self.ty.get(e.id)
            if t == 'str':
                return self.nm(e.id)
            if t == 'Z':
                return '(str_Z %s)' % self.nm(e.id)
            raise Unknown(ast.dump(e))
        if isinstance(e, ast.BinOp) and isinstance(e.op, ast.Add):
            return '(%s ++ %s)' % (self.s(e.left, b), self.s(e.right, b))
        if isinstance(e, ast.BinOp) and isinstance(e.op, ast.Mult):
            assert e.left.value == 2
            return '(str_twice %s)' % self.s(e.right, b)
        if isinstance(e, ast.JoinedStr):
            parts = []
            for v in e.values:
                parts.append(q(v.value) if isinstance(v, ast.Constant) else self.s(v.value, b))
            return '(%s)' % ' ++ '.join(parts)
        if isinstance(e, ast.Call) and isinstance(e.func, ast.Attribute):
            if e.func.attr == 'format':
                fmt = e.func.value.value.split('{}')
                out = [q(fmt[0])] if fmt[0] else []
                for a, t in zip(e.args, fmt[1:]):
                    out.append('str_Z %s' % self.z(a, b))
                    if t:
                        out.append(q(t))
                return '(%s)' % ' ++ '.join(out)
            if e.func.attr == 'replace':
                assert e.args[1].value == ''
                return '(str_remove %s %s)' % (self.s(e.args[0], b), self.s(e.func.value, b))
        if isinstance(e, ast.Call) and isinstance(e.func, ast.Name) and e.func.id == 'str':
            return '(str_Z %s)' % self.z(e.args[0], b)
        if isinstance(e, ast.Subscript):
            base = self.s(e.value, b)
            sl = e.slice
            if isinstance(sl, ast.Constant):
                return '(str_at %s %d)' % (base, sl.value)
            if isinstance(sl, ast.Slice):
                if isinstance(sl.step, ast.UnaryOp):
                    assert sl.lower is None and sl.upper is None and sl.step.operand.value == 1
                    return '(str_rev %s)' % base
                assert sl.step is None
                up = sl.upper
                if isinstance(up, ast.Call) and isinstance(up.func, ast.Name) and up.func.id == 'len':
                    assert self.s(up.args[0], b) == base
                    up = None
                if sl.lower is None:
                    return '(str_to %s %s)' % (base, self.nat(up, b))
                if up is None:
                    return '(str_from %s %s)' % (base, self.nat(sl.lower, b))
                return '(str_slice %s %s %s)' % (base, self.nat(sl.lower, b), self.nat(up, b))
        raise Unknown(ast.dump(e))

    def nat(self, e, b):
        if isinstance(e, ast.Constant):
            return str(e.value)
        if isinstance(e, ast.BinOp) and isinstance(e.op, ast.Add):
            return '(%s + %s)%%nat' % (self.nat(e.left, b), self.nat(e.right, b))
        if isinstance(e, ast.Call) and e.func.attr == 'find':
            start = e.args[1].value if len(e.args) > 1 else 0
            v = 'n%d' % self.n
            self.n += 1
            b.append((v, 'str_find %s %s %d' % (self.s(e.func.value, b), self.s(e.args[0], b), start)))
            return v
        raise Unknown(ast.dump(e))

    # ----- integers -----
    def z(self, e, b):
        if isinstance(e, ast.Constant) and isinstance(e.value, int):
            return '%d' % e.value
        if isinstance(e, ast.Name) and self.ty.get(e.id) == 'Z':
            return self.nm(e.id)
        if isinstance(e, ast.BinOp) and isinstance(e.op, (ast.Add, ast.Sub)):
            return '(%s %s %s)%%Z' % (self.z(e.left, b), '+' if isinstance(e.op, ast.Add) else '-', self.z(e.right, b))
        if isinstance(e, ast.Subscript) and isinstance(e.value, ast.Name) and e.value.id in FLAVS:
            v = 'i%d' % self.n
            self.n += 1
            b.append((v, 'flav %s %s' % (e.value.id, self.s(e.slice, b))))
            return v
        if isinstance(e, ast.Subscript) and isinstance(e.value, ast.Name) and self.ty.get(e.value.id) == 'idx':
            return '(nth %d %s 0)' % (e.slice.value, self.nm(e.value.id))
        raise Unknown(ast.dump(e))

    # ----- index tuples -----
    def idx(self, e, b):
        if isinstance(e, ast.Tuple):
            return '[%s]' % '; '.join(self.z(x, b) for x in e.elts)
        if isinstance(e, ast.Name) and self.ty.get(e.id) == 'idx':
            return self.nm(e.id)
        if isinstance(e, ast.BinOp) and isinstance(e.op, ast.Add):
            return '(%s ++ %s)%%list' % (self.idx(e.left, b), self.idx(e.right, b))
        if isinstance(e, ast.Call) and isinstance(e.func, ast.Name) and e.func.id == 'tuple':
            g = e.args[0]
            assert isinstance(g, ast.GeneratorExp) and g.elt.value.id in FLAVS
            v = 'i%d' % self.n
            self.n += 1
            b.append((v, 'flavs %s %s' % (g.elt.value.id, self.s(g.generators[0].iter, b))))
            return v
        raise Unknown(ast.dump(e))

    # ----- scalars -----
    def sc(self, e, b):
        if isinstance(e, ast.Constant):
            assert e.value == int(e.value)
            return '(SZ %d)' % int(e.value)
        if isinstance(e, ast.Name):
            if e.id == 'Nc':
                return '(SZ 3)'
            if e.id == 'pi':
                return '(SY Ypi)'
            if self.ty.get(e.id) == 'sc':
                return self.nm(e.id)
            raise Unknown(ast.dump(e))
        if isinstance(e, ast.Call) and isinstance(e.func, ast.Name) and e.func.id == 'sqrt':
            a = e.args[0]
            if isinstance(a, ast.Constant) and a.value == 2:
                return '(SY Ysqrt2)'
            t = ast.unparse(a).replace('parameters', 'p')
            if t == "4 * pi * p['alpha_e']":
                return '(SY Ye)'
            if t == "4 * pi * p['alpha_s']":
                return '(SY Ygs)'
            raise Unknown(t)
        if isinstance(e, ast.Call) and isinstance(e.func, ast.Attribute) and e.func.attr in ('conj', 'conjugate'):
            return '(SConj %s)' % self.sc(e.func.value, b)
        if isinstance(e, ast.Subscript) and isinstance(e.value, ast.Name):
            if e.value.id in ('p', 'parameters'):
                return '(SY %s)' % SYMS[e.slice.value]
            if e.value.id == 'V':
                i, j = e.slice.elts
                return '(SV %s %s)' % (self.z(i, b), self.z(j, b))
        if isinstance(e, ast.UnaryOp) and isinstance(e.op, ast.USub):
            return '(SNeg %s)' % self.sc(e.operand, b)
        if isinstance(e, ast.BinOp):
            if isinstance(e.op, ast.Mult):
                return '(%s * %s)%%sc' % (self.sc(e.left, b), self.sc(e.right, b))
            if isinstance(e.op, ast.Div):
                return '(%s / %s)%%sc' % (self.sc(e.left, b), self.sc(e.right, b))
            if isinstance(e.op, ast.Pow):
                return '(%s ** %d)%%sc' % (self.sc(e.left, b), e.right.value)
        raise Unknown(ast.dump(e))

    # ----- expressions in the coefficients -----
    def ex(self, e, b):
        if isinstance(e, ast.Constant) and e.value == 0:
            return 'E0'
        if isinstance(e, ast.Name) and self.ty.get(e.id) == 'ex':
            return self.nm(e.id)
        if isinstance(e, ast.Tuple) and len(e.elts) == 1:
            return self.ex(e.elts[0], b)
        if isinstance(e, ast.Subscript):
            if isinstance(e.value, ast.Name) and e.value.id in self.conts:
                return '(EKey %s)' % self.s(e.slice, b)
            if isinstance(e.value, ast.Subscript) and e.value.value.id in self.conts:
                return '(EArr %s %s)' % (self.s(e.value.slice, b), self.idx(e.slice, b))
        if isinstance(e, ast.Call):
            if isinstance(e.func, ast.Attribute) and e.func.attr in ('conj', 'conjugate'):
                return '(EConj %s)' % self.ex(e.func.value, b)
            if isinstance(e.func, ast.Attribute) and e.func.attr == 'get' and e.func.value.id in self.conts:
                assert e.args[1].value == 0
                return '(EGet %s)' % self.s(e.args[0], b)
            if isinstance(e.func, ast.Attribute) and isinstance(e.func.value, ast.Name) and e.func.value.id == 'np':
                return '(%s %s)' % ({'real': 'ERe', 'imag': 'EIm'}[e.func.attr], self.ex(e.args[0], b))
        if isinstance(e, ast.UnaryOp):
            if isinstance(e.op, ast.USub):
                return '(ENeg %s)' % self.ex(e.operand, b)
            return self.ex(e.operand, b)
        if isinstance(e, ast.BinOp):
            hl, hr = self.has_cont(e.left), self.has_cont(e.right)
            if isinstance(e.op, (ast.Add, ast.Sub)):
                assert hl and hr
                return '(%s %s %s)%%ex' % (self.ex(e.left, b), '+' if isinstance(e.op, ast.Add) else '-', self.ex(e.right, b))
            if isinstance(e.op, ast.Mult):
                assert hl != hr
                s, x = (e.left, e.right) if hr else (e.right, e.left)
                return '(%s * %s)%%ex' % (self.sc(s, b), self.ex(x, b))
            if isinstance(e.op, ast.Div):
                assert hl and not hr
                return '(%s / %s)%%ex' % (self.ex(e.left, b), self.sc(e.right, b))
        raise Unknown(ast.dump(e))

    def display(self, e, b, ind):
        pad = '\n' + ' ' * ind
        return '[' + (';' + pad).join('(%s, %s)' % (self.s(k, b), self.ex(v, b)) for k, v in zip(e.keys, e.values)) + ']'

    def nm(self, x):
        return {'s': 's_', 'l': 'l_', 'e': 'e_', 'p': 'p_', 'd': 'd_', 'c': 'c_', 'q': 'q_'}.get(x, x)

    def strlist(self, e):
        if isinstance(e, ast.BinOp):
            return '(%s ++ %s)%%list' % (self.strlist(e.left), self.strlist(e.right))
        if isinstance(e, ast.Name):
            assert self.ty[e.id] == 'strlist'
            return e.id
        return '[%s]' % '; '.join(q(x.value) for x in e.elts)

    # ----- conditions -----
    def cond(self, e, b):
        if isinstance(e, ast.BoolOp):
            op = ' || ' if isinstance(e.op, ast.Or) else ' && '
            return '(%s)%%bool' % op.join(self.cond(v, b) for v in e.values)
        if isinstance(e, ast.Name):
            assert self.ty[e.id] == 'bool'
            return e.id
        assert isinstance(e, ast.Compare) and len(e.ops) == 1
        r = e.comparators[0]
        if isinstance(e.ops[0], ast.Eq):
            return 'String.eqb %s %s' % (self.s(e.left, b), self.s(r, b))
        assert isinstance(e.ops[0], ast.In)
        if isinstance(r, ast.Call):
            r = r.func.value                      # dflav.keys()
        if isinstance(r, ast.Name) and r.id in FLAVS:
            return 'dmem %s %s' % (r.id, self.s(e.left, b))
        return 'smem %s %s' % (self.s(e.left, b), self.strlist(r))

    # ----- statements -----
    def typed(self, e, b):
        for t, fn in (('str', self.s), ('Z', self.z), ('idx', self.idx)):
            k, bb = self.n, []
            try:
                r = fn(e, bb)
                b.extend(bb)
                return t, r
            except (Unknown, AssertionError, AttributeError, KeyError):
                self.n = k
        if self.has_cont(e):
            return 'ex', self.ex(e, b)
        return 'sc', self.sc(e, b)

    def wrap(self, b, body, ind):
        for v, r in reversed(b):
            body = 'pbind (%s) (fun %s =>\n%s%s)' % (r, v, ' ' * ind, body)
        return body

    def if_assign(self, st):
        """the variables assigned by every branch of an if chain that only assigns (or raises)"""
        branches = []
        while True:
            branches.append((st.test, st.body))
            if len(st.orelse) == 1 and isinstance(st.orelse[0], ast.If):
                st = st.orelse[0]
                continue
            branches.append((None, st.orelse))
            break
        names = None
        for _, body in branches:
            for x in body:
                if isinstance(x, ast.Assign) and isinstance(x.targets[0], ast.Name):
                    continue
                if isinstance(x, ast.Raise) or (isinstance(x, ast.Expr) and isinstance(x.value, ast.Call)):
                    continue
                return None
            ns = [x.targets[0].id for x in body if isinstance(x, ast.Assign)]
            if ns:
                names = ns if names is None else names
                if names != ns:
                    return None
        return names, branches

    def stmts(self, sts, ind):
        if not sts:
            raise Unknown('fell off')
        st, rest = sts[0], sts[1:]
        pad = '\n' + ' ' * ind
        if isinstance(st, ast.Expr) and isinstance(st.value, ast.Constant):
            return self.stmts(rest, ind)
        if isinstance(st, ast.Assign) and isinstance(st.targets[0], ast.Tuple):
            # q1, q2 = ddll[:2]
            b = []
            v = self.s(st.value, b)
            out = ''
            for i, t in enumerate(st.targets[0].elts):
                self.ty[t.id] = 'str'
                out += 'let %s := str_at %s %d in%s' % (self.nm(t.id), v, i, pad)
            return out + self.stmts(rest, ind)
        if isinstance(st, ast.Assign) and isinstance(st.targets[0], ast.Name):
            n = st.targets[0].id
            v = st.value
            if n == 'V' or (n == 'p' and ast.unparse(v) == 'parameters'):
                return self.stmts(rest, ind)
            if isinstance(v, ast.List):
                self.ty[n] = 'strlist'
                return 'let %s := %s in%s' % (n, self.strlist(v), pad) + self.stmts(rest, ind)
            if ast.unparse(v) == 'Fqqqq.copy()':
                self.conts.add(n)
                return self.stmts(rest, ind)
            if isinstance(v, ast.Dict):
                if not v.keys:
                    return self.vii(rest, ind)
                b = []
                d = self.display(v, b, ind + 4)
                self.dic = d
                assert not b or True
                return self.wrap(b, self.dict_use(n, d, rest, ind), ind)
            b = []
            t, r = self.typed(v, b)
            self.ty[n] = t
            ann = {'str': ' : string', 'Z': ' : Z', 'idx': ' : list Z', 'sc': ' : sc', 'ex': ' : ex'}[t]
            if b and b[-1][0] == r:
                b[-1] = (self.nm(n), b[-1][1])
                return self.wrap(b, self.stmts(rest, ind), ind)
            return self.wrap(b, 'let %s%s := %s in%s' % (self.nm(n), ann, r, pad) + self.stmts(rest, ind), ind)
        if isinstance(st, ast.Return):
            v = st.value
            if isinstance(v, ast.Constant):
                return 'PFail ValueError'        # d.update of a string
            b = []
            assert isinstance(v, ast.Dict), ast.dump(v)
            d = self.display(v, b, ind + 4)
            return self.wrap(b, 'PBlk (Ok %s)' % d, ind)
        if isinstance(st, ast.Raise):
            return 'PFail %s' % st.exc.func.id
        if isinstance(st, ast.If):
            ia = self.if_assign(st)
            if ia is not None and ia[0]:
                names, branches = ia
                out = ''
                for test, body in branches:
                    asg = [x for x in body if isinstance(x, ast.Assign)]
                    if asg:
                        vals = []
                        binds = []
                        for x in asg:
                            t, r = self.typed(x.value, binds)
                            assert self.ty.get(x.targets[0].id, t) == t
                            self.ty[x.targets[0].id] = t
                            vals.append(r)
                        r = 'Ok %s' % (vals[0] if len(vals) == 1 else '(' + ', '.join(vals) + ')')
                        for vn, rr in reversed(binds):
                            r = 'bind (%s) (fun %s => %s)' % (rr, vn, r)
                    elif body and isinstance(body[0], ast.Raise):
                        r = 'Err %s' % body[0].exc.func.id
                    else:
                        r = 'Err UnboundLocalError'
                    if test is None:
                        out += r
                    else:
                        bb = []
                        out += 'if %s then %s%s  else ' % (self.cond(test, bb), r, pad)
                        assert not bb
                pat = self.nm(names[0]) if len(names) == 1 else "'(" + ', '.join(self.nm(x) for x in names) + ')'
                return 'pbind (%s) (fun %s =>%s%s)' % (out, pat, pad, self.stmts(rest, ind))
            b = []
            c = self.cond(st.test, b)
            assert not b
            ty0 = dict(self.ty)
            if isinstance(st.body[0], ast.For):
                # the Fierz extension of _Fierz_to_JMS_III_IV_V
                ext = self.fierz_ext(st.body, ind + 4)
                return 'let ext := (fun P => if %s then%s    %s%s    else P) in%s' % (c, pad, ext, pad, pad) + self.stmts(rest, ind).replace('PBlk (Ok', 'ext (PBlk (Ok', 0)
            th = self.stmts(st.body, ind + 2)
            self.ty = dict(ty0)
            el = self.stmts(list(st.orelse) + rest if not (st.orelse and rest) else st.orelse, ind)
            return 'if %s then%s  %s%selse %s' % (c, pad, th, pad, el)
        raise Unknown(ast.dump(st))

    def dict_use(self, n, d, rest, ind):
        """d = {...}; then return d / symmetrize_JMS_dict(d) / a comprehension, possibly after choosing a prefactor"""
        pad = '\n' + ' ' * ind
        blk = 'PBlk (Ok %s)' % d
        if self.f.name == '_Fierz_to_JMS_III_IV_V':
            # the extension by the even coefficients only concerns the classes checked there
            if 'ext' in self.__dict__ and self.ext:
                blk = 'ext (%s)' % blk
        return self.tail(n, blk, rest, ind)

    def tail(self, n, blk, rest, ind):
        pad = '\n' + ' ' * ind
        st = rest[0]
        if isinstance(st, ast.If) and self.f.name == '_Bern_to_JMS_I':
            return 'if String.eqb qq "cu" then PThen (%s) (PEach pop_conj)%selse %s' % (blk, pad, self.tail(n, blk, rest[1:], ind))
        if isinstance(st, ast.Return):
            v = st.value
            if isinstance(v, ast.Name):
                return blk
            if isinstance(v, ast.Call) and v.func.id == 'symmetrize_JMS_dict':
                return 'PSymm (%s)' % blk
            if isinstance(v, ast.DictComp):
                assert v.generators[0].iter.func.value.id == n
                b = []
                w = v.value
                if isinstance(w.op, ast.Mult):
                    s = w.left if not (isinstance(w.left, ast.Name) and w.left.id == 'v') else w.right
                    return 'PScale %s (%s)' % (self.sc(s, b), blk)
                assert w.left.id == 'v'
                return 'PDivS (%s) %s' % (blk, self.sc(w.right, b))
        if isinstance(st, ast.Assign) and st.targets[0].id == 'V':
            return self.tail(n, blk, rest[1:], ind)
        if isinstance(st, ast.Assign):
            b = []
            self.ty[st.targets[0].id] = 'sc'
            r = self.sc(st.value, b)
            assert not b
            return 'let %s : sc := %s in%s' % (st.targets[0].id, r, pad) + self.tail(n, blk, rest[1:], ind)
        if isinstance(st, ast.If):
            b = []
            c = self.cond(st.test, b)
            x, y = st.body[0], st.orelse[0]
            nme = x.targets[0].id
            self.ty[nme] = 'sc'
            return 'let %s : sc := if %s then %s else %s in%s' % (nme, c, self.sc(x.value, b), self.sc(y.value, b), pad) + self.tail(n, blk, rest[1:], ind)
        raise Unknown(ast.dump(st))

    def fierz_ext(self, body, ind):
        """for key in F: assert ...;  for p in ['', 'p']: F[...] = ..."""
        pad = '\n' + ' ' * ind
        a, lp = body
        assert ast.unparse(a.body[0].test) == "int(key[5:].replace('p', '')) % 2 == 1"
        self.ty['p'] = 'str'
        self.ext = True

        def blk(sts):
            out = ''
            items = []
            for x in sts:
                if isinstance(x.targets[0], ast.Name):
                    assert ast.unparse(x) == "notp = 'p' if p == '' else ''"
                    self.ty['notp'] = 'str'
                    out = 'let notp := if String.eqb p_ "" then "p" else "" in%s' % pad
                else:
                    b = []
                    items.append('(%s, %s)' % (self.s(x.targets[0].slice, b), self.ex(x.value, b)))
                    assert not b
            return out + '[' + (';' + pad).join(items) + ']'
        i1 = lp.body[0]
        i2 = i1.orelse[0]
        b = []
        t = 'if %s then%s%s%selse if %s then%s%s%selse []' % (
            self.cond(i1.test, b), pad, blk(i1.body), pad, self.cond(i2.test, b), pad, blk(i2.body), pad)
        del self.ty['p']
        return 'PThen (PAssert odd_key) (PThen (PExt (flat_map (fun p_ =>%s%s) [""; "p"]%%list)) P)' % (pad, t)

    def vii(self, rest, ind):
        """d = {}; dtrans = json...; for cj, cf in dtrans.items(): d[.] = C.get(., 0); ...; d[k] = ...; return {...}"""
        pad = '\n' + ' ' * ind
        assert 'flavio_jms_vii.json' in ast.unparse(rest[0])
        loop = rest[1]
        tgt = loop.body[0].targets[0].slice.id
        get = loop.body[0].value.args[0].id
        assert {tgt, get} == {'cj', 'cf'}
        first = 'map (fun jf : string * string => (%s jf, EGet (%s jf))) flavio_jms_vii' % (
            'fst' if tgt == 'cj' else 'snd', 'fst' if get == 'cj' else 'snd')
        items = []
        out = ''
        k = 2
        while True:
            st = rest[k]
            if isinstance(st, ast.Return):
                break
            b = []
            if isinstance(st.targets[0], ast.Name):
                t, r = self.typed(st.value, b)
                self.ty[st.targets[0].id] = t
                out += 'let %s : sc := %s in%s' % (self.nm(st.targets[0].id), r, pad)
            else:
                items.append('(%s, %s)' % (self.s(st.targets[0].slice, b), self.ex(st.value, b)))
            assert not b
            k += 1
        blk = 'PBlk (Ok (%s ++ [%s])%%list)' % (first, (';' + pad + '    ').join(items))
        return out + self.tail('d', blk, [rest[k]], ind)

    def gen(self):
        args = [a.arg for a in self.f.args.args]
        ps = []
        for a in args:
            if a in self.conts or a in ('p', 'parameters'):
                continue
            if a == 'norm_gf':
                self.ty[a] = 'bool'
                ps.append('(norm_gf : bool)')
            else:
                self.ty[a] = 'str'
                ps.append('(%s : string)' % a)
        body = self.stmts(self.f.body, 2)
        return '(* wilson/translate/wet.py %d-%d %s *)\nDefinition %s %s : prog :=\n  %s.\n' % (
            self.f.lineno, self.f.end_lineno, self.f.name, self.f.name, ' '.join(ps), body)


HEAD = '''(* GENERATED by tools/gen_trwet.py from wilson/translate/wet.py 11-1697: do not edit.
   One definition for each function, statement by statement.  A bind stands for a look-up that may
   fail; an if chain that only assigns variables becomes one bind.  A missing "raise" in front of
   KeyError(...) in the code leaves mq unbound, so the else branch is UnboundLocalError. *)
From Coq Require Import List Bool ZArith Arith String Ascii DecimalString.
From Verif Require Import PyBase EftModel TrLang TrData.
Import ListNotations.
Local Open Scope Z_scope.
Local Open Scope list_scope.
Local Open Scope string_scope.

Definition pbind {A} (r : res A) (f : A -> prog) : prog := match r with Ok a => f a | Err e => PFail e end.
Definition smem (x : string) (l : list string) : bool := existsb (String.eqb x) l.
(* wilson/translate/wet.py 20-23 *)
Definition dflav : dict string Z := [("d", 0); ("s", 1); ("b", 2)].
Definition uflav : dict string Z := [("u", 0); ("c", 1)].
Definition lflav : dict string Z := [("e", 0); ("mu", 1); ("tau", 2)].
Definition llflav : dict string Z := [("e", 0); ("m", 1); ("t", 2)].
(* tuple(dflav[q] for q in qq) *)
Fixpoint flavs (t : dict string Z) (s : string) : res (list Z) :=
  match s with "" => Ok [] | String c r => bind (flav t (String c "")) (fun i => bind (flavs t r) (fun l => Ok (i :: l))) end.
(* int(s) for a string of digits *)
Definition nat_of_digits (s : string) : option nat :=
  match s with "" => None | _ => option_map Nat.of_uint (NilEmpty.uint_of_string s) end.
(* 365-368 int(key[5:].replace('p', '')) % 2 == 1 *)
Definition odd_key (key : string) : res bool :=
  match nat_of_digits (str_remove "p" (str_from key 5)) with Some n => Ok (Nat.odd n) | None => Err ValueError end.
(* 79-82 for VXY in [...]: d[VXY + '_1212'] = d.pop(VXY + '_2121').conjugate(); written as a loop over
   the keys of d (the order of the keys of the result differs; a missing key would be a KeyError,
   but d always has these keys) *)
Definition pop_conj (k : string) : res (option (string * ex)) :=
  Ok (Some (match find (fun VXY => String.eqb k (VXY ++ "_2121")) ["VuuRR"; "V1uuLR"; "V8uuLR"; "VuuLL"]%list with
            | Some VXY => (VXY ++ "_1212", EConj (EKey k))
            | None => (k, EKey k)
            end)).
'''

out = [HEAD]
for f in tree.body:
    if isinstance(f, ast.FunctionDef) and f.lineno < 1700 and f.name not in ('_Fierz_to_EOS_V',):
        args = [a.arg for a in f.args.args]
        g = Fn(f, {args[0]})
        try:
            out.append(g.gen())
        except Exception:
            print('in', f.name)
            raise
    elif isinstance(f, ast.FunctionDef) and f.name == '_Fierz_to_EOS_V':
        g = Fn(f, {'Fsbuu', 'Fsbdd', 'Fsbcc', 'Fsbss', 'Fsbbb'})
        body = g.stmts(f.body, 2)
        out.append('(* wilson/translate/wet.py %d-%d %s.  Simplification: the five dictionaries Fsbuu, ... have different\n'
                   '   keys and are merged into one.  c5 is a tuple with one element in the code (a trailing comma), so that\n'
                   '   its value is an array of one number; here it is that number. *)\nDefinition %s : prog :=\n  %s.\n' % (
                       f.lineno, f.end_lineno, f.name, f.name, body))
open(OUT + '/TrBlocks.v', 'w').write('\n'.join(out))

DATA = ['flavio_jms_vii', 'flavio_jms_nunull', 'flavio_jms_lfv', 'flavorkit_jms', 'flavorkit_jms_conj']
o = '''(* GENERATED by tools/gen_trwet.py from wilson/data/*.json: do not edit. *)
From Coq Require Import List String.
Import ListNotations.
Local Open Scope string_scope.
'''
for d in DATA:
    j = json.load(open(REPO + '/wilson/data/%s.json' % d))
    items = ['(%s, %s)' % (q(k), q(v)) for k, v in j.items()]
    rows = [';  '.join(items[i:i + 4]) for i in range(0, len(items), 4)]
    o += '(* wilson/data/%s.json: %d entries *)\nDefinition %s : list (string * string) := [\n  %s].\n' % (
        d, len(j), d, ';\n  '.join(rows))
open(OUT + '/TrData.v', 'w').write(o)
