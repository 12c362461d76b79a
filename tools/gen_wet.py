#!/usr/bin/env python3
"""Translate the formula functions of wcxf/translators/wet.py (dictionary displays) into
Coq.  The source is parsed as text, never run."""
import ast, sys
SRC = open('/repo/wcxf/translators/wet.py').read()
tree = ast.parse(SRC)
FUNCS = ['_JMS_to_Bern_I', '_BernI_to_Flavio_I', '_FlavioI_to_Bern_I', '_BernI_to_FormFlavor_I',
 '_JMS_to_Bern_II', '_BernII_to_Flavio_II', '_FlavioII_to_BernII', '_BernII_to_EOS_II',
 '_JMS_to_Fierz_III_IV_V', '_Fierz_to_Bern_III_IV_V', '_Fierz_to_EOS_V',
 'JMS_to_Fierz_lep', 'Fierz_to_Bern_lep', 'Bern_to_Fierz_lep', 'Fierz_to_Flavio_lep', 'Flavio_to_Fierz_lep',
 'Fierz_to_EOS_lep', 'JMS_to_FormFlavor_lep',
 'JMS_to_Fierz_chrom', 'Fierz_to_Bern_chrom', 'Bern_to_Fierz_chrom', 'Fierz_to_Flavio_chrom', 'Flavio_to_Fierz_chrom',
 'Fierz_to_EOS_chrom', 'JMS_to_FormFlavor_chrom']
FL = ['F1', 'F2', 'F3']

def cs(s): return '"%s"' % s

class Fn:
    def __init__(self, f):
        self.f = f
        self.args = [a.arg for a in f.args.args]
        self.svar = None
        for a in self.args:
            if a in ('qq', 'udlnu', 'qqqq', 'ddll', 'dd'):
                self.svar = a
        self.kind = {}          # variable -> 'fl' | 'str' | 'ex' | 'tmpl' | 'lst' | 'idx'
        if self.svar: self.kind[self.svar] = 'str'
        self.dicts = [a for a in self.args if a not in (self.svar, 'parameters', 'include_charged')]
        self.inline = {}
        self.n = 0

    # ---- strings
    def num(self, e):
        if isinstance(e, ast.Constant): return '(%d)%%Z' % e.value
        if isinstance(e, ast.Call) and isinstance(e.func, ast.Attribute) and e.func.attr == 'find':
            s = self.st(e.func.value); c = e.args[0].value
            start = e.args[1].value if len(e.args) > 1 else 0
            return '(find %s %s %d)' % (cs(c), s, start)
        if isinstance(e, ast.BinOp) and isinstance(e.op, ast.Add):
            return '(%s + %s)%%Z' % (self.num(e.left), self.num(e.right))
        if isinstance(e, ast.Call) and e.func.id == 'len':
            return '(Z.of_nat (String.length %s))' % self.st(e.args[0])
        raise Exception(ast.dump(e))
    def st(self, e):
        if isinstance(e, ast.Constant): return cs(e.value)
        if isinstance(e, ast.Name): return e.id
        if isinstance(e, ast.BinOp) and isinstance(e.op, ast.Add):
            return '(%s ++ %s)%%string' % (self.st(e.left), self.st(e.right))
        if isinstance(e, ast.BinOp) and isinstance(e.op, ast.Mult):
            assert e.left.value == 2
            r = self.st(e.right); return '(%s ++ %s)%%string' % (r, r)
        if isinstance(e, ast.Subscript):
            s = self.st(e.value); sl = e.slice
            if isinstance(sl, ast.Constant): return '(ch %d %s)' % (sl.value, s)
            if isinstance(sl, ast.Slice):
                if sl.step is not None:
                    st = sl.step
                    assert isinstance(st, ast.UnaryOp) and st.operand.value == 1 and sl.upper is None
                    if sl.lower is None: return '(rev_str %s)' % s
                    assert sl.lower.value == 1
                    return '(rev_str (slice (Some 0%%Z) (Some 2%%Z) %s))' % s
                lo = 'None' if sl.lower is None else '(Some %s)' % self.num(sl.lower)
                up = 'None' if sl.upper is None else '(Some %s)' % self.num(sl.upper)
                return '(slice %s %s %s)' % (lo, up, s)
        if isinstance(e, ast.Call) and isinstance(e.func, ast.Attribute) and e.func.attr == 'replace':
            return '(replace %s %s %s)' % (self.st(e.func.value), cs(e.args[0].value), cs(e.args[1].value))
        raise Exception(ast.dump(e))
    # ---- indices
    def fl(self, e):
        if isinstance(e, ast.Constant): return FL[e.value]
        if isinstance(e, ast.Name):
            assert self.kind[e.id] == 'fl', e.id
            return e.id + '_'
        if isinstance(e, ast.BinOp) and isinstance(e.op, ast.Sub) and e.right.value == 1:
            return '(fl_pred %s)' % self.fl(e.left)
        raise Exception(ast.dump(e))
    def ix(self, e):
        if isinstance(e, ast.Tuple): return '[%s]' % '; '.join(self.fl(x) for x in e.elts)
        if isinstance(e, ast.BinOp): return '(%s ++ %s)' % (self.ix(e.left), self.ix(e.right))
        if isinstance(e, ast.Name): return e.id
        raise Exception(ast.dump(e))
    # ---- expressions
    def ex(self, e):
        if isinstance(e, ast.Constant):
            assert int(e.value) == e.value
            return '(XQ %d 1)' % int(e.value)
        if isinstance(e, ast.UnaryOp) and isinstance(e.op, ast.USub):
            if isinstance(e.operand, ast.Constant): return '(XQ (-%d) 1)' % e.operand.value
            return '(XNeg %s)' % self.ex(e.operand)
        if isinstance(e, ast.Name):
            if e.id == 'Nc': return '(XQ 3 1)'
            if e.id == 'pi': return 'XPi'
            if e.id in self.inline: return self.inline[e.id]
            raise Exception(e.id)
        if isinstance(e, ast.BinOp):
            if isinstance(e.op, ast.Pow):
                assert e.right.value == 2
                x = self.ex(e.left); return '(XMul %s %s)' % (x, x)
            op = {ast.Add: 'XAdd', ast.Sub: 'XSub', ast.Mult: 'XMul', ast.Div: 'XDiv'}[type(e.op)]
            l = e.left
            num = lambda a: isinstance(a, ast.Constant) or (isinstance(a, ast.UnaryOp) and isinstance(a.operand, ast.Constant))
            if op == 'XDiv' and num(e.left) and isinstance(e.right, ast.Constant):
                v = e.left.value if isinstance(e.left, ast.Constant) else -e.left.operand.value
                return '(XQ (%d) %d)' % (v, e.right.value)
            return '(%s %s %s)' % (op, self.ex(e.left), self.ex(e.right))
        if isinstance(e, ast.Call) and isinstance(e.func, ast.Attribute) and e.func.attr == 'conj':
            return '(XConj %s)' % self.ex(e.func.value)
        if isinstance(e, ast.Call) and e.func.id == 'sqrt':
            return '(XRt %s)' % self.ex(e.args[0])
        if isinstance(e, ast.Subscript):
            v = e.value
            if isinstance(v, ast.Name):
                if v.id in ('p', 'parameters'): return '(XPar %s)' % cs(e.slice.value)
                if v.id == 'V': return '(XV %s %s)' % tuple(self.fl(x) for x in e.slice.elts)
                if v.id in self.dicts: return '(XGet %s)' % self.st(e.slice)
            if isinstance(v, ast.Subscript) and v.value.id == 'C':
                return '(XArr %s %s)' % (cs(v.slice.value), self.ix(e.slice))
        raise Exception(ast.dump(e))
    def disp(self, d, ind):
        items = ['(%s,\n%s   %s)' % (self.st(k), ind, self.ex(v)) for k, v in zip(d.keys, d.values)]
        return '[' + (';\n' + ind + ' ').join(items) + ']'
    def lst(self, e):
        if isinstance(e, ast.List): return '[%s]' % '; '.join(cs(x.value) for x in e.elts)
        if isinstance(e, ast.BinOp): return '(%s ++ %s)' % (self.lst(e.left), self.lst(e.right))
        if isinstance(e, ast.Name): return e.id
        raise Exception(ast.dump(e))
    def cond(self, t):
        if isinstance(t, ast.Name): return t.id
        l, r = t.left, t.comparators[0]
        if isinstance(t.ops[0], ast.Eq): return 'String.eqb %s %s' % (self.st(l), self.st(r))
        if isinstance(t.ops[0], ast.In):
            if isinstance(r, ast.Call) and r.func.attr == 'keys':
                return 'dmem %s %s' % (r.func.value.id, self.st(l))
            return 'mem %s %s' % (self.st(l), self.lst(r))
        raise Exception(ast.dump(t))
    # ---- statements; returns Coq text of type res tmpl
    def body(self, ss, ind):
        if not ss: return ind + 'Err TypeError (* returns None *)'
        s, rest = ss[0], ss[1:]
        if isinstance(s, ast.Expr): return self.body(rest, ind)
        if isinstance(s, ast.Return):
            v = s.value
            if isinstance(v, ast.Dict): return ind + 'Ok ' + self.disp(v, ind + '  ')
            if isinstance(v, ast.Constant): return ind + 'Err ValueError (* returns a string, which dict.update rejects *)'
            if isinstance(v, ast.DictComp):
                assert ast.unparse(v.generators[0]) == ' for k, v in dic.items()', ast.unparse(v.generators[0])
                x = ast.unparse(v.value)
                if x == 'prefactor * v': return ind + 'Ok (mul_all prefactor dic)'
                if x == 'v / prefactor': return ind + 'Ok (div_all dic prefactor)'
                raise Exception(x)
        if isinstance(s, ast.Raise): return ind + 'Err ValueError'
        if isinstance(s, ast.If):
            # include_charged
            if isinstance(s.test, ast.Name):
                up = s.body[0].value
                return (ind + 'let dic := if %s then dic ++\n' % s.test.id + ind + '  ' + self.disp(up.args[0], ind + '  ')
                        + '\n' + ind + '  else dic in\n' + self.body(rest, ind))
            if self.is_xi(s):
                out = ind + 'let! xi := (%s) in\n' % self.xi(s)
                self.inline['xi'] = 'xi'
                return out + self.body(rest, ind)
            a = self.body(s.body, ind + '  ')
            orelse = s.orelse if s.orelse else []
            b = self.body(list(orelse) + list(rest), ind)
            return ind + 'if %s then\n%s\n%selse\n%s' % (self.cond(s.test), a, ind, b)
        if isinstance(s, ast.Assign):
            n = s.targets[0].id; v = s.value
            if n == 'p': return self.body(rest, ind)
            if n == 'V': return self.body(rest, ind)
            if isinstance(v, ast.Subscript) and isinstance(v.value, ast.Name) and v.value.id in ('dflav', 'uflav', 'lflav', 'llflav'):
                self.kind[n] = 'fl'
                return ind + 'let! %s_ := flav %s %s in\n' % (n, v.value.id, self.st(v.slice)) + self.body(rest, ind)
            if n == 'ij':
                return ind + 'let! ij := mapM (fun q => flav dflav (String q "")) (chars qq) in\n' + self.body(rest, ind)
            if n == 'ji':
                return ind + 'let ji := rev ij in\n' + self.body(rest, ind)
            if isinstance(v, ast.List): return ind + 'let %s := %s in\n' % (n, self.lst(v)) + self.body(rest, ind)
            if n in ('ind', 'ind2', 'indfl', 'indnu', 'qqf', 'qqb', 'ddfl'):
                self.kind[n] = 'str'
                return ind + 'let %s := %s in\n' % (n, self.st(v)) + self.body(rest, ind)
            if n == 'dic':
                return ind + 'let dic :=\n' + ind + '  ' + self.disp(v, ind + '  ') + ' in\n' + self.body(rest, ind)
            t = self.ex(v)
            self.inline[n] = n
            return ind + 'let %s := %s in\n' % (n, t) + self.body(rest, ind)
        raise Exception(ast.dump(s))
    def is_xi(self, s):
        return isinstance(s.body[0], ast.Assign) and s.body[0].targets[0].id == 'xi'
    def xi(self, s):
        if isinstance(s, ast.Raise): return 'Err ValueError'
        r = 'if %s then Ok %s else ' % (self.cond(s.test), self.ex(s.body[0].value))
        o = s.orelse[0]
        return r + self.xi(o)
    def emit(self):
        args = [a for a in self.args if a not in self.dicts and a != 'parameters']
        sig = ''
        for a in args:
            sig += ' (%s : %s)' % (a, 'bool' if a == 'include_charged' else 'string')
        name = self.f.name.lstrip('_')
        return '(** %s, wet.py %d-%d *)\nDefinition %s%s : res tmpl :=\n%s.\n' % (
            self.f.name, self.f.lineno, self.f.end_lineno, name, sig, self.body(self.f.body, '  '))

out = ["""(** GENERATED by tools/gen_wet.py from wcxf/translators/wet.py: the formula functions.
    A function becomes a function of its flavour string alone; the coefficient dictionary or
    array dictionary it is given is what [XGet] and [XArr] read, its parameters are [XPar], and
    [V = ckm_tree(...)] is [XV].  Returning a string or None, which makes the caller fail, is an
    error here. *)
From Coq Require Import String Ascii List Bool Arith ZArith.
From Verif Require Import PyBase PyDict Tensor Smeft Eos WetExpr WetStr.
Import ListNotations.
Open Scope string_scope.
Open Scope list_scope.
Open Scope nat_scope.
"""]
byname = {f.name: f for f in tree.body if isinstance(f, ast.FunctionDef)}
for n in FUNCS:
    out.append(Fn(byname[n]).emit())
open('/verif/rocq/theories/WetTab.v', 'w').write('\n'.join(out))
