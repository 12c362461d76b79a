#!/usr/bin/env python3
"""Writes rocq/theories/MatchTab.v: the matrices and matching conditions of
wcxf/matchers/smeft.py, read as text (ast, nothing is imported or run)."""
import ast, sys
SRC = '/repo/wcxf/matchers/smeft.py'
text = open(SRC).read()
tree = ast.parse(text)
COUP = {'vT': 'c_v', 'g2b': 'c_g2', 'g1b': 'c_g1', 'sb': 'c_s', 'cb': 'c_c', 'eb': 'c_e', 'gzb': 'c_gz'}
MATS = ['wl', 'wq', 'wr', 'znu', 'zel', 'zer', 'zul', 'zur', 'zdl', 'zdr']
TWO = set('llphiphi eW eB uW uB uG dW dB dG phil1 phil3 phie phiq1 phiq3 phiu phid phiud'.split())
ZERO = {'G', 'Gtilde'}

def num(c):
    if float(c) != int(c):
        sys.exit('literal %r' % c)
    return str(int(c))

# returns (type, coq text), type in R, M, T, Z
def tr(e):
    if isinstance(e, ast.Constant):
        return 'R', num(e.value)
    if isinstance(e, ast.Name):
        if e.id == 'Nc':
            return 'R', '3'
        sys.exit('name ' + e.id)
    if isinstance(e, ast.UnaryOp) and isinstance(e.op, ast.USub):
        t, x = tr(e.operand)
        return t, {'R': '(- %s)', 'M': '(mneg %s)', 'T': '(tneg %s)'}[t] % x
    if isinstance(e, ast.Subscript):
        key = e.slice.value
        if e.value.id == 'p':
            return 'R', '(param p "%s")' % key
        assert e.value.id == 'C'
        if key in TWO:
            return 'M', '(g2 A "%s")' % key
        if key in ZERO:
            return 'Z', '(g0 A "%s")' % key
        return 'T', '(g4 A "%s")' % key
    if isinstance(e, ast.Call):
        f = e.func
        if isinstance(f, ast.Name):
            if f.id == 'sqrt':
                return 'R', '(sqrt %s)' % tr(e.args[0])[1]
            assert [a.id for a in e.args] == ['C', 'p']
            if f.id in COUP:
                return 'R', '(%s k)' % COUP[f.id]
            assert f.id in MATS, f.id
            return 'M', '(%s k A)' % f.id
        if f.attr == 'conjugate':
            t, x = tr(f.value)
            assert t == 'M'
            return 'M', '(mconj %s)' % x
        if f.attr == 'eye':
            return 'M', 'meye'
        if f.attr == 'zeros':
            n = len(e.args[0].elts)
            return ('M', 'mzero') if n == 2 else ('T', 'tzero')
        if f.attr == 'einsum':
            s = e.args[0].value.replace(',', '_')
            args = ' '.join(tr(a)[1] for a in e.args[1:])
            return 'T', '(e_%s %s)' % (s, args)
    if isinstance(e, ast.BinOp):
        (a, x), (b, y) = tr(e.left), None or tr(e.right)
        op = type(e.op).__name__
        if op == 'Pow':
            assert a == 'R' and y == '2'
            return 'R', '(%s ^ 2)' % x
        if a == 'R' and b == 'R':
            return 'R', '(%s %s %s)' % (x, {'Add': '+', 'Sub': '-', 'Mult': '*', 'Div': '/'}[op], y)
        if op == 'Mult' and a == 'R':
            return b, '(%sscale %s %s)' % (b.lower(), x, y)
        if op == 'Mult' and b == 'R':
            return a, '(%sscale %s %s)' % (a.lower(), y, x)
        if op == 'Div' and b == 'R':
            return a, '(%sscale (/ %s) %s)' % (a.lower(), y, x)
        assert a == b and a in 'MT', ast.dump(e)
        return a, '(%s%s %s %s)' % (a.lower(), {'Add': 'add', 'Sub': 'sub'}[op], x, y)
    sys.exit(ast.dump(e))

out = ['(** Generated by tools/gen_match.py from wcxf/matchers/smeft.py; do not edit.',
       '    [np.eye(3)*x/2] is read as [scale (/2) (scale x eye)]. *)',
       'From Coq Require Import String List Reals.',
       'From Verif Require Import PyBase PyDict Cplx Tensor Wc Params Smeft MatchOps.',
       'Import ListNotations.', 'Open Scope string_scope.', 'Open Scope list_scope.', 'Open Scope R_scope.', '']
for d in tree.body:
    if isinstance(d, ast.FunctionDef) and d.name in MATS:
        t, x = tr(d.body[-1].value)
        assert t == 'M'
        out += ['(** %s, matchers/smeft.py %d-%d *)' % (d.name, d.lineno, d.end_lineno),
                'Definition %s (k : coup) (A : arrays) : mat := %s.' % (d.name, x)]
out.append('')
names = []
for d in tree.body:
    if isinstance(d, ast.Assign) and isinstance(d.targets[0], ast.Subscript):
        key = d.targets[0].slice.value
        assert isinstance(d.value, ast.Lambda)
        t, x = tr(d.value.body)
        names.append((key, d.lineno))
        out += ['(** C["%s"], matchers/smeft.py %d *)' % (key, d.lineno),
                'Definition m_%s (k : coup) (p : params) (A : arrays) : arr := %s %s.' % (key, {'Z': 'A0', 'M': 'A2', 'T': 'A4'}[t], x)]
assert len(set(n for n, _ in names)) == len(names)
out += ['', '(** The dictionary C, in order of insertion. *)', 'Definition match_tab : list (string * (coup -> params -> arrays -> arr)) :=',
        '  [' + ';\n   '.join('("%s", m_%s)' % (n, n) for n, _ in names) + '].']
open('/verif/rocq/theories/MatchTab.v', 'w').write('\n'.join(out) + '\n')
print(len(names), 'operators')
