#!/usr/bin/env python3
"""Transcribe the tables of wcxf/util/smeftutil.py into theories/SmeftTab.v."""
import ast, os, sys
SRC = '/repo/wcxf/util/smeftutil.py'
src = open(SRC).read()
tree = ast.parse(src)
out = []
w = out.append
w('''(** GENERATED by tools/gen_smeft.py from wcxf/util/smeftutil.py: the key lists,
    the assignment tables of symmetrize_2 ... symmetrize_9 and the index
    rotations of flavor_rotation, line by line. *)
From Coq Require Import String List.
From Verif Require Import PyBase Tensor SmeftSyntax.
Import ListNotations.
Open Scope string_scope.
Open Scope list_scope.
''')
env = {}
def strs(n):
    return [e.value for e in n.elts]
def cl(l):
    return '[' + '; '.join('"%s"' % x for x in l) + ']'
symm = {}
for st in tree.body:
    if isinstance(st, ast.Assign):
        t = st.targets[0]
        if isinstance(t, ast.Name) and t.id in ('SM_keys', 'WC_keys_0f', 'WC_keys_2f', 'WC_keys_4f'):
            env[t.id] = strs(st.value)
            w('(** smeftutil.py %d-%d *)' % (st.lineno, st.end_lineno))
            w('Definition %s : list string :=\n  %s.' % (t.id, cl(env[t.id])))
        elif isinstance(t, ast.Name) and t.id == 'WC_keys':
            w('(** smeftutil.py %d *)\nDefinition WC_keys := WC_keys_0f ++ WC_keys_2f ++ WC_keys_4f.' % st.lineno)
            assert ast.unparse(st.value) == 'WC_keys_0f + WC_keys_2f + WC_keys_4f'
        elif isinstance(t, ast.Name) and t.id == 'C_keys_shape':
            w('(** smeftutil.py %d-%d *)\nDefinition C_keys_shape : list (string * shape) :=' % (st.lineno, st.end_lineno))
            l = []
            for k, v in zip(st.value.keys, st.value.values):
                v = ast.literal_eval(v)
                l.append('("%s", %s)' % (k.value, {1: 'Sh0', (3, 3): 'Sh2', (3, 3, 3, 3): 'Sh4'}[v]))
            w('  [' + ';\n   '.join(l) + '].')
        elif isinstance(t, ast.Subscript) and t.value.id == 'C_symm_keys':
            n = t.slice.value
            w('(** smeftutil.py %d *)' % st.lineno)
            if isinstance(st.value, ast.Name):
                w('Definition symm_keys_%d := %s.' % (n, st.value.id))
            else:
                w('Definition symm_keys_%d : list string := %s.' % (n, cl(strs(st.value))))
def idx(n):
    return '[' + '; '.join('F%d' % (e.value + 1) for e in n.elts) + ']'
def entry(n):
    """a.real[..], a.imag[..], a[..] -> (part, idx)"""
    assert isinstance(n, ast.Subscript)
    if isinstance(n.value, ast.Attribute):
        assert n.value.value.id == 'a'
        return n.value.attr, idx(n.slice)
    assert n.value.id == 'a'
    return 'all', idx(n.slice)
def terms(n):
    if isinstance(n, ast.BinOp) and isinstance(n.op, (ast.Add, ast.Sub)):
        p, i = entry(n.right); assert p == 'all'
        return terms(n.left) + [(isinstance(n.op, ast.Sub), i)]
    p, i = entry(n); assert p == 'all'
    return [(False, i)]
for st in tree.body:
    if isinstance(st, ast.FunctionDef) and st.name.startswith('symmetrize_'):
        assert ast.unparse(st.body[0]) == "a = np.array(b, copy=True, dtype=complex)"
        assert ast.unparse(st.body[-1]) == 'return a'
        l = []
        for s in st.body[1:-1]:
            p, i = entry(s.targets[0]); v = s.value
            if p == 'real':
                q, j = entry(v); assert q == 'real'
                l.append('SRe %s %s' % (i, j))
            elif p == 'imag':
                if isinstance(v, ast.Constant):
                    assert v.value == 0
                    l.append('SIm0 %s' % i)
                else:
                    neg = isinstance(v, ast.UnaryOp)
                    q, j = entry(v.operand if neg else v); assert q == 'imag'
                    l.append('SIm %s %s %s' % (i, 'true' if neg else 'false', j))
            elif isinstance(v, ast.Call):
                assert v.func.attr == 'conj'
                q, j = entry(v.func.value); assert q == 'all'
                l.append('SConj %s %s' % (i, j))
            elif isinstance(v, ast.BinOp):
                l.append('SLin %s [%s]' % (i, '; '.join('(%s, %s)' % ('true' if a else 'false', b) for a, b in terms(v))))
            else:
                q, j = entry(v); assert q == 'all'
                l.append('SCopy %s %s' % (i, j))
        w('(** %s, smeftutil.py %d-%d *)' % (st.name, st.lineno, st.end_lineno))
        w('Definition %s_tab : list stmt :=\n  [%s].' % (st.name.replace('symmetrize', 'symm'), ';\n   '.join(l)))
# flavor_rotation
def mat(n, transposed=False):
    """matrix expression -> (field, conj)"""
    u = ast.unparse(n)
    conj = u.endswith('.conj()')
    f = u[:-len('.conj()')] if conj else u
    assert f in ('Uq', 'Uu', 'Ud', 'Ul', 'Ue'), u
    return '(%s, %s)' % (f[1].upper() + 'f', 'true' if conj else 'false')
rot = []
def rot_of(v, key):
    """expression for C[k] -> Coq term"""
    if isinstance(v, ast.Subscript):
        assert v.value.id == 'C_in'
        return 'RNone'
    if isinstance(v, ast.BinOp):
        right = mat(v.right)
        assert isinstance(v.left, ast.BinOp) and v.left.right.value.id == 'C_in'
        lu = ast.unparse(v.left.left)
        assert lu.endswith('.T')
        left = mat(ast.parse(lu[:-2], mode='eval').body)
        return 'R2 %s %s' % (left, right)
    if isinstance(v, ast.Call):
        assert v.args[0].value == 'jb,ld,ia,kc,ijkl->abcd'
        b, d, a, c = [mat(x) for x in v.args[1:5]]
        assert v.args[5].value.id == 'C_in'
        return 'R4 %s %s %s %s' % (b, d, a, c)
    raise Exception(ast.dump(v))
for st in tree.body:
    if isinstance(st, ast.FunctionDef) and st.name == 'flavor_rotation':
        lines = (st.lineno, st.end_lineno)
        for s in st.body[2:-1]:
            if isinstance(s, ast.For):
                keys = env[s.iter.id] if isinstance(s.iter, ast.Name) else strs(s.iter)
                i = s.body[0]
                assert ast.unparse(i.test) == 'k in C_in' and not i.orelse
                assert ast.unparse(i.body[0].targets[0]) == 'C[k]'
                v = i.body[0].value
                assert 'C_in[k]' in ast.unparse(v)
                for k in keys:
                    rot.append((k, rot_of(v, k)))
            else:
                k = s.test.left.value
                assert ast.unparse(s.test) == "'%s' in C_in" % k
                assert ast.unparse(s.body[0].targets[0]) == "C['%s']" % k
                v = s.body[0].value
                assert "C_in['%s']" % k in ast.unparse(v)
                rot.append((k, rot_of(v, k)))
w('(** flavor_rotation, smeftutil.py %d-%d: for each operator, in order, the rotation\n    matrices of its indices.  [R2 L R]: [C.T-contracted with L, R]; [R4 B D A X] are the\n    einsum operands in source order (second, fourth, first, third index). *)' % lines)
w('Definition rot_tab : list (string * rot) :=\n  [' + ';\n   '.join('("%s", %s)' % x for x in rot) + '].')
open(os.path.join(os.path.dirname(os.path.abspath(__file__)), '../rocq/theories/SmeftTab.v'), 'w').write('\n'.join(out) + '\n')
