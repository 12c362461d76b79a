#!/usr/bin/env python3
"""Transcribe the tables of wcxf/converters/smeftsim.py and the texts of
SMEFTsim_param_card_elements.py into theories/SmeftSimTab.v."""
import ast, os, re
SRC = '/repo/wcxf/converters/smeftsim.py'
tree = ast.parse(open(SRC).read().expandtabs(8))
out = []
w = out.append
w('''(** GENERATED by tools/gen_smeftsim.py from wcxf/converters/smeftsim.py and
    SMEFTsim_param_card_elements.py: the blocks, the rows and the texts, line by line. *)
From Coq Require Import String List NArith.
From Verif Require Import PyBase SmeftSimSyntax.
Import ListNotations.
Open Scope string_scope.
Open Scope list_scope.
Open Scope N_scope.
''')
def fun(name):
    return [x for x in tree.body if isinstance(x, ast.FunctionDef) and x.name == name][0]
def sets(f):
    i = [x for x in f.body if isinstance(x, ast.If)][0]
    assert ast.unparse(i.test) == "model_set == 'A'" and ast.unparse(i.orelse[0].test) == "model_set == 'B'"
    assert i.orelse[0].orelse == []
    return i.body, i.orelse[0].body
def block(t):
    m = re.fullmatch(r"card\['Block'\]\['(\w+)'\]", ast.unparse(t))
    return m.group(1)
def cl(l): return '[' + '; '.join('"%s"' % x for x in l) + ']'
for nm, body in zip('AB', sets(fun('initialize_smeftsim_card'))):
    assert ast.unparse(body[0]) == "card = {'Block': OrderedDict()}"
    names = []
    for st in body[1:]:
        assert ast.unparse(st.value) == 'OrderedDict()'
        names.append(block(st.targets[0]))
    w('(** smeftsim.py %d-%d *)' % (body[0].lineno, body[-1].lineno))
    w('Definition blocks%s : list string :=\n  %s.' % (nm, cl(names)))
KINDS = {"format(abs(W) * lambda_smeft_value ** 2, '.6e')": 'VAbs',
         "format(abs(W * lambda_smeft_value ** 2), '.6e')": 'VAbsAll',
         "format(angle(W), '.6e')": 'VAngle',
         "format(W * lambda_smeft_value ** 2, '.6e')": 'VRaw',
         "format(lambda_smeft_value, '.6e')": 'VLambda'}
for nm, body in zip('AB', sets(fun('smeftsim_card_fill'))):
    bl = []
    for st in body:
        if isinstance(st, ast.If):
            assert nm == 'A' and st is body[-1]
            assert ast.unparse(st.test) == "input_scheme_value == 'mw'" and len(st.body) == 1
            assert ast.unparse(st.body[0]) == "card['Block']['FRBlock']['values'].insert(1474, [1475, format(80.387, '.6e'), '# MW0'])"
            continue
        b = block(st.targets[0])
        assert isinstance(st.value, ast.Dict) and [k.value for k in st.value.keys] == ['values']
        rows = []
        for e in st.value.values[0].elts:
            ix = [x.value for x in e.elts[:-2]]
            u = ast.unparse(e.elts[-2])
            names = re.findall(r"wc\.dict\['(\w+)'\]", u)
            u = re.sub(r"wc\.dict\['\w+'\]", 'W', u)
            k = KINDS[u]
            assert len(names) == (0 if k == 'VLambda' else 1)
            rows.append('Row [%s] %s "%s" "%s"' % ('; '.join(map(str, ix)), k, names[0] if names else '', e.elts[-1].value))
        d = 'rows%s_%s' % (nm, b)
        w('(** smeftsim.py %d-%d *)' % (st.lineno, st.end_lineno))
        w('Definition %s : list row :=\n  [%s].' % (d, ';\n   '.join(rows)))
        bl.append('("%s", %s)' % (b, d))
    w('(** smeftsim.py %d-%d *)' % (body[0].lineno, body[-1].end_lineno))
    w('Definition table%s : list (string * list row) :=\n  [%s].' % (nm, ';\n   '.join(bl)))
# texts
t2 = ast.parse(open('/repo/wcxf/converters/SMEFTsim_param_card_elements.py').read())
for st in t2.body:
    n = st.targets[0].id; v = st.value.value
    assert all(32 <= ord(c) < 127 or c == '\n' for c in v) and n in ('preamble_A', 'preamble_B', 'postamble_A', 'postamble_B')
    w('(** SMEFTsim_param_card_elements.py %d-%d, split at the line ends *)' % (st.lineno, st.end_lineno))
    w('Definition %s_lines : list string :=\n  [%s].' % (n, ';\n   '.join('"%s"' % x.replace('"', '""') for x in v.split('\n'))))
open(os.path.join(os.path.dirname(os.path.abspath(__file__)), '..', 'rocq', 'theories', 'SmeftSimTab.v'), 'w').write('\n'.join(out) + '\n')
