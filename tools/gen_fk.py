#!/usr/bin/env python3
"""Transcribe wcxf/data/flavorkit_jms.json and flavorkit_jms_conj.json into theories/FkTab.v."""
import json, os
D = '/repo/wcxf/data/'
out = ['''(** GENERATED by tools/gen_fk.py from wcxf/data/flavorkit_jms.json and flavorkit_jms_conj.json, in the order of the files. *)
From Coq Require Import String List.
From Verif Require Import PyBase PyDict.
Import ListNotations.
Open Scope string_scope.
Open Scope list_scope.
''']
for name, f in (('fk_jms', 'flavorkit_jms.json'), ('fk_jms_conj', 'flavorkit_jms_conj.json')):
    pairs = json.load(open(D + f), object_pairs_hook=list)
    assert len({k for k, _ in pairs}) == len(pairs)
    out.append('(** data/%s *)\nDefinition %s : dict string string :=\n  [%s].' % (f, name, ';\n   '.join(
        '; '.join('("%s", "%s")' % kv for kv in pairs[i:i+5]) for i in range(0, len(pairs), 5))))
here = os.path.dirname(os.path.abspath(__file__))
open(os.path.join(here, '../rocq/theories/FkTab.v'), 'w').write('\n'.join(out) + '\n')
