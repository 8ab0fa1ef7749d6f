#!/usr/bin/env python3
"""Write rocq/theories/Properties/Approval.v from /repo/tests/approval_tests/data/expected.

The project masks durations, versions, paths and line numbers by * in these files. The model shows * for
durations, versions and directories by itself; only the line numbers (7 in the model) and the unit
of durations, masked together with them, are put back here.
"""
import re, os
src = '/repo/tests/approval_tests/data/expected/'
out = os.path.join(os.path.dirname(__file__), '../rocq/theories/Properties/Approval.v')
kinds = {
  'default': [], 'notest': ['bad_filter'], 'allpass': ['* pass*'], 'allfail': ['* fail*'],
  'full': ['--verbosity', 'full'], 'list_tests': ['--list-tests'], 'withcolor': None,
}
def unmask(name, l):
    l = re.sub(r'(\.cpp:)\*', r'\g<1>7', l)
    l = re.sub(r'line="\*"', 'line="7"', l)
    l = re.sub(r'<Line>\*<', '<Line>7<', l)
    if name.startswith('console'):
        l = re.sub(r'^(finished: .*\(\*)\)', r'\1s)', l)
    return l
text = '''(** Validation of the model against the project's own expected outputs: /repo/tests/approval_tests/data/expected, compared by
    /repo/tests/approval_tests with what the library prints for the test cases of Proofs/ApprovalTests.v. These are
    tests of the model, not properties. Written by tools/approval.py. *)
From Coq Require Import String List.
From Verif.Spec Require Import TextSpec DeclareSpec.
From Verif.Proofs Require Import ApprovalTests.
Import ListNotations.
Local Open Scope string_scope.
Local Open Scope list_scope.
'''
for rep, fn, arg in [('console', 'console_approval', 'console'), ('catch2_xml', 'xml_approval', 'xml'), ('teamcity', 'teamcity_approval', 'teamcity')]:
    for kind, more in kinds.items():
        path = src + 'reporter_%s_%s' % (rep, kind)
        if not os.path.exists(path): continue
        data = open(path, newline='').read()
        assert data.endswith('\n')
        ls = [unmask(rep, l) for l in data[:-1].split('\n')]
        args = ['--reporter', 'console::color=always'] if more is None else ['--reporter', arg] + more
        # escape characters cannot be written in a file of the prover: they are spelt out
        def coq(s):
            parts = ['"' + p.replace('"', '""') + '"' for p in s.split('\x1b')]
            return '(' + ' ++ esc ++ '.join(parts) + ')%string' if len(parts) > 1 else parts[0]
        text += '\n(** approval_tests/data/expected/reporter_%s_%s *)\nExample approval_%s_%s :\n  %s Gcc [%s] = Some (lines [\n    %s\n  ]).\nProof. vm_compute. reflexivity. Qed.\n' % (
            rep, kind, rep, kind, fn, '; '.join('"%s"' % a for a in args), ';\n    '.join(coq(l) for l in ls))
open(out, 'w').write(text)
