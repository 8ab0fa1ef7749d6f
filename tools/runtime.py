#!/usr/bin/env python3
"""Write rocq/theories/Properties/RuntimeTests.v from the project's own unit tests of its string utilities,
/repo/tests/runtime_tests/string_utility.cpp: each CHECK on a function of the model becomes an equation."""
import re, os, struct, ast
src = open('/repo/tests/runtime_tests/string_utility.cpp').read().split('\n')
out = os.path.join(os.path.dirname(__file__), '../rocq/theories/Properties/RuntimeTests.v')
def q(s): return '(quote "%s")' % s.replace('"', '""')
def cstr(tok):
    tok = tok.strip()
    assert tok.startswith('"'), tok
    tok = re.sub(r'"sv$', '"', tok)
    return ast.literal_eval(tok)
def fbits(x, double):
    return str(struct.unpack('<Q' if double else '<I', struct.pack('<d' if double else '<f', x))[0])
def value(tok):
    tok = tok.strip()
    if tok in ('true', 'false'): return 'Boolean ' + tok
    if tok == 'nullptr': return 'NullPtr'
    if tok.endswith('sv'): return 'View ' + q(cstr(tok))
    if tok == '"abc"': return 'Array (quote "abc" ++ [ascii_of_nat 0])'
    if tok == 'static_cast<const char*>("abc")': return 'CString (Some (quote "abc" ++ [ascii_of_nat 0]))'
    if tok == 'static_cast<const char*>(nullptr)': return 'CString None'
    if 'function_ptr_type>(nullptr)' in tok: return 'Code true'
    if tok in ('&foo', '&frob::knob'): return 'Code false'
    m = re.match(r'(-?)std::numeric_limits<(float|double)>::(infinity|quiet_NaN)\(\)$', tok)
    if m:
        d = m.group(2) == 'double'
        x = float('inf') if m.group(3) == 'infinity' else float('nan')
        return ('Double ' if d else 'Float ') + fbits(-x if m.group(1) else x, d)
    if tok.startswith('enum_type::'):
        return 'Enumerator (Integer true 32 %s)' % {'value1': '0', 'value2': '12', 'value3': '123456'}[tok[11:]]
    m = re.match(r'-(\d+) - 1$', tok)
    if m: return 'Integer true 64 (-%d)' % (int(m.group(1)) + 1)
    m = re.match(r'(-?\d+)u$', tok)
    if m: return 'Integer false 64 ' + m.group(1)
    m = re.match(r'-?\d+$', tok)
    if m: return 'Integer true 64 (%s)' % tok
    m = re.match(r'(-?[\d.]+(e[+-]?\d+)?)(f?)$', tok)
    if m:
        d = not m.group(3)
        return ('Double ' if d else 'Float ') + fbits(float(m.group(1)), d)
    raise Exception(tok)
parts = []   # (label, lines)
def add(label, f, items):
    parts.append((label, f, items))
cap = None
case = section = ''
appends = {}; matches = []; escapes = []; names = []; tags = []; ids = []; found = []
text = '\n'.join(src)
# conditional parts: with std::bit_cast
text = re.sub(r'#if SNITCH_CONSTEXPR_FLOAT_USE_BITCAST\n(.*?)#elif.*?#endif', r'\1', text, flags=re.S)
text = re.sub(r'#if 0\n.*?#endif', '', text, flags=re.S)
n_checks = 0
for l in text.split('\n'):
    m = re.search(r'to_string<(\d+), (true|false)>', l)
    if m: cap = int(m.group(1))
    m = re.search(r'TEST_CASE\("([^"]*)"', l)
    if m: case = m.group(1)
    m = re.match(r'\s*CONSTEXPR_CHECK\(a\((.*)\) == ae\{(".*?"(?:sv)?), (true|false)\}\);', l)
    if m and case.startswith('append'):
        appends.setdefault((case, cap), []).append((value(m.group(1)), cstr(m.group(2)), m.group(3)))
    m = re.match(r'\s*CHECK\((!?)snitch::is_match\((".*?"sv), (".*?"sv)\)\);', l)
    if m: matches.append((cstr(m.group(2)), cstr(m.group(3)), 'false' if m.group(1) else 'true'))
    m = re.match(r'\s*CHECK\(escape<(\d+)>\((".*?"), (".*?"), (".*?")\) == e\{(".*?"), (true|false)\}\);', l)
    if m: escapes.append((m.group(1), cstr(m.group(2)), cstr(m.group(3)), cstr(m.group(4)), cstr(m.group(5)), m.group(6)))
    m = re.match(r"\s*CHECK\(snitch::find_first_not_escaped\((\".*?\"sv), '(.)'\) == (.*?)\);", l)
    if m: found.append((cstr(m.group(1)), m.group(2), 'None' if 'npos' in m.group(3) else 'Some ' + m.group(3)[0]))
    m = re.match(r'\s*CHECK\(is_filter_match_(name|tags|id)\((.*)\) == (..)\);', l)
    if m:
        args = [cstr(a) for a in re.findall(r'".*?"sv', m.group(2))]
        {'name': names, 'tags': tags, 'id': ids}[m.group(1)].append((args, m.group(3)))
res = '''(** Validation of the model against the project's own unit tests: each CHECK of
    /repo/tests/runtime_tests/string_utility.cpp on a function of the model, with the values expected there. These are
    tests of the model, not properties. Written by tools/runtime.py. *)
From Coq Require Import NArith ZArith.
From Verif.Spec Require Import TextSpec FilterSpec ValueSpec.
From Verif.Model Require Import Base Vector StringUtil Filter Values.
Local Open Scope list_scope.

Definition content (r : res (sstr * bool)) : option (text * bool) :=
  match r with Ok (s, ok) => Some (vcontent s, ok) | Err _ => None end.
(** Both the function used during constant evaluation and the one used at run time, without [std::to_chars]. *)
Definition appends (cap : nat) (v : value) (t : text * bool) : Prop :=
  content (append_built_in AtCompileTime (new_string cap) v) = Some t /\\
  content (append_built_in (AtRunTime None [] []) (new_string cap) v) = Some t.
Definition escaped_as (cap : nat) (s pattern r expected : string) (ok : bool) : Prop :=
  content (do ss <- string_from cap (quote s) ;; escape_all_or_truncate 20 ss (quote pattern) (quote r)) = Some (quote expected, ok).
Definition replaced_as (cap : nat) (s pattern r expected : string) (ok : bool) : Prop :=
  content (do ss <- string_from cap (quote s) ;; replace_all 20 ss (quote pattern) (quote r)) = Some (quote expected, ok).
Definition EI := mkfr true false.
Definition EE := mkfr false false.
Definition II := mkfr true true.
Definition IE := mkfr false true.
'''
def example(name, comment, props):
    global res, n_checks
    n_checks += len(props)
    res += '\n(** %s *)\nExample %s : Forall (fun P => P) [\n  %s\n]%%nat.\nProof. repeat (apply Forall_cons; [vm_compute; try split; reflexivity|]). apply Forall_nil. Qed.\n' % (comment, name, ';\n  '.join(props))
for (case, cap), l in appends.items():
    example('runtime_%s_%d' % (case.replace(' ', '_'), cap), '"%s", strings of capacity %d' % (case, cap),
            ['appends %d (%s) (quote "%s", %s)' % (cap, re.sub(r'(Float|Double) (\d+)$', r'\1 \2%Z', re.sub(r'(Integer (?:true|false) \d+) (\(?-?\d+\)?)', r'\1 \2%Z', v)), t, ok) for v, t, ok in l])
example('runtime_is_match', '"is_match"', ['is_match %s %s = %s' % (q(a), q(b), r) for a, b, r in matches])
example('runtime_find_first_not_escaped', '"find_first_not_escaped"', ['find_first_not_escaped %s "%s"%%char = %s' % (q(a), c, r) for a, c, r in found])
example('runtime_escape', '"escape_all_or_truncate"', ['escaped_as %s %s %s' % (n, ' '.join('"%s"' % x for x in a), ok) for n, *a, ok in escapes])
# "replace_all", for capacities 5 to 10
reps = []
for cap in range(5, 11):
    def r(s, p, t, e, cut=False): reps.append('replaced_as %d "%s" "%s" "%s" "%s" %s' % (cap, s, p, t, e[:cap], 'false' if len(e) > cap else 'true'))
    L = 'abcdefghijklmnopqrst'; P = 'abacaabcdefghijklmqrst'
    r('abaca', 'a', 'b', 'bbbcb'); r('abaca', 'a', 'a', 'abaca'); r('abaca', 't', 'a', 'abaca'); r('abaca', P, 'tsrqmlkjihgfedcbaacaba', 'abaca')
    r('atata', 'ta', 'c', 'acc'); r('atata', 'at', 'c', 'cca'); r('atata', 'ta', 't', 'att'); r('taata', 'ta', 't', 'tat'); r('atata', 'at', 'a', 'aaa')
    r('abaca', 'ta', 'a', 'abaca'); r('abaca', P, 'a', 'abaca'); r('abaca', L + L, L, 'abaca')
    r('abaca', 'a', 'bb', 'bbbbbcbb'); r('ababa', 'b', 'aa', 'aaaaaaa'); r('abaca', 'a', 'aa', 'aabaacaa'); r('ababa', 'b', 'bb', 'abbabba'); r('abaca', 't', 'aa', 'abaca')
    r('abaca', 'a', L, L); r('abaca', P, L + L, 'abaca')
example('runtime_replace_all', '"replace_all", strings of capacities 5 to 10', reps)
app = []
for cap in range(1, 7):
    e = 'i=1+2'
    if cap < 5: e = e[:max(cap - 3, 0)] + '...'[:cap]
    app.append('content (append_or_truncate (new_string %d) (map quote ["i="; "1"; "+"; "2"]%%string)) = Some (quote "%s", %s)' % (cap, e, 'true' if cap >= 5 else 'false'))
for cap in range(1, 6):
    for s in ['', 'a', 'abcde'[:cap]]:
        k = min(cap, len(s) + 3)
        e = (s[:max(k - 3, 0)] + '...')[:k]
        app.append('content (do ss <- string_from %d (quote "%s") ;; do t <- truncate_end ss ;; Ok (t, true)) = Some (quote "%s", true)' % (cap, s, e))
example('runtime_truncate', '"append_or_truncate" and "truncate_end"', app)
mul = []
for l, e, ok in [('[View (quote ""); View (quote "")]', '', 'true'),
    ('[View (quote "int="); Integer true 32 123456%Z]', 'int=123456', 'true'),
    ('[View (quote "int="); Integer true 32 123456%Z; View (quote " bool="); Boolean true]', 'int=123456 bool=true', 'true'),
    ('[View (quote "int="); Integer true 32 123456%%Z; View (quote " bool="); Boolean true; View (quote " float="); Double %s%%Z]' % fbits(3.1415, True), 'int=123456 bool=true', 'false'),
    ('[View (quote "int="); Integer true 32 123456%Z; View (quote ", bool="); Boolean true]', 'int=123456, bool=tru', 'false')]:
    mul.append('content (append_values (AtRunTime None [] []) (new_string 20) %s) = Some (quote "%s", %s)' % (l, e, ok))
example('runtime_append_multiple', '"append multiple"', mul)
example('runtime_filter_name', '"is_filter_match"', ['is_filter_match_name %s = %s' % (' '.join(map(q, a)), r) for a, r in names])
example('runtime_filter_tags', '"is_filter_match_tag"', ['is_filter_match_tags 256 %s = Ok %s' % (' '.join(map(q, a)), r) for a, r in tags])
example('runtime_filter_id', '"is_filter_match_id"', ['is_filter_match_id 256 %s = Ok %s' % (' '.join(map(q, a)), r) for a, r in ids])
open(out, 'w').write(res)
print(n_checks, 'checks')
