#!/usr/bin/env python3
"""Seeded-bug harness. usage: mutate.py MUTANTS.json   (list of {def, file, old, new, claim, [expect]})
Works on a scratch copy of rocq/ in /tmp/mut. For each mutant: edit the model, rebuild; whenever a proof breaks,
replace it by Admitted and go on; the property theorems that then depend on an admitted lemma (or whose own
statement/example breaks) are the ones that failed. Appends one line per mutant to seeded/LOG.jsonl."""
import json, os, re, subprocess, sys, shutil, time
ROOT = '/verif'
MUT = os.environ.get('MUT', '/tmp/mut')
SCR = MUT + '/rocq'
LOG = ROOT + '/seeded/LOG.jsonl'

HEAD = os.environ.get('HEAD', '')

def sh(cmd, t=3000):
    return subprocess.run(cmd, shell=True, capture_output=True, text=True, timeout=t)

def sync():
    """scratch copy of the committed tree, already compiled"""
    global HEAD
    HEAD = HEAD or sh(f'git -C {ROOT} rev-parse HEAD').stdout.strip()
    base = f'{MUT}/base-{HEAD}'
    if not os.path.exists(base + '/done'):
        sh(f'rm -rf {MUT}/base-*; mkdir -p {base} && git -C {ROOT} archive {HEAD} rocq | tar x -C {base}')
        r = sh(f'cd {base}/rocq && coq_makefile -f _CoqProject -o Makefile && make -j4')
        assert r.returncode == 0, r.stderr
        open(base + '/done', 'w').write('')
    sh(f'rm -rf {SCR}; mkdir -p {SCR}; cp -a {base}/rocq/. {SCR}/')

def make(targets=''):
    # keep going, collect first error per file
    r = sh(f'cd {SCR} && timeout 2400 make -j2 -k TIMECMD="timeout 480" {targets} 2>&1')
    errs = {}
    for m in re.finditer(r'File "\./?([^"]+)", line (\d+), characters (\d+)-(\d+):\n(Error:?[^\n]*\n?[^\n]*)', r.stdout):
        errs.setdefault(m.group(1), (int(m.group(2)), m.group(5)))
    return r.returncode == 0, errs

START = re.compile(r'^\s*(?:Local |Global |#\[[^\]]*\]\s*)?(Lemma|Theorem|Corollary|Fact|Remark|Example|Definition|Fixpoint|Instance)\s+([\w\']+)')

def enclosing(lines, n):
    """(start line index, name, kind) of the statement containing 1-based line n"""
    for i in range(n - 1, -1, -1):
        m = START.match(lines[i])
        if m:
            return i, m.group(2), m.group(1)
    return None

def admit(path, line):
    lines = open(path).read().split('\n')
    e = enclosing(lines, line)
    if e is None: return None
    i, name, kind = e
    # find Proof ... Qed. after i
    j = i
    while j < len(lines) and not re.search(r'\bProof\b', lines[j]): j += 1
    k = j
    while k < len(lines) and not re.search(r'\b(Qed|Defined)\.', lines[k]): k += 1
    if j >= len(lines) or k >= len(lines) or kind in ('Definition', 'Fixpoint'): return None
    if line - 1 < j or (line - 1 == j and False):   # error in the statement itself
        return ('STATEMENT', name)
    pre = re.sub(r'Proof\b.*', '', lines[j])
    post = re.sub(r'.*\b(?:Qed|Defined)\.', '', lines[k])
    lines[j:k + 1] = [pre + ' Admitted.' + post] + [''] * (k - j)
    open(path, 'w').write('\n'.join(lines))
    return (kind, name)

def run(m):
    sync()
    started = time.time()
    p = f'{SCR}/theories/{m["file"]}'
    s = open(p).read()
    if s.count(m['old']) < 1: return {'error': 'pattern not found: ' + m['old'][:60]}
    if s.count(m['old']) > 1 and not m.get('all'): return {'error': 'pattern not unique (%d): %s' % (s.count(m['old']), m['old'][:60])}
    open(p, 'w').write(s.replace(m['old'], m['new']))
    broken, direct = [], []
    for rnd in range(60):
        ok, errs = make(m.get('targets', ''))
        if ok: break
        if not errs: return {'error': 'make failed without error location'}
        prog = False
        for f, (ln, msg) in errs.items():
            path = f'{SCR}/{f}'
            a = admit(path, ln)
            if f.startswith('theories/Model'):
                return {'error': f'model does not compile: {f}:{ln} {msg}'}
            if a is None: return {'error': f'cannot admit {f}:{ln} {msg}'}
            if a[0] == 'STATEMENT': return {'error': f'statement error {f}:{ln} {a[1]} {msg}'}
            broken.append(a[1]); prog = True
        if not prog: break
    else:
        return {'error': 'too many rounds', 'broken': broken}
    # which property theorems depend on admitted lemmas?
    fails, survive = [], []
    import glob
    for f in sorted(glob.glob(SCR + '/theories/Properties/*.v')):
        if os.path.getmtime(f + 'o') < started: continue   # not rebuilt: does not depend on the edit
        mod = os.path.basename(f)[:-2]
        names = re.findall(r'^(?:Theorem|Lemma|Example)\s+(\w+)', open(f).read(), re.M)
        q = f'From Verif.Properties Require Import {mod}.\n' + ''.join(f'Print Assumptions {n}.\n' for n in names)
        open(MUT + '/q.v', 'w').write(q)
        out = sh(f'cd {MUT} && coqc -Q {SCR}/theories Verif q.v').stdout
        parts = re.split(r'^(?=Closed under the global context|Axioms:)', out, flags=re.M)[1:]
        if len(parts) != len(names): return {'error': 'assumptions of ' + mod + ' not printed'}
        for n, part in zip(names, parts):
            if part.startswith('Axioms'): fails.append(n)
    return {'broken_lemmas': broken, 'failed': fails}

if __name__ == '__main__':
    ms = json.load(open(sys.argv[1]))
    for m in ms:
        r = run(m)
        th = [n for n in r.get('failed', []) if not n.endswith('example') and '_example' not in n]
        rec = {'definition': m['file'] + ': ' + m['def'], 'edit': m.get('edit') or (m['old'] + '  ==>  ' + m['new']),
               'claim_broken': m['claim'], 'theorems_failed': th, 'theorems_tightened': m.get('tightened', [])}
        if 'error' in r: rec['error'] = r['error']
        print(('CAUGHT ' if th else 'SURVIVED ') + m['def'], th, r.get('error', ''), 'examples:', [n for n in r.get('failed', []) if n not in th], flush=True)
        if 'error' not in r and not (m.get('nolog')) and (th or m.get('log_survivor')):
            open(LOG, 'a').write(json.dumps(rec) + '\n')
