#!/usr/bin/env python3
"""Try one seeded bug in a scratch copy and report which theorems no longer check.

usage: mutate.py SPEC.json   (a list of {file, old, new, definition, edit, claim})

A lemma whose proof breaks is admitted in the scratch copy and the build goes
on; a property theorem has failed if Print Assumptions then lists something.
The files of the properties named in the claim are built first; the rest is
built only if no theorem there failed."""
import json, os, re, shutil, subprocess, sys
ROOT = '/tmp/mut/base'  # a clone of the last commit, built once
def run(cmd, cwd, t=1500):
    try:
        p = subprocess.run(cmd, cwd=cwd, shell=True, capture_output=True, text=True, timeout=t)
        return p.returncode, p.stdout + p.stderr
    except subprocess.TimeoutExpired:
        return 124, 'TIMEOUT'
START = re.compile(r'^[ ]*(?:Local |Global )?(Lemma|Theorem|Example|Corollary|Fact|Remark|Instance|Definition|Fixpoint)\s+(\w+)', re.M)
def admit(path, line):
    src = open(path).read()
    pos = sum(len(l) + 1 for l in src.split('\n')[:line - 1])
    best = None
    for m in START.finditer(src):
        if m.start() <= pos: best = m
    if best is None or best.group(1) in ('Definition', 'Fixpoint'): return None
    pr = re.compile(r'^\s*Proof\b.*?\b(Qed|Defined)\.', re.S | re.M).search(src, best.start())
    nxt = START.search(src, best.end())
    if pr is None or (nxt and nxt.start() < pr.start()): return None
    if pos < pr.start() and False: return None
    src = src[:pr.start()] + '\nProof. Admitted.' + '\n' * src[pr.start():pr.end()].count('\n') + src[pr.end():]
    open(path, 'w').write(src)
    return best.group(2)
def one(spec, tag):
    d = '/tmp/mut/' + tag
    shutil.rmtree(d, ignore_errors=True)
    shutil.copytree(ROOT, d)
    f = os.path.join(d, 'theories', spec['file'])
    s = open(f).read()
    assert s.count(spec['old']) >= 1, ('not found', spec['old'])
    open(f, 'w').write(s.replace(spec['old'], spec['new'], 1))
    run('coq_makefile -f _CoqProject -o Makefile', d)
    lemmas = []
    ids = set(re.findall(r'C\d+', spec['claim']))
    near = [m for m in props(d) if any(n.split('_')[0] in ids for n in theorems(d, m))]
    failed, note = build(d, near, lemmas) if near else ([], '')
    if not failed: failed, note = build(d, props(d), lemmas)
    shutil.rmtree(d, ignore_errors=True)
    return lemmas, failed, note
def props(d):
    return [f[:-2] for f in sorted(os.listdir(os.path.join(d, 'theories')))
            if f.startswith('Prop') and f.endswith('.v')]
def theorems(d, mod):
    return re.findall(r'^Theorem\s+(C\d+_\w+)', open(os.path.join(d, 'theories', mod + '.v')).read(), re.M)
def build(d, mods, lemmas):
    note, failed = '', []
    for _ in range(80):
        rc, out = run('make -j4 ' + ' '.join('theories/%s.vo' % m for m in mods), d)
        if rc == 0: break
        ms = re.findall(r'File "\./(theories/\w+\.v)", line (\d+), characters [^\n]*\nError', out)
        if not ms: note = out[-400:]; break
        ok = False
        for file, line in ms:
            n = admit(os.path.join(d, file), int(line))
            if n: lemmas.append(n); ok = True
            else: note = out[-600:]
        if not ok: break
    if rc == 0:
        names = [n for m in mods for n in theorems(d, m)]
        q = ''.join('From Verif Require %s.\n' % m for m in mods)
        q += ''.join('From Verif Require Import %s.\n' % m for m in mods)
        open(os.path.join(d, 'q.v'), 'w').write(q + ''.join('Print Assumptions %s.\n' % n for n in names))
        rc2, o2 = run('coqc -Q theories Verif q.v', d)
        chunks = re.split(r'(?=^Closed under|^Axioms:)', o2, flags=re.M)
        chunks = [c for c in chunks if c.startswith(('Closed', 'Axioms'))]
        assert len(chunks) == len(names), (len(chunks), len(names), o2[-500:])
        failed = [n for n, c in zip(names, chunks) if c.startswith('Axioms')]
    return failed, note
head = run('git rev-parse HEAD', '/verif')[1].strip()
if not os.path.exists(ROOT + '/head') or open(ROOT + '/head').read() != head:
    os.makedirs(ROOT, exist_ok=True); shutil.rmtree('/tmp/mut/clone', ignore_errors=True)
    run('git clone -q /verif /tmp/mut/clone', '/tmp/mut')
    for dirpath, _, files in os.walk('/tmp/mut/clone/rocq'):  # changed files only
        to = os.path.join(ROOT, os.path.relpath(dirpath, '/tmp/mut/clone/rocq'))
        os.makedirs(to, exist_ok=True)
        for f in files:
            new, old = os.path.join(dirpath, f), os.path.join(to, f)
            if not os.path.exists(old) or open(old).read() != open(new).read(): shutil.copy(new, old)
    rc, out = run('coq_makefile -f _CoqProject -o Makefile && make -j4', ROOT)
    assert rc == 0, out[-500:]
    open(ROOT + '/head', 'w').write(head)
specs = json.load(open(sys.argv[1]))
log = '--log' in sys.argv
for i, sp in enumerate(specs):
    lemmas, failed, note = one(sp, os.path.basename(sys.argv[1]).split('.')[0] + str(i))
    print(i, sp['definition'], '|', sp['edit'], '\n   lemmas:', lemmas, '\n   theorems:', failed, '\n   ', note, flush=True)
    sp['result'] = failed
    if log:
        open('/verif/seeded/LOG.jsonl', 'a').write(json.dumps({
            'definition': sp['definition'], 'edit': sp['edit'], 'claim': sp['claim'],
            'theorems_failed': failed, 'lemmas_failed': lemmas,
            'theorems_tightened': sp.get('tightened', [])}) + '\n')
