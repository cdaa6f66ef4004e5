#!/usr/bin/env python3
"""Rebuild the development with one model definition edited (tools/mutants.py) in a scratch copy.

usage: seed.py SCRATCH RESULTS NAME...

A proof that fails is replaced by Admitted in the scratch copy and the build goes on, so that at the
end Print Assumptions tells which property theorems no longer have a proof."""
import json, os, re, subprocess, sys, time
HERE = os.path.dirname(os.path.abspath(__file__))
sys.path.insert(0, HERE)
from mutants import MUTANTS

scratch, results, names = sys.argv[1], sys.argv[2], sys.argv[3:]
ROCQ = os.environ.get('SEED_BASE', os.path.join(HERE, '..', 'rocq'))
START = re.compile(r'^\s*(?:#\[[^]]*\]\s*)?(?:Local\s+|Global\s+)?(Lemma|Theorem|Example|Corollary|Remark|Fact)\s+([A-Za-z0-9_\']+)')
DEF = re.compile(r'^\s*(Definition|Fixpoint|Inductive|Record|Ltac|Notation|Print|Section|End|Check)\b\s*(\S*)')

def sh(cmd, **kw):
    return subprocess.run(cmd, shell=True, stdout=subprocess.PIPE, stderr=subprocess.STDOUT, text=True, **kw).stdout

def admit(path, line):
    """replace the proof of the statement around [line] by Admitted; returns its name"""
    lines = open(path).read().split('\n')
    i = line - 1
    while i >= 0 and not START.match(lines[i]):
        if DEF.match(lines[i]) and i <= line - 1 and not lines[i].startswith(' '):
            return None, DEF.match(lines[i]).group(0)
        i -= 1
    if i < 0:
        return None, 'line %d' % line
    name = START.match(lines[i]).group(2)
    text = '\n'.join(lines[i:])
    p = re.search(r'\bProof\b(\s+using[^.]*)?\.', text)
    q = re.search(r'\b(Qed|Defined)\.', text)
    if not p or not q or q.start() < p.start():
        return None, name
    if text[:q.end()].count('\n') + i < line - 1:
        return None, 'after ' + name
    body = text[p.start():q.end()]
    new = text[:p.start()] + 'Admitted.' + '\n' * body.count('\n') + text[q.end():]
    open(path, 'w').write('\n'.join(lines[:i]) + ('\n' if i else '') + new)
    return name, None

for name in names:
    m = MUTANTS[name]
    t0 = time.time()
    sh('rm -rf %s && cp -a %s %s' % (scratch, ROCQ, scratch))
    f = os.path.join(scratch, 'theories', m['file'])
    s = open(f).read()
    assert s.count(m['old']) == m.get('count', 1), (name, s.count(m['old']))
    open(f, 'w').write(s.replace(m['old'], m['new']))
    sh('cd %s && coq_makefile -f _CoqProject -o Makefile' % scratch)
    with open(os.path.join(scratch, 'coqc.sh'), 'w') as g:
        g.write('#!/bin/bash\no=%s/$(basename "${@: -1}").out\ntimeout 900 coqc "$@" > $o 2>&1\nr=$?\ncat $o\nexit $r\n' % scratch)
    os.chmod(os.path.join(scratch, 'coqc.sh'), 0o755)
    admitted, stuck = [], []
    for rnd in range(200):
        out = sh('cd %s && ulimit -v 7000000; make -k -j2 COQC=%s/coqc.sh 2>&1' % (scratch, scratch))
        errs = []
        for e in re.finditer(r'File "\./(theories/\w+\.v)", line (\d+), characters [^\n]*\n(?!Warning)', out):
            rest = out[e.end():e.end() + 400]
            if 'Error' in rest.split('File "')[0]:
                errs.append((e.group(1), int(e.group(2)), rest.split('File "')[0][:300]))
        if not errs:
            killed = re.findall(r"\*\*\* \[[^]]*: theories/(\w+)\.vo\] Error (?:134|124|137|2)\b", out)
            for b in killed:        # out of memory or time: find the sentence that was running
                log = sh('cd %s && ulimit -v 7000000; timeout 900 coqc -time -Q theories Verif theories/%s.v 2>&1' % (scratch, b))
                ends = [int(x) for x in re.findall(r'^Chars \d+ - (\d+) \[', log, re.M)]
                src = open(os.path.join(scratch, 'theories', b + '.v'), 'rb').read()
                at = ends[-1] if ends else 0
                while at < len(src) and src[at:at + 1].isspace():
                    at += 1
                errs.append(('theories/%s.v' % b, src[:at].count(b'\n') + 1, 'killed'))
            if not errs:
                if re.search(r'^make.*\*\*\*', out, re.M):
                    stuck.append(out[-1500:])
                break
        progress = False
        for path, line, msg in errs:
            n, why = admit(os.path.join(scratch, path), line)
            if n:
                admitted.append([os.path.basename(path), n]); progress = True
            else:
                stuck.append([path, line, why, msg])
        if not progress:
            break
    failed = []
    for p in sorted(os.listdir(os.path.join(scratch, 'theories'))):
        if re.match(r'Props\w*\.v$', p):
            names = re.findall(r'^Print Assumptions (\w+)\.', open(os.path.join(scratch, 'theories', p)).read(), re.M)
            o = os.path.join(scratch, p + '.out')
            if not os.path.exists(o):
                continue        # not affected
            blocks = re.findall(r'^(Closed under the global context|Axioms:)', open(o).read(), re.M)
            if len(blocks) != len(names):
                stuck.append(p + ' not built'); continue
            failed += [n for n, x in zip(names, blocks) if x == 'Axioms:']
    res = {'name': name, 'mutant': m, 'seconds': round(time.time() - t0), 'admitted': admitted, 'stuck': stuck, 'failed': failed}
    json.dump(res, open(os.path.join(results, name + '.json'), 'w'), indent=1)
    exp = m['breaks']
    missing = [c for c in exp if not any(t.startswith(c + '_') and not t.endswith('_inhabited') for t in failed)]
    print(name, res['seconds'], 's; failed', sorted({t.split('_')[0] for t in failed if not t.endswith('_inhabited')}), 'SURVIVED:' if missing else 'ok', missing, 'stuck' if stuck else '', flush=True)
