#!/usr/bin/env python3
"""usage: write_auto_log.py BASE RESULTS.jsonl... - add the results of auto.py to seeded/LOG.jsonl (ids a-FILE-POSITION-NEW).
auto.py stops at the first proof that fails, so "failed" names that statement (which may be a lemma), not all that would fail.
tools/tightened.json is used as in write_log.py."""
import json, os, re, sys
HERE = os.path.dirname(os.path.abspath(__file__))
LOG = os.path.join(HERE, '..', 'seeded', 'LOG.jsonl')
tight = json.load(open(os.path.join(HERE, 'tightened.json')))
base = sys.argv[1]
KIND = {'num': 'another number', 'op': 'another comparison or connective', 'bool': 'the other boolean', 'neg': 'a negation dropped',
        'cond': 'a condition replaced', 'str': 'another name', 'exn': 'another exception', 'ctor': 'another type or subsystem',
        'drop': 'an update of the state dropped', 'arith': 'plus and minus swapped', 'app': 'part of a sequence dropped or in another order'}
def around(f, line, pat):
    ls = open(os.path.join(base, 'theories', f)).read().split('\n')
    for i in range(min(line, len(ls)) - 1, -1, -1):
        m = re.match(pat, ls[i])
        if m: return m.group(1)
    return '?'
lines = {}
for l in open(LOG):
    if l.strip(): x = json.loads(l); lines[x['id']] = x
n = 0
for res in sys.argv[2:]:
    for l in open(res):
        r = json.loads(l)
        if r['result'] == 'invalid' or (r['result'] == 'killed' and not r['first']): continue
        i = 'a-%s-%d-%s' % (r['file'][:-2], r['at'], re.sub(r'\W+', '_', r['new'])[:20])
        failed = [around(f, k, r"\s*(?:Local\s+)?(?:Lemma|Theorem|Corollary|Example|Remark|Fact)\s+([\w']+)") for f, k in r['first'][:1]]
        lines[i] = {'id': i, 'definition': 'rocq/theories/%s:%s' % (r['file'], around(r['file'], r['line'], r"\s*(?:Definition|Fixpoint|Inductive|Record|with)\s+([\w']+)")),
            'edit': {'old': r['old'], 'new': r['mut']}, 'claim': 'made by machine: ' + KIND[r['kind']], 'breaks': [], 'failed': failed,
            'survived': [] if r['result'] == 'killed' else ['all'], 'tightened': [], 'note': 'the build stopped at the first failure' if failed else ''}
        n += 1
for i, t in tight.items():
    if i in lines: lines[i]['tightened'] = t.get('tightened', []); lines[i]['note'] = t.get('note', '')
with open(LOG, 'w') as g:
    for i in sorted(lines): g.write(json.dumps(lines[i]) + '\n')
print(n, len(lines), [i for i, x in lines.items() if x['survived'] == ['all'] and not x['note']])
