#!/usr/bin/env python3
"""usage: write_log.py RESULTS - merge results of seed.py into seeded/LOG.jsonl (one line per wrong program).
tools/tightened.json: name -> {"tightened": [...], "note": "..."} for what was changed afterwards."""
import json, os, sys
HERE = os.path.dirname(os.path.abspath(__file__))
LOG = os.path.join(HERE, '..', 'seeded', 'LOG.jsonl')
T = os.path.join(HERE, 'tightened.json')
tight = json.load(open(T)) if os.path.exists(T) else {}
lines = {}
if os.path.exists(LOG):
    for l in open(LOG):
        if l.strip():
            x = json.loads(l); lines[x['id']] = x
for f in sorted(os.listdir(sys.argv[1])):
    if not f.endswith('.json'): continue
    r = json.load(open(os.path.join(sys.argv[1], f))); m = r['mutant']
    failed = [t for t in r['failed'] if not t.endswith('_inhabited')]
    missing = [c for c in m['breaks'] if not any(t.startswith(c + '_') for t in failed)]
    lines[r['name']] = {'id': r['name'], 'definition': 'rocq/theories/%s:%s' % (m['file'], m['definition']),
        'edit': {'old': m['old'], 'new': m['new']}, 'claim': m['claim'], 'breaks': m['breaks'],
        'failed': failed, 'survived': missing, 'tightened': [], 'note': ''}
for n, t in tight.items():
    if n in lines: lines[n]['tightened'] = t.get('tightened', []); lines[n]['note'] = t.get('note', '')
with open(LOG, 'w') as g:
    for n in sorted(lines): g.write(json.dumps(lines[n]) + '\n')
print(len(lines), [(n, x['survived']) for n, x in sorted(lines.items()) if x['survived']], 'nothing expected or failed:', [n for n, x in lines.items() if not x['breaks']])
