#!/usr/bin/env python3
"""Turn results of mutation runs into lines of seeded/LOG.jsonl.
usage: mutlog.py results.jsonl [tightened.json]
tightened.json maps "file:definition:edit" to the theorems that were added or tightened."""
import json, sys, re
titles = {}
for l in open('properties.jsonl'):
    d = json.loads(l); titles[d['id']] = d['title']
tight = json.load(open(sys.argv[2])) if len(sys.argv) > 2 else {}
try: old = [json.loads(l) for l in open('seeded/LOG.jsonl')]
except FileNotFoundError: old = []
seen = {(d['file'], d['definition'], d['edit']) for d in old}
for l in open(sys.argv[1]):
    d = json.loads(l)
    if d['outcome'] not in ('SURVIVED', 'killed'): continue
    where = ' (line %d)' % d['line'] if d.get('line') else ''
    edit = '%s -> %s%s' % (d['old'], d['new'], where)
    key = (d['file'], d['def'], edit)
    if key in seen: continue
    seen.add(key)
    t = tight.get(':'.join(key)) or (tight.get(d['file'] + ':' + d['def']) if d['outcome'] == 'SURVIVED' or not d.get('fail_item') else None) or {}
    th = d.get('theorems', [])
    claim = d.get('claim') or t.get('claim')
    if not claim:
        ids = sorted({x[:3] for x in th})
        claim = '; '.join('%s %s' % (i, titles.get(i, '')) for i in ids[:4]) + (' and %d more' % (len(ids) - 4) if len(ids) > 4 else '')
        if not ids and d['outcome'] == 'killed': claim = 'build of %s does not finish' % d.get('fail_file')
    old.append(dict(file=d['file'], definition=d['def'], edit=edit, claim=claim, outcome=d['outcome'].lower(),
                    failed_lemma=d.get('fail_item'), theorems_failed=th, theorems_tightened=t.get('tightened', []), note=t.get('note', '')))
open('seeded/LOG.jsonl', 'w').write(''.join(json.dumps(d) + '\n' for d in old))
print(len(old), 'lines')
