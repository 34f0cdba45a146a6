#!/usr/bin/env python3
"""Append the results of mutate.py to seeded/LOG.jsonl.

usage: log.py RESULT.jsonl...    Results already logged (same definition, edit and claim) are skipped.
The theorems tightened because of an edit are listed in tools/tightened.json, by the identifier of the edit.
"""
import json, sys

LOG = '/verif/seeded/LOG.jsonl'
tight = json.load(open('/verif/tools/tightened.json'))
old = set()
for l in open(LOG):
    if l.strip():
        r = json.loads(l)
        old.add((r['definition'], r['edit'], r['claim']))
with open(LOG, 'a') as out:
    for f in sys.argv[1:]:
        for l in open(f):
            r = json.loads(l)
            d = '%s.%s' % (r['file'], r['definition'])
            edit = '%s  ==>  %s' % (' '.join(r['old'].split()), ' '.join(r['new'].split()))
            if (d, edit, r['claim']) in old:
                continue
            old.add((d, edit, r['claim']))
            t = tight.get(r['id'], {})
            line = {'definition': d, 'edit': edit, 'claim': r['claim'], 'failed': r['failed'],
                    'tightened': t.get('tightened', [])}
            if 'note' in t:
                line['note'] = t['note']
            out.write(json.dumps(line) + '\n')
