#!/usr/bin/env python3
"""Merge the logs of several mutation runs (later ones win) into seeded/LOG.jsonl, with what was tightened afterwards.
usage: merge_log.py log..."""
import sys, json
V = '/verif/seeded/'
mus = {m['id']: m for m in json.load(open(V + 'mutants.json'))}
notes = json.load(open(V + 'notes.json'))
recs = {}
for f in sys.argv[1:]:
    for line in open(f):
        r = json.loads(line)
        if r.get('statements_broken'):  # a name with Error in the output is no error
            r['statements_broken'] = [b for b in r['statements_broken'] if not b.startswith('check:') or 'Error' in b]
        recs.setdefault(r['id'], []).append(r)
with open(V + 'LOG.jsonl', 'w') as out:
    for i, m in mus.items():
        for k, r in enumerate(recs.get(i, [])):
            last = k == len(recs[i]) - 1
            if r.get('error') or (r.get('statements_broken') and not last): continue
            r['breaks'] = m['breaks']
            r['not_noticed_by'] = [b for b in m['breaks'] if b not in r['properties_hit']]
            if last:
                r['theorems_tightened'] = notes.get(i, {}).get('tightened', [])
                if 'note' in notes.get(i, {}): r['note'] = notes[i]['note']
            out.write(json.dumps(r) + '\n')
