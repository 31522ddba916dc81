#!/usr/bin/env python3
"""usage: logmut.py batch.out >> seeded/LOG.jsonl : turns the harness's results into log lines."""
import json,sys
for l in open(sys.argv[1]):
    o=json.loads(l); m,r=o['m'],o['r']
    if 'failed' not in r: continue
    print(json.dumps({"definition":m['file'].replace('Model/','').replace('.v','')+'.'+m['definition'],
      "edit":m['edit']+': `'+m['old'].strip()+'` -> `'+m['new'].strip()+'`',"claim_broken":m['claim'],
      "lemmas_failed":sorted(set(r['admitted'])),"theorems_failed":r['failed'],"theorems_tightened":m.get('tightened',[])}))
