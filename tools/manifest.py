#!/usr/bin/env python3
# rebuild MANIFEST.json from theorem names in Props + notes table
import re,glob,json
thm={}
for f in sorted(glob.glob('/verif/rocq/theories/Props/*.v')):
    for m in re.finditer(r'^Theorem (C(\d+)_\w+)',open(f).read(),re.M):
        thm.setdefault('C'+m.group(2),[]).append(m.group(1))
notes=json.load(open('/verif/notes.json')) if glob.glob('/verif/notes.json') else {}
claims=[]
for l in open('/verif/properties.jsonl'):
    p=json.loads(l); i=p['id']
    if i in thm:
        t=thm[i]
        st='partial' if any(x.endswith('_partial') for x in t) or notes.get(i,{}).get('status')=='partial' else 'proved'
        claims.append({"property":i,"status":st,"theorems":t,"note":notes.get(i,{}).get('note','')})
    elif i in notes and notes[i].get('status')=='not_applicable':
        claims.append({"property":i,"status":"not_applicable","theorems":[],"note":notes[i]['note']})
json.dump({"claims":claims},open('/verif/MANIFEST.json','w'),indent=1)
print(len(claims),'claims')
