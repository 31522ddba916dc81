#!/usr/bin/env python3
"""usage: logauto.py results.out ... >> seeded/LOG.jsonl : turns results of random edits into log lines.
The theorems failed are the Props theorems that rest on the first lemma to fail (read off the .glob files)."""
import json,sys,re,os,glob,collections
R=os.path.join(os.path.dirname(os.path.abspath(__file__)),'..')
users=collections.defaultdict(set)
for g in glob.glob(R+'/rocq/theories/**/*.glob',recursive=True):
    lib=None; items=[]; refs=[]
    for l in open(g,errors='replace'):
        if l[0]=='F': lib=l[1:].strip()
        elif l[0]=='R':
            p=l[1:].split()
            refs.append((int(p[0].split(':')[0]),p[1],p[3]))
        else:
            p=l.split()
            if p[0] in('prf','def','thm','lem','ex','instance','inst','rec','ind','scheme','coe','fix'): items.append((int(p[1].split(':')[0]),p[3]))
    items.sort()
    import bisect
    pos=[i[0] for i in items]
    for p,l,n in refs:
        if not l.startswith('Verif.'): continue
        k=bisect.bisect_right(pos,p)-1
        if k>=0: users[(l,n)].add((lib,items[k][1]))
titles={json.loads(l)['id']:json.loads(l)['title'] for l in open(R+'/properties.jsonl')}
def theorems(f,lemma):
    start=('Verif.'+f.replace('/','.'),lemma)
    seen={start}; todo=[start]
    while todo:
        for y in users[todo.pop()]:
            if y not in seen: seen.add(y); todo.append(y)
    return sorted({n for l,n in seen if l.startswith('Verif.Props.') and re.match(r'C\d+_',n)
      and 'nonvacuous' not in n and 'example' not in n})
tight=json.load(open('/tmp/w/tight.json')) if os.path.exists('/tmp/w/tight.json') else {}
done=set()
for fn in sys.argv[1:]:
    for l in open(fn):
        o=json.loads(l); m,r=o['m'],o['r']
        if r[0] not in('killed','survived'): continue
        key=(m['file'],m['definition'],m['edit'])
        if key in done: continue
        done.add(key)
        d={"definition":m['file'].replace('Model/','').replace('.v','')+'.'+m['definition'],"edit":m['edit']}
        k=m['file']+'|'+m['definition']+'|'+m['edit']
        if r[0]=='killed':
            th=theorems(r[1],r[2])
            ids=sorted({t.split('_')[0] for t in th})
            if not th and not r[1].startswith(('Props','Validate')): sys.stderr.write('no theorem: %s %s\n'%(r[1],r[2]))
            d["claim_broken"]='; '.join(i+': '+titles[i] for i in ids[:4])+('; ...' if len(ids)>4 else '')
            d["lemmas_failed"]=[r[2]]; d["theorems_failed"]=th
            d["theorems_tightened"]=tight.get(k,[])
        else:
            d["claim_broken"]=tight.get(k,"")
            d["lemmas_failed"]=[]; d["theorems_failed"]=[]; d["theorems_tightened"]=[]
        print(json.dumps(d))
