#!/usr/bin/env python3
"""Recompiles Props/*.v and prints, per theorem, what Print Assumptions lists."""
import re, subprocess, os, tempfile
R='/verif/rocq'
for pf in sorted(os.listdir(R+'/theories/Props')):
    if not pf.endswith('.v'): continue
    path='theories/Props/'+pf
    names=re.findall(r'^Print Assumptions (\w+)\.',open(f'{R}/{path}').read(),re.M)
    with tempfile.TemporaryDirectory() as d:
        out=subprocess.run(['coqc','-Q','theories','Verif','-o',d+'/'+pf+'o',path],cwd=R,text=True,
                           stdout=subprocess.PIPE,stderr=subprocess.STDOUT).stdout
    blocks=re.split(r'^(?=Axioms:|Closed under)',out,flags=re.M)[1:]
    assert len(blocks)==len(names),(pf,len(blocks),len(names))
    for n,b in zip(names,blocks):
        ax=sorted(set(re.findall(r'^([A-Za-z_][\w.]*)\s*(?::|$)',b,re.M))-{'Axioms','Closed'})
        print(n, ' '.join(ax) if ax else '-')
