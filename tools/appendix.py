#!/usr/bin/env python3
"""Rewrites the last section of DESIGN.md from the output of assumptions.py (a file)."""
import sys, collections, textwrap
D='/verif/DESIGN.md'; H='## Appendix: axioms of each theorem'
g=collections.OrderedDict()
for l in open(sys.argv[1]):
    n,*ax=l.split()
    if ax==['-']: ax=[]
    g.setdefault(tuple(ax),[]).append(n)
s=open(D).read().split(H)[0].rstrip()+'\n\n'+H+'\n\nWhat `Print Assumptions` lists beneath each theorem of `rocq/theories/Props`.\n'
for ax,ns in sorted(g.items(),key=lambda x:len(x[0])):
    s+='\n'+('**None** (closed under the global context):' if not ax else ', '.join('`%s`'%a for a in ax)+':')+'\n\n'
    s+=textwrap.fill(', '.join('`%s`'%n for n in sorted(ns)),95,break_on_hyphens=False)+'\n'
open(D,'w').write(s)
