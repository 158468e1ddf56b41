#!/usr/bin/env python3
"""assumptions.py DIR: DIR holds the compiler output of each Props file (NAME.txt); print, per set of axioms, the theorems that use it."""
import re,sys,os,collections
d=sys.argv[1]; here=os.path.dirname(os.path.abspath(__file__))+'/../rocq/theories/'
groups=collections.OrderedDict()
for f in sorted(os.listdir(here)):
    if not (f.startswith('Props') and f.endswith('.v')): continue
    names=re.findall(r'^Print Assumptions (\w+)\.',open(here+f).read(),re.M)
    blocks=re.split(r'^(?=Axioms:|Closed under the global context)',open(f'{d}/{f[:-2]}.txt').read(),flags=re.M)[1:]
    assert len(names)==len(blocks),(f,len(names),len(blocks))
    for n,b in zip(names,blocks):
        ax=tuple(sorted(re.findall(r'^([\w.]+)(?= *:|$)',b.replace('Axioms:','',1),re.M))) if b.startswith('Axioms') else ()
        groups.setdefault(ax,[]).append(n)
for ax,ns in sorted(groups.items(),key=lambda g:len(g[0])):
    print('* '+(', '.join('`%s`'%a for a in ax) if ax else 'No axioms (closed under the global context)')+f' — {len(ns)} theorems:')
    print('  '+', '.join(sorted(ns,key=lambda n:(int(re.match(r'C(\d+)',n).group(1)),n)))+'.')
