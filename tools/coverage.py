#!/usr/bin/env python3
"""Which Go functions of /repo are cited (file:lines) by a definition of the model."""
import re,glob,os,collections
cites=collections.defaultdict(list)
last=None
for f in glob.glob('/verif/rocq/theories/*.v'):
    t=open(f).read()
    for m in re.finditer(r'\(\*\*?(.*?)\*\)',t,re.S):
        c=m.group(1)
        for x in re.finditer(r'([A-Za-z0-9_/]+\.go)[: ]+(?:lines? )?(\d+(?:\s*-\s*\d+)?(?:\s*,\s*\d+(?:\s*-\s*\d+)?)*)',c):
            for r in re.split(r',',x.group(2)):
                a=[int(v) for v in r.strip().split('-')]
                cites[os.path.basename(x.group(1))].append((a[0],a[-1],os.path.basename(f)))
gofiles=[g for g in glob.glob('/repo/**/*.go',recursive=True) if not g.endswith('_test.go') and 'bindings' not in g and '/mocks/' not in g]
tot=cov=0
for g in sorted(gofiles):
    lines=open(g,errors='replace').read().split('\n')
    fs=[];cur=None
    for i,l in enumerate(lines,1):
        m=re.match(r'func\s+(?:\(\s*\w*\s*\*?([\w\[\]]+)\s*\)\s*)?(\w+)',l)
        if m: cur=[(m.group(1)+'.' if m.group(1) else '')+m.group(2),i,i]; fs.append(cur)
        if cur and l.startswith('}'): cur[2]=i; cur=None
    if not fs: continue
    b=os.path.basename(g)
    y=[f[0] for f in fs if any(a<=f[2] and e>=f[1] for a,e,_ in cites[b])]
    n=[f[0] for f in fs if f[0] not in y]
    tot+=len(fs);cov+=len(y)
    print(os.path.relpath(g,'/repo'),f'{len(y)}/{len(fs)}');
    if n: print('    not:',' '.join(n))
print(cov,tot)
