#!/usr/bin/env python3
"""Print Assumptions for every theorem of Props_*.v (needs compiled .vo files in rocq/theories)."""
import re,glob,os,subprocess,collections
T='/verif/rocq/theories'
out=collections.OrderedDict()
for f in sorted(glob.glob(T+'/Props_*.v')):
    mod=os.path.basename(f)[:-2]
    names=re.findall(r'^(?:Theorem|Corollary)\s+(C\d\d\w+)',open(f).read(),re.M)
    s=f"From Verif Require {mod}.\n"+"".join(f"Print Assumptions {mod}.{n}.\n" for n in names)
    p='/tmp/pa_'+mod+'.v'; open(p,'w').write(s)
    r=subprocess.run(['coqc','-Q',T,'Verif',p],capture_output=True,text=True)
    blocks=re.split(r'(?=^Closed under|^Axioms:)',r.stdout,flags=re.M)[1:]
    assert len(blocks)==len(names),(mod,len(blocks),len(names),r.stderr)
    for n,b in zip(names,blocks): out[n]=' '.join(b.split())
with open('/verif/ASSUMPTIONS.txt','w') as g:
    for n in sorted(out): g.write(f"{n}: {out[n]}\n")
c=collections.Counter(out.values()); 
for k,v in c.items(): print(v,k[:300])
