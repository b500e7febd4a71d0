#!/usr/bin/env python3
"""Regenerates rocq/_CoqProject's file list and MANIFEST.json from the Props_*.v files.
Every Theorem named Cnn_... in a Props file is a theorem of property Cnn."""
import json, re, glob, os, subprocess
R='/verif/rocq/theories/'
files=sorted(os.path.basename(f) for f in glob.glob(R+'*.v'))
open('/verif/rocq/_CoqProject','w').write('-Q theories Verif\n'+''.join(f'theories/{f}\n' for f in files))
props=[json.loads(l)['id'] for l in open('/verif/properties.jsonl')]
thms={}
for f in files:
    if f.startswith('Props_'):
        for m in re.finditer(r'^(?:Theorem|Corollary)\s+(C\d\d)_(\w+)',open(R+f).read(),re.M):
            thms.setdefault(m.group(1),[]).append((m.group(1)+'_'+m.group(2)))
notes=json.load(open('/verif/tools/notes.json'))
claims=[]
for c in props:
    n=notes.get(c,{})
    st=n.get('status')
    if c not in thms:
        if st!='not_applicable': continue
    if st is None: st='partial' if any(t.endswith('_partial') for t in thms[c]) else 'proved'
    claims.append(dict(property=c,status=st,theorems=thms.get(c,[]),note=n.get('note','')))
json.dump(dict(claims=claims),open('/verif/MANIFEST.json','w'),indent=1)
print(len(claims),'claims', sum(len(c['theorems']) for c in claims),'theorems; missing:',[c for c in props if c not in thms])
