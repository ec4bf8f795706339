#!/usr/bin/env python3
"""Regenerate MANIFEST.json from tools/claims.json (status/notes) and the theorem names in rocq/theories/Props_*.v,
and list files in rocq/_CoqProject."""
import re,json,glob,os
root=os.path.dirname(os.path.dirname(os.path.abspath(__file__)))
thms={}
for f in sorted(glob.glob(root+'/rocq/theories/Props_*.v')):
    for n in re.findall(r'^Theorem\s+(C\d+_\w*)',open(f).read(),re.M):
        thms.setdefault(n.split('_')[0],[]).append(n)
meta=json.load(open(root+'/tools/claims.json'))
ids=[json.loads(l)['id'] for l in open(root+'/properties.jsonl')]
claims=[]
for i in ids:
    m=meta.get(i,{})
    ts=thms.get(i,[])
    st=m.get('status')
    if st is None:
        if not ts: continue
        st='partial' if any(t.endswith('_partial') or t.endswith('_refuted') for t in ts) else 'proved'
    claims.append(dict(property=i,status=st,theorems=ts,note=m.get('note','')))
json.dump(dict(claims=claims),open(root+'/MANIFEST.json','w'),indent=1)
files=['Base']
vs=[os.path.basename(f)[:-2] for f in glob.glob(root+'/rocq/theories/*.v')]
pp=open(root+'/rocq/_CoqProject').read().split('\n')[0]
with open(root+'/rocq/_CoqProject','w') as f:
    f.write(pp+'\n')
    for v in sorted(vs): f.write('theories/%s.v\n'%v)
print(len(claims),'claims',sum(len(c['theorems']) for c in claims),'theorems; missing:',[i for i in ids if i not in [c['property'] for c in claims]])
