#!/usr/bin/env python3
"""Builds MANIFEST.json from the Theorem names Cnn_* in rocq/theories/P_*.v and tools/notes.tsv."""
import re,glob,json,os
root=os.path.dirname(os.path.dirname(os.path.abspath(__file__)))
th={}
for f in sorted(glob.glob(root+'/rocq/theories/P_*.v')):
    for m in re.finditer(r'^Theorem (C\d\d)(\w*)',open(f).read(),re.M):
        th.setdefault(m.group(1),[]).append(m.group(1)+m.group(2))
notes={}
for l in open(root+'/tools/notes.tsv'):
    p=l.rstrip('\n').split('\t')
    if len(p)>=2: notes[p[0]]=(p[1],p[2] if len(p)>2 else '')
claims=[]
for l in open(root+'/properties.jsonl'):
    i=json.loads(l)['id']
    if i in notes:
        claims.append({"property":i,"status":notes[i][0],"theorems":th.get(i,[]),"note":notes[i][1]})
json.dump({"claims":claims},open(root+'/MANIFEST.json','w'),indent=1)
print(len(claims),sum(len(c['theorems']) for c in claims))
