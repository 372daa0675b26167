import json,re,glob
# status and note per property; theorem names are collected from theories/Properties*.v
import os
here=os.path.dirname(os.path.abspath(__file__))
names={}
for f in sorted(glob.glob(here+'/rocq/theories/Properties*.v')):
    for m in re.finditer(r'^Theorem (C(\d\d)\w*)',open(f).read(),re.M):
        names.setdefault('C'+m.group(2),[]).append(m.group(1))
notes=json.load(open(here+'/notes.json'))
ids=[json.loads(l)['id'] for l in open(here+'/properties.jsonl')]
claims=[]
for i in ids:
    t=names.get(i,[])
    n=notes.get(i,{})
    st=n.get('status') or ('partial' if any('_partial' in x or '_refuted' in x for x in t) else 'proved' if t else 'partial')
    claims.append({"property":i,"status":st,"theorems":t,"note":n.get('note','')})
json.dump({"claims":claims},open(here+'/MANIFEST.json','w'),indent=1)
for c in claims: print(c['property'],c['status'],len(c['theorems']))
