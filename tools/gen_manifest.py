"""Writes MANIFEST.json: theorem names are collected from T_*.v by prefix Cnn_."""
import json,re,glob,os
root=os.path.join(os.path.dirname(__file__),'..')
thms={}
for f in sorted(glob.glob(root+'/rocq/theories/T_*.v')):
    for m in re.finditer(r'^Theorem ((C\d\d)_\w+)',open(f).read(),re.M):
        thms.setdefault(m.group(2),[]).append(m.group(1))
props=[json.loads(l) for l in open(root+'/properties.jsonl')]
notes=json.load(open(root+'/tools/notes.json'))
claims=[]
for p in props:
    i=p['id']; t=thms.get(i,[])
    n=notes.get(i,{})
    st=n.get('status') or ('partial' if (not t or any(x.endswith('_partial') for x in t)) else 'proved')
    claims.append(dict(property=i,status=st,theorems=t,note=((n.get('note','')+' ' if n.get('note') else '')+('Theorems ending in _refuted prove the deviations of the code that the statement names.' if any(x.endswith('_refuted') for x in t) else '')).strip() if t else 'not yet modelled'))
json.dump({"claims":claims},open(root+'/MANIFEST.json','w'),indent=1)
from collections import Counter
print(Counter(c['status'] for c in claims), [c['property'] for c in claims if not c['theorems']])
