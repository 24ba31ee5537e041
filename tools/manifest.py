import re,glob,json
th={}
for f in sorted(glob.glob('/verif/rocq/theories/Props/*.v')):
    s=open(f).read()
    for m in re.finditer(r"^Theorem ((C\d\d\d?)_\w+)",s,re.M):
        th.setdefault(m.group(2),[]).append(m.group(1))
notes=json.load(open('/verif/tools/notes.json'))
claims=[]
for line in open('/verif/properties.jsonl'):
    p=json.loads(line)['id']
    n=notes.get(p,{})
    t=th.get(p,[])
    if not t and n.get('status')!='not_applicable': continue
    claims.append(dict(property=p,status=n.get('status','proved'),theorems=t,note=n.get('note','')))
    if not n.get('note'): print('no note',p)
json.dump(dict(claims=claims),open('/verif/MANIFEST.json','w'),indent=1)
from collections import Counter
print(Counter(c['status'] for c in claims), sum(len(c['theorems']) for c in claims))
