#!/usr/bin/env python3
"""Write MANIFEST.json: every theorem named Cnn_* in rocq/theories is claimed for property Cnn.
Status comes from STATUS below, default 'proved' when theorems exist."""
import json,re,glob,os
root=os.path.join(os.path.dirname(os.path.abspath(__file__)),'..')
thms={}
for f in sorted(glob.glob(root+'/rocq/theories/*.v')):
    for m in re.finditer(r'^\s*(?:Theorem|Lemma|Corollary)\s+((C\d\d\d?)_\w+)',open(f).read(),re.M):
        thms.setdefault(m.group(2),[]).append(m.group(1))
notes=json.load(open(root+'/tools/notes.json'))
claims=[]
for line in open(root+'/properties.jsonl'):
    if not line.strip(): continue
    p=json.loads(line)['id']
    if p in thms:
        n=notes.get(p,{})
        st=n.get('status','partial' if any(t.endswith('_partial') for t in thms[p]) else 'proved')
        claims.append({"property":p,"status":st,"theorems":thms[p],"note":n.get('note','')})
json.dump({"claims":claims},open(root+'/MANIFEST.json','w'),indent=1)
print(len(claims),'claims')
