#!/usr/bin/env python3
"""Regenerates MANIFEST.json from properties.jsonl, the Properties_*.v files and STATUS below."""
import json,re,glob,os
R=os.path.dirname(os.path.dirname(os.path.abspath(__file__)))
thms={}
for f in sorted(glob.glob(R+'/rocq/theories/Properties_*.v')):
    for m in re.finditer(r'^Theorem\s+(C(\d\d)\w*)',open(f).read(),re.M):
        thms.setdefault('C'+m.group(2),[]).append(m.group(1))
status=json.load(open(R+'/tools/status.json'))
claims=[]
for l in open(R+'/properties.jsonl'):
    p=json.loads(l)['id']
    st,note=status.get(p,["partial","not yet proved"])
    claims.append({"property":p,"status":st,"theorems":thms.get(p,[]),"note":note})
json.dump({"claims":claims},open(R+'/MANIFEST.json','w'),indent=1)
print({c['property']:len(c['theorems']) for c in claims if not c['theorems']})
