#!/usr/bin/env python3
"""Generates MANIFEST.json from the theorem names (Cnn_...) of rocq/theories/Prop*.v and the notes below."""
import re,glob,json,os
root=os.path.dirname(os.path.dirname(os.path.abspath(__file__)))
NOTES={}
STATUS={}
exec(open(os.path.join(root,"tools","notes.py")).read())
th={}
for f in sorted(glob.glob(os.path.join(root,"rocq/theories/Prop*.v"))):
    for n in re.findall(r'^Theorem (C(\d\d)_\w+)',open(f).read(),re.M):
        th.setdefault("C"+n[1],[]).append(n[0])
claims=[]
for l in open(os.path.join(root,"properties.jsonl")):
    i=json.loads(l)["id"]
    if i in th:
        st=STATUS.get(i,"partial" if any(x.endswith("_partial") for x in th[i]) else "proved")
        claims.append({"property":i,"status":st,"theorems":th[i],"note":NOTES.get(i,"")})
    elif i in STATUS:
        claims.append({"property":i,"status":STATUS[i],"theorems":[],"note":NOTES.get(i,"")})
json.dump({"claims":claims},open(os.path.join(root,"MANIFEST.json"),"w"),indent=1)
print(len(claims),[json.loads(l)["id"] for l in open(os.path.join(root,"properties.jsonl")) if json.loads(l)["id"] not in th])
