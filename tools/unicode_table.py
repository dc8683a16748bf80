#!/usr/bin/env python3
"""Prints the table of unicode.ToLower (Unicode 13.0, Go 1.18-1.20) as Coq source, from Python's unicodedata (14.0, whose additions are removed)."""
new14={0x2C2F,0xA7C0,0xA7D0,0xA7D6,0xA7D8}|set(range(0x10570,0x10596))
M=[]
for c in range(0x110000):
    if 0xD800<=c<0xE000 or c in new14: continue
    l=chr(c).lower()
    if c==0x130: l='i'
    assert len(l)==1
    if ord(l)!=c: M.append((c,ord(l)-c))
R=[];i=0
while i<len(M):
    best=None
    for st in (1,2):
        j=i
        while j+1<len(M) and M[j+1][0]==M[j][0]+st and M[j+1][1]==M[i][1]: j+=1
        if best is None or j>best[0]: best=(j,st)
    j,st=best
    R.append((M[i][0],M[j][0],st if j>i else 1,M[i][1])); i=j+1
out=[];line=" "
for k,(a,b,s,d) in enumerate(R):
    x=" (%d, %d, %d, (%d)%%Z)%s"%(a,b,s,d,";" if k<len(R)-1 else "]")
    if len(line)+len(x)>150: out.append(line); line=" "
    line+=x
out.append(line)
print("[\n"+"\n".join(out))
