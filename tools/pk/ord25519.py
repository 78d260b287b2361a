import json,sys
sys.argv=['x']
p=2**255-19; a=-1; d1=-121665; d2=121666; d=d1*pow(d2,-1,p)%p
L=2**252+27742317777372353535851937790883648493
B=(15112221349535400772501151409588531511454012693041857206046113283949847762202,46316835694926478169428394003475163141307993866256225615783033603165251855960)
def add(P,Q):
    x1,y1=P;x2,y2=Q; t=d*x1*x2*y1*y2%p
    return ((x1*y2+x2*y1)*pow(1+t,-1,p)%p,(y1*y2-a*x1*x2)*pow(1-t,-1,p)%p)
# straight-line: entries list newest first; ops
ents=[(1,B)]; ops=[]
def dbl():
    k,P=ents[0]; R=add(P,P); ents.insert(0,(2*k,R)); ops.append("Dbl %#x %#x"%R)
def ad(kk):
    i=[e[0] for e in ents].index(kk); k,P=ents[0]; R=add(P,ents[i][1]); ents.insert(0,(k+kk,R)); ops.append("Add %d %#x %#x"%((i,)+R))
# odd multiples 3..15: need 2 then 2+1=3, 3+2=5...
dbl(); ad(1)
for _ in range(6): ad(2)   # 5..15
# current head 15B; need start of L: top bits 1 000.. ; start from 1: want head=1*? use 15+1=16
ad(1) # 16
# remaining bits of L after leading '10000'
bits=bin(L)[2:]; assert bits[:5]=='10000'
i=5
while i<len(bits):
    if bits[i]=='0': dbl(); i+=1; continue
    j=min(len(bits),i+4)
    while bits[j-1]=='0': j-=1
    for _ in range(j-i): dbl()
    ad(int(bits[i:j],2)); i=j
assert ents[0]==(L,(0,1)); print(len(ops))
open('ops.txt','w').write(";\n  ".join(ops))
