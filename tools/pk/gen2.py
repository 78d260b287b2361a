from fac import *
import json,sys,random
random.seed(int(sys.argv[2]) if len(sys.argv)>2 else 1)
names={'L25519':2**252+27742317777372353535851937790883648493,
'n256':0xffffffff00000000ffffffffffffffffbce6faada7179e84f3b9cac2fc632551,
'n384':0xffffffffffffffffffffffffffffffffffffffffffffffffc7634d81f4372ddf581a0db248b0a77aecec196accc52973,
'nsm2':0xFFFFFFFEFFFFFFFFFFFFFFFFFFFFFFFF7203DF6B21C6052B53BBF40939D54123,
'L448':2**446-13818066809895115352007386748515426880336692474882178609894547503885}
known={names['L25519']-1:[276602624281642239937218680557139826668747,198211423230930754013084525763697,11,3,2]}
need={}
from itertools import combinations
def go(N):
    if N in need or N<2**14: return
    fs=known.get(N-1) or sorted(set(factor(N-1)[0]),reverse=True)
    best=None
    for r in range(1,6):
        for c in combinations(fs[:10],r):
            pr=1
            for q in c: pr*=q
            if pr*pr>N:
                cost=sum(q.bit_length() for q in c)+0.5*sum(max(0,q.bit_length()-20) for q in c)
                if best is None or cost<best[0]: best=(cost,c)
    need[N]=best[1]
    print(N.bit_length(),[q.bit_length() for q in best[1]],flush=True)
    for q in best[1]: go(q)
k=sys.argv[1]
go(names[k])
json.dump({str(k):list(map(str,v)) for k,v in need.items()},open('need_%s.json'%k,'w'))
print('done')
