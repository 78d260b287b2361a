from fac import *
import json
known={2**448-2**224-2:[37414057161322375957408148834323969,596242599987116128415063,1469495262398780123809,2916841,1466449,196687,18287],
}
need={}
def go(N):
    if N in need or N<2**14: return
    fs=sorted(set(known.get(N-1) or factor(N-1)[0]),reverse=True)
    if N-1 in known: fs=known[N-1]
    # greedy selection
    best=None
    from itertools import combinations
    for r in range(1,6):
        for c in combinations(fs[:10],r):
            pr=1
            for q in c: pr*=q
            if pr*pr>N:
                cost=sum(q.bit_length() for q in c)+0.5*sum(max(0,q.bit_length()-20) for q in c)
                if best is None or cost<best[0]: best=(cost,c)
    need[N]=best[1]
    print(N.bit_length(),[q.bit_length() for q in best[1]],flush=True)
    for q in best[1]: go(q)
names={'25519':2**255-19,'448':2**448-2**224-1,'p256':2**256-2**224+2**192+2**96-1,'p384':2**384-2**128-2**96+2**32-1,'sm2':2**256-2**224-2**96+2**64-1}
for k in ('25519','448','p256','sm2','p384'): print(k); go(names[k])
json.dump({str(k):list(map(str,v)) for k,v in need.items()},open('need.json','w'))
