import json,sys
need={}
for f in sys.argv[1:]: need.update({int(k):list(map(int,v)) for k,v in json.load(open('/tmp/pk/need_%s.json'%f)).items()})
out=["(** Certificates for the primality of the group orders (generated: tools/pk/gencoq2.py). *)","From Coq Require Import ZArith Znumtheory List Lia.","From Verif Require Import Pocklington.","Import ListNotations.","Open Scope Z_scope.",""]
ALL={'L25519':(2**252+27742317777372353535851937790883648493,'(2 ^ 252 + 27742317777372353535851937790883648493)','(fun q => Z.shiftl q 252 + 27742317777372353535851937790883648493 * q)'),
'n256':(0xffffffff00000000ffffffffffffffffbce6faada7179e84f3b9cac2fc632551,None,None),'nsm2':(0xFFFFFFFEFFFFFFFFFFFFFFFFFFFFFFFF7203DF6B21C6052B53BBF40939D54123,None,None)}
names={}
for f in sys.argv[1:]:
    N,l,g=ALL[f]; names[N]=(l or '%d'%N, g or '(fun q => q * %d)'%N)
for a in sys.argv[1:]:
    pass
done=set()
def nm(N): return 'prime_%d'%N if N<10**20 else 'prime_%d_%s'%(N.bit_length(),str(N)[-6:])
def emit(N):
    if N in done: return
    done.add(N)
    if N<2**14:
        out.append("Lemma %s : prime %d. Proof. apply small_prime. vm_compute. reflexivity. Qed."%(nm(N),N)); return
    qs=sorted(need[N],reverse=True)
    for q in qs: emit(q)
    certs=[]
    for q in qs:
        a=2
        while True:
            b=pow(a,(N-1)//q,N)
            if b!=1: break
            a+=1
        w=pow(b-1,-1,N); k=(w*(b-1)-1)//N
        l=[];acc=b
        for bit in bin(q)[3:]:
            t=acc*acc; l.append(t//N); acc=t%N
            if bit=='1': t=acc*b; l.append(t//N); acc=t%N
        assert acc==1
        certs.append("(%d%%positive, %#x, %#x, %#x, [%s])"%(q,b,w,k,"; ".join("%#x"%x for x in l)))
    lit,f=names.get(N,('%d'%N,'(fun q => q * %d)'%N))
    out.append("Lemma %s : prime %s.\nProof.\n  apply (pocklington _ %s [%s])."%(nm(N),lit,f,";\n    ".join(certs)))
    out.append("  - intros q. %s"%("rewrite ?Z.shiftl_mul_pow2 by (apply Z.leb_le; reflexivity). ring." if N in names else "reflexivity."))
    out.append("  - cbn [map pc_q]. "+" ".join("apply Forall_cons; [exact %s|]."%nm(q) for q in qs)+" apply Forall_nil.")
    out.append("  - vm_compute. reflexivity.\nQed.")
for N in names: emit(N)
for f in sys.argv[1:]:
    N=ALL[f][0]; out.append("Definition prime_%s : prime %s := %s."%(f,names[N][0],nm(N)))
open('/verif/rocq/theories/OrderPrimes.v','w').write("\n".join(out)+"\n")
