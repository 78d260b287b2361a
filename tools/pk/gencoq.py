import json,sys
need={int(k):list(map(int,v)) for k,v in json.load(open('/tmp/pk/need.json')).items()}
out=["(** Certificates for the primality of the library's moduli (generated: tools/pk). *)","From Coq Require Import ZArith Znumtheory List Lia.","From Verif Require Import Pocklington.","Import ListNotations.","Open Scope Z_scope.",""]
names={2**255-19:('(2 ^ 255 - 19)','(fun q => Z.shiftl q 255 - 19 * q)'),2**448-2**224-1:('(2 ^ 448 - 2 ^ 224 - 1)','(fun q => Z.shiftl q 448 - Z.shiftl q 224 - q)'),
 2**256-2**224+2**192+2**96-1:('(2 ^ 256 - 2 ^ 224 + 2 ^ 192 + 2 ^ 96 - 1)','(fun q => Z.shiftl q 256 - Z.shiftl q 224 + Z.shiftl q 192 + Z.shiftl q 96 - q)'),
 2**384-2**128-2**96+2**32-1:('(2 ^ 384 - 2 ^ 128 - 2 ^ 96 + 2 ^ 32 - 1)','(fun q => Z.shiftl q 384 - Z.shiftl q 128 - Z.shiftl q 96 + Z.shiftl q 32 - q)'),
 2**256-2**224-2**96+2**64-1:('(2 ^ 256 - 2 ^ 224 - 2 ^ 96 + 2 ^ 64 - 1)','(fun q => Z.shiftl q 256 - Z.shiftl q 224 - Z.shiftl q 96 + Z.shiftl q 64 - q)')}
for a in sys.argv[1:]:
    pass
done=set()
def nm(N): return 'prime_%d'%N if N<10**20 else 'prime_%d_%s'%(N.bit_length(),str(N)[-6:])
def emit(N):
    if N in done: return
    done.add(N)
    if N<2**14:
        out.append("Lemma %s : prime %d. Proof. apply small_prime. vm_compute. reflexivity. Qed."%(nm(N),N)); return
    qs=sorted(need[N],reverse=True)
    for q in qs: emit(q)
    certs=[]
    for q in qs:
        a=2
        while True:
            b=pow(a,(N-1)//q,N)
            if b!=1: break
            a+=1
        w=pow(b-1,-1,N); k=(w*(b-1)-1)//N
        l=[];acc=b
        for bit in bin(q)[3:]:
            t=acc*acc; l.append(t//N); acc=t%N
            if bit=='1': t=acc*b; l.append(t//N); acc=t%N
        assert acc==1
        certs.append("(%d%%positive, %#x, %#x, %#x, [%s])"%(q,b,w,k,"; ".join("%#x"%x for x in l)))
    lit,f=names.get(N,('%d'%N,'(fun q => q * %d)'%N))
    out.append("Lemma %s : prime %s.\nProof.\n  apply (pocklington _ %s [%s])."%(nm(N),lit,f,";\n    ".join(certs)))
    out.append("  - intros q. %s"%("rewrite ?Z.shiftl_mul_pow2 by (apply Z.leb_le; reflexivity). ring." if N in names else "reflexivity."))
    out.append("  - cbn [map pc_q]. "+" ".join("apply Forall_cons; [exact %s|]."%nm(q) for q in qs)+" apply Forall_nil.")
    out.append("  - vm_compute. reflexivity.\nQed.")
for N in names: emit(N)
lab=dict(zip(names,['p25519','p448','p256','p384','psm2']))
for N in names: out.append("Definition prime_%s : prime %s := %s."%(lab[N],names[N][0],nm(N)))
open('/verif/rocq/theories/CurvePrimes.v','w').write("\n".join(out)+"\n")
