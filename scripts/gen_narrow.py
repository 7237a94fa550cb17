#!/usr/bin/env python3
"""Farey pairs around 10^e / 2^k for decimals below 336000000 near the middles of neighbouring floats (NarrowTables.v)."""
from fractions import Fraction as Q
import sys
L=336*10**6
def farey(a):
    # best fractions below (<=) and above (>) a with denominators < L
    p1,q1=0,1; p2,q2=1,0
    # find integer bounds
    n=a.numerator//a.denominator
    p1,q1=n,1; p2,q2=n+1,1
    while q1+q2<L:
        # move the lower one
        d1=a*q1-p1; d2=p2-a*q2
        # t max with (p1+t p2)/(q1+t q2) <= a : d1 - t d2 >=0
        t=min(int(d1/d2),(L-1-q1)//q2)
        p1+=t*p2;q1+=t*q2
        if q1+q2>=L: break
        d1=a*q1-p1; d2=p2-a*q2
        # t max with (p2+t p1)/(q2+t q1) > a : d2 - t d1 > 0
        if d1==0: t=(L-1-q2)//q1
        else:
            x=d2/d1; t=int(x)
            if x==t: t-=1
            t=min(t,(L-1-q2)//q1)
        p2+=t*p1;q2+=t*q1
        if t==0 and not (q1+q2<L): break
    return p1,q1,p2,q2
rows=[];near=[]
for k in range(-150,104):
    r=[]
    for e in range(-60,41):
        a=Q(10)**e/Q(2)**k
        lo=Q(2)**24 if k>-150 else Q(0)
        eps=Q(1,2**29)
        if k>-150 and lo-L*a>eps: continue
        if k==-150 and 1-L*a>eps: continue
        if 10**7*a-2**25>eps: continue
        p1,q1,p2,q2=farey(a)
        assert p2*q1-p1*q2==1 and q1+q2>=L and Q(p1,q1)<=a<Q(p2,q2)
        d1=a*q1-p1;d2=p2-a*q2
        assert d1+d2>eps
        mx=0
        for p,q,d in((p1,q1,d1),(p2,q2,d2)):
            if d==0: continue
            U=min((L-1)//q,int(eps/d)); mx=max(mx,U)
            for u in range(1,U+1):
                if u*q>=10**7 and (u*p)%2==1 and u*p<2**25 and (k==-150 or u*p>=2**24): near.append((u*q,e,k,u*p))
        assert mx<1000,(k,e,mx)
        r.append((e,p1,q1,p2,q2))
    rows.append((k,r))
if __name__=='__main__':
    print(sum(len(r) for k,r in rows),len(near),file=sys.stderr)
    for n in near: print(n,file=sys.stderr)
    out=open(sys.argv[1],'w') if len(sys.argv)>1 else sys.stdout
    w=out.write
    w('(** * Farey pairs around [10^e / 2^k], written by scripts/gen_narrow.py and checked in Narrow.v *)\n\n')
    w('From Coq Require Import ZArith List.\nImport ListNotations.\nOpen Scope Z_scope.\n\n')
    w('(** for every [k] from -150 to 103: [(e, (p1, q1, p2, q2))] with [p1/q1 <= 10^e/2^k < p2/q2] *)\n')
    w('Definition farey_rows : list (Z * list (Z * (Z * Z * Z * Z))) := [\n')
    w(';\n'.join('  (%d, [%s])'%(k,'; '.join('(%d, (%d, %d, %d, %d))'%x for x in r)) for k,r in rows))
    w('].\n\n(** the decimals [s * 10^e], [10^7 <= s < 336000000], that come near an odd multiple of [2^k] without meeting it *)\n')
    w('Definition near_decimals : list (Z * Z) := [\n  '+'; '.join('(%d, %d)'%(s,e) for s,e,_,_ in near)+'].\n')
