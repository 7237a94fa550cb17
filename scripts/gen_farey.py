#!/usr/bin/env python3
# Generates rocq/theories/FareyTables.v (witnesses only; they are checked in Coq).
import re
from fractions import Fraction as F
src=open('/repo/grisu_exact.h').read()
i=src.index('struct cache_holder<float>'); j=src.index('struct cache_holder<double>'); k=src.index('get_cache(int k)')
C32=[int(x,16) for x in re.findall(r'0x([0-9a-f]{16})',src[i:j])]
h=[int(x,16) for x in re.findall(r'0x([0-9a-f]{16})',src[j:k])]
C64=[(h[n]<<64)|h[n+1] for n in range(0,len(h),2)]
class UB(Exception): pass
def l10_2(e): assert -1650<=e<=1650; return (e*0x4d104)>>20
def l2_10(e): assert -642<=e<=642; return (e*0x35269e)>>20
def l5_2(e): return (e*0x6e40d1a4)>>32
class Fmt: pass
def mk(sz):
    f=Fmt(); f.sz=sz; f.p=23 if sz==4 else 52; f.q=sz*8; f.eb=f.q-f.p-1
    f.sign=1<<(f.q-1); f.bias=1-(1<<(f.eb-1)); f.emask=((1<<f.eb)-1)<<f.p
    f.bb=1<<(f.q-f.p-2); f.nil=f.bb<<1; f.ebb=f.bb>>1
    f.mine=(-125 if sz==4 else -1021)-f.q; f.maxe=(128 if sz==4 else 1024)-f.q
    f.al=-5; f.ga=-2
    f.mink_=-l10_2(-(f.q-f.p-3+f.al))-1; f.maxk_=-l10_2(-(f.q+f.ga))-1
    f.ik=2 if sz==4 else 3
    f.min_k=-l10_2(f.maxe+1-f.al); f.max_k=-l10_2(f.mine+1-f.al)
    qp=f.q-f.p
    f.lb3=l5_2(-(qp-3+f.al))-(qp-3); f.lb2=l5_2(-(qp-2+f.al))-(qp-2)
    f.lb1=l5_2(-(qp-1+f.al))-(qp-1); f.lb0=l5_2(-(qp+f.al))-qp
    f.mk0=f.al+2; f.mkm1=f.al+5
    f.ub2=f.al-2-l2_10(-l5_2(f.p+2)-1); f.ub1=f.al-2-l2_10(-l5_2(f.p+1)-1)
    f.cache=C32 if sz==4 else C64
    f.M=(1<<f.q)-1
    r=5
    for _ in range(1,f.q-1): r=5*r*r & f.M
    f.tab=[(f.M//(5**i & f.M), pow(r,i,1<<f.q)) for i in range(12 if sz==4 else 24)]
    return f
F32=mk(4);F64=mk(8)
def neighbours(xi,xp,N):
    # returns a,b,c,d with a/b<=xi, xp<c/d, bc-ad=1, b+d>N
    a,b,c,d=0,1,1,0
    while b+d<=N:
        # move left as far as possible: (a+tc)/(b+td) <= xi
        # largest t with a+tc <= xi(b+td) -> t(c-xi d) <= xi b - a
        t=((xi*b-a)/(c-xi*d)) 
        t=t.numerator//t.denominator
        if t>0:
            # limit so that b+d just exceeds N
            if d>0: t=min(t,max(1,(N-b-d)//d+1))
            a+=t*c; b+=t*d
            if b+d>N: break
        # move right: (c+ta)/(d+tb) > xp -> c - xp d > t(xp b - a)
        if xp*b==a:
            u=None
        else:
            x=(c-xp*d)/(xp*b-a); u=-((-x.numerator)//x.denominator)-1
        lim=max(1,(N-b-d)//b+1)
        u=lim if u is None else min(u,lim)
        if u>0:
            c+=u*a; d+=u*b
        if t==0 and u==0: raise Exception('fail')
    return a,b,c,d
def gen(f):
    q,p=f.q,f.p
    N=2**(p+4); U=F(2)**(q-p-3)
    out=[]
    for k in range(f.min_k,f.max_k+1):
        l=l2_10(k)
        G=F(10)**k/F(2)**(l+1)
        phi=f.cache[k-f.min_k]
        assert F(1,2)<=G<1
        xi=G*U/4; xp=F(phi)*U/4/2**(2*q)
        v=U/4/2**(2*q)
        # cheap enclosure by neighbours of phi when it suffices, the exact one otherwise
        try:
            a,b,c,d=neighbours(*((phi*v,(phi+1)*v-v/2**300) if k>=0 else ((phi-1)*v,phi*v)),N)
            assert F(a,b)<=(phi*v if k>=0 else (phi-1)*v)
            assert ((phi+1)*v<=F(c,d) if k>=0 else phi*v<F(c,d))
        except Exception as ex:
            print('exact enclosure for',f.sz,k)
            a,b,c,d=neighbours(min(xi,xp),max(xi,xp),N)
            assert F(a,b)<=min(xi,xp) and max(xi,xp)<F(c,d)
        assert b>0 and d>0 and b*c-a*d==1 and b+d>N
        out.append((a,b,c,d))
    return out
if __name__=='__main__':
    with open('/verif/rocq/theories/FareyTables.v','w') as g:
        g.write('''(** * Witnesses for the exactness of the truncated products (generated by scripts/gen_farey.py).
    Entry for k: (a, b, c, d), two neighbouring fractions a/b and c/d around the scaled multiplier.
    Nothing is assumed about them; they are checked in [ExpFacts.v]. *)

From Coq Require Import ZArith List.
Import ListNotations.
Open Scope Z_scope.

''')
        for nm,f in (('float',F32),('double',F64)):
            g.write('Definition farey_%s : list (Z * Z * Z * Z) := [\n'%nm)
            g.write(';\n'.join('  (0x%x, 0x%x, 0x%x, 0x%x)'%t for t in gen(f))+'\n].\n\n')
