#!/usr/bin/env python3
"""Writes rocq/theories/{Cert25519,Pow25519,Chain25519}.v: certificates for ristretto255 (data only)."""
from gen_primes import write, powers, S, h
from math import gcd
p=2**255-19
S[p]=([(63,8)],[(0,19)])
D=37095705934669439343138083508754565189542113879843219016388785533085940283555
L=2**252+27742317777372353535851937790883648493
BX=15112221349535400772501151409588531511454012693041857206046113283949847762202
BY=46316835694926478169428394003475163141307993866256225615783033603165251855960
def isprime(n):
    if n<2: return False
    for q in (2,3,5,7,11,13,17,19,23,29,31,37):
        if n%q==0: return n==q
    s=n-1; r=0
    while s%2==0: s//=2; r+=1
    for a in range(2,40):
        x=pow(a,s,n)
        if x in (1,n-1): continue
        for _ in range(r-1):
            x=x*x%n
            if x==n-1: break
        else: return False
    return True
def rho(n):
    if n%2==0: return 2
    for c in range(1,50):
        x=y=2; d=1
        while d==1:
            q=1
            for _ in range(200):
                x=(x*x+c)%n; y=(y*y+c)%n; y=(y*y+c)%n; q=q*abs(x-y)%n
            d=gcd(q,n)
        if d!=n: return d
HINT=[75445702479781427272750846543864801,31757755568855353,74058212732561358302231226437062788676166966415465897661863160754340907]
def factor(n):
    for k in HINT:
        if n%k==0 and n!=k: return factor(k)+factor(n//k)
    if n==1: return []
    if isprime(n): return [n]
    for q in range(2,100000):
        if n%q==0: return [q]+factor(n//q)
    d=rho(n); return factor(d)+factor(n//d)
def certs(n,seen):
    if n in seen: return []
    seen.add(n)
    if n<5000: return [(n,0,[])]
    fs=sorted(factor(n-1),reverse=True); use=[]; P=1
    for f in fs:
        if P*P>n: break
        if f<=3: continue
        use.append(f); P*=f
    assert P*P>n
    for a in range(2,100):
        if pow(a,n-1,n)==1 and all(gcd(pow(a,(n-1)//f,n)-1,n)==1 for f in use): break
    out=[]
    for f in use: out+=certs(f,seen)
    return out+[(n,a,use)]
def naf(k):
    d=[]
    while k:
        if k&1:
            t=2-(k%4); d.append(t); k-=t
        else: d.append(0)
        k//=2
    return d[::-1]
def chain():
    out=[]; x,y=BX,BY
    def q(z): assert z%p==0; return z//p
    for dg in naf(L)[1:]:
        s=x*x%p; t=y*y%p; c=(t-s)%p
        x1=2*x*y*pow(c,-1,p)%p; y1=(s+t)*pow(2-c,-1,p)%p
        out.append(('EDbl',x1,y1,s,t,c,q(x*x-s),q(y*y-t),q(c+s-t),q(x1*c-2*x*y),q(2*y1-(s+t+y1*c))))
        x,y=x1,y1
        if dg:
            g=BX if dg==1 else p-BX
            u=x*g%p; w=y*BY%p; f=D*u%p; e=f*w%p
            x1=(x*BY+y*g)*pow(1+e,-1,p)%p; y1=(w+u)*pow(1-e,-1,p)%p
            out.append(('EAdd' if dg==1 else 'ESub',x1,y1,u,w,f,e,q(x*g-u),q(y*BY-w),q(D*u-f),q(f*w-e),q(x1+x1*e-(x*BY+y*g)),q(y1-(w+u+y1*e))))
            x,y=x1,y1
    assert (x,y)==(0,1)
    return out
if __name__=='__main__':
    assert (BY*BY-BX*BX-1-D*BX*BX*BY*BY)%p==0
    write('Cert25519','certificate of the primality of 2^255 - 19.',certs(p,set()))
    powers('Pow25519','a power of D modulo 2^255 - 19.',[('pow_d25519',p,D,(p-1)//2)])
    with open('/verif/rocq/theories/Chain25519.v','w') as f:
        f.write('(** * Chain25519: certificate of l B = (0, 1) on edwards25519.  Written by\n    /verif/tools/gen_rist.py; checked in [Rist25519]. *)\n')
        f.write('From Coq Require Import ZArith List.\nFrom Verif Require Import EChain.\nImport ListNotations.\nOpen Scope Z_scope.\n\n')
        f.write('Definition chain25519 : list estep := [\n')
        f.write(';\n'.join(s[0]+' '+' '.join(h(z) for z in s[1:]) for s in chain()))
        f.write('\n].\n')
