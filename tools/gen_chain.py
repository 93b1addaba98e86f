#!/usr/bin/env python3
"""Writes rocq/theories/Chain{256,384,521}.v: the certificate that (n-1) G = -G."""
import sys
CURVES = {
 '256': dict(p=2**256-2**224+2**192+2**96-1,
   n=0xffffffff00000000ffffffffffffffffbce6faada7179e84f3b9cac2fc632551,
   gx=0x6b17d1f2e12c4247f8bce6e563a440f277037d812deb33a0f4a13945d898c296,
   gy=0x4fe342e2fe1a7f9b8ee7eb4a7c0f9e162bce33576b315ececbb6406837bf51f5),
 '384': dict(p=2**384-2**128-2**96+2**32-1,
   n=0xffffffffffffffffffffffffffffffffffffffffffffffffc7634d81f4372ddf581a0db248b0a77aecec196accc52973,
   gx=0xaa87ca22be8b05378eb1c71ef320ad746e1d3b628ba79b9859f741e082542a385502f25dbf55296c3a545e3872760ab7,
   gy=0x3617de4a96262c6f5d9e98bf9292dc29f8f41dbd289a147ce9da3113b5f0b8c00a60b1ce1d7e819d7a431d7c90ea0e5f),
 '521': dict(p=2**521-1,
   n=2**521-2**260+0xa51868783bf2f966b7fcc0148f709a5d03bb5c9b8899c47aebb6fb71e91386409-2**260*0,
   gx=0x00c6858e06b70404e9cd9e3ecb662395b4429c648139053fb521f828af606b4d3dbaa14b5e77efe75928fe1dc127a2ffa8de3348b3c1856a429bf97e7e31c2e5bd66,
   gy=0x011839296a789a3bc0045c8a5fb42c7d1bd998f54449579b446817afbd17273e662c97ee72995ef42640c550b9013fad0761353c7086a272c24088be94769fd16650),
}
def naf(k):
    d=[]
    while k:
        if k&1:
            t=2-(k%4); d.append(t); k-=t
        else: d.append(0)
        k//=2
    return d[::-1]
def chain(c):
    p,n,gx,gy=c['p'],c['n'],c['gx'],c['gy']; a=-3
    out=[]; x,y=gx,gy
    ds=naf(n-1); assert ds[0]==1
    for d in ds[1:]:
        l=(3*x*x+a)*pow(2*y,-1,p)%p
        x3=(l*l-2*x)%p; y3=(l*(x-x3)-y)%p; dd=(x-x3)%p
        qs=[dd+x3-x, l*2*y-(3*x*x+a), l*l-2*x-x3, l*dd-y-y3]; assert all(q%p==0 for q in qs)
        out.append(('Dbl',l,x3,y3,dd,*[q//p for q in qs])); x,y=x3,y3
        if d:
            g=gy if d==1 else p-gy
            l=(y-g)*pow(x-gx,-1,p)%p; e=(x-gx)%p
            x3=(l*l-x-gx)%p; y3=(l*(x-x3)-y)%p; dd=(x-x3)%p
            qs=[dd+x3-x, e+gx-x, l*e+g-y, l*l-x-gx-x3, l*dd-y-y3]; assert all(q%p==0 for q in qs)
            qs=[q//p for q in qs]
            out.append(('Add' if d==1 else 'Sub',l,x3,y3,dd,qs[0],e,*qs[1:])); x,y=x3,y3
    assert x==gx and y==p-gy
    return out
def h(z): return hex(z) if z>=0 else '(-%s)'%hex(-z)
if __name__=='__main__':
    for w in sys.argv[1:]:
        c=CURVES[w]
        with open('/verif/rocq/theories/Chain%s.v'%w,'w') as f:
            f.write('(** * Chain%s: certificate of (n - 1) G = - G on P-%s.  Written by\n    /verif/tools/gen_chain.py; checked in [Nist%s]. *)\n'%(w,w,w))
            f.write('From Coq Require Import ZArith List.\nFrom Verif Require Import Chain.\nImport ListNotations.\nOpen Scope Z_scope.\n\n')
            f.write('Definition chain%s : list step := [\n'%w)
            f.write(';\n'.join(s[0]+' '+' '.join(h(z) for z in s[1:]) for s in chain(c)))
            f.write('\n].\n')
