#!/usr/bin/env python3
"""Finds the witnesses in rocq/theories/PropRistCases.v (nothing here is trusted)."""
import hashlib
p=2**255-19; L=2**252+27742317777372353535851937790883648493
d=-121665*pow(121666,-1,p)%p; i=pow(2,(p-1)//4,p)
assert i==19681161376707505956807079304988542015446066515923890162744021073123829784752
q=25063068953384623474111414158702152701244531502492656460079210482610430750235
assert q*q%p==(-d-1)%p
def xmd(msg,dst,n):
    H=lambda b: hashlib.sha512(b).digest()
    if len(dst)>255: dst=H(b"H2C-OVERSIZE-DST-"+dst)
    dp=dst+bytes([len(dst)]); b0=H(bytes(128)+msg+n.to_bytes(2,'big')+b'\0'+dp)
    b=H(b0+b'\1'+dp); out=b; k=2
    while len(out)<n:
        b=H(bytes(x^y for x,y in zip(b0,b))+bytes([k])+dp); out+=b; k+=1
    return out[:n]
inv=lambda x: pow(x,-1,p)
ab=lambda x: (p-x)%p if x%p&1 else x%p
def sr(u,v):
    r=(u*v**3)*pow(u*v**7,(p-5)//8,p)%p; ch=v*r*r%p
    if ch in ((-u)%p,(-u*i)%p): r=r*i%p
    return (ch in (u%p,(-u)%p)), ab(r)
def MAP(t):
    r=i*t*t%p; u=(r+1)*(1-d*d)%p; v=(-1-r*d)*(r+d)%p
    b,s0=sr(u,v); s=s0 if b else (-ab(s0*t))%p; c=-1 if b else r
    N=(c*(r-1)*(d-1)**2-v)%p
    return (s0,s,2*s*v*inv(N*q)%p,(1-s*s)*inv(1+s*s)%p,b)
def add(P,Q):
    x1,y1=P;x2,y2=Q;k=d*x1*x2*y1*y2
    return ((x1*y2+y1*x2)*inv(1+k)%p,(y1*y2+x1*x2)*inv(1-k)%p)
c=54469307008909316920995813868745141605393597292927456921205312896311721017578
def enc(P):
    x0,y0=P;z0=1;t0=x0*y0%p
    u1=(z0+y0)*(z0-y0)%p;u2=x0*y0%p
    _,iv=sr(1,u1*u2*u2%p); den1=iv*u1%p;den2=iv*u2%p;zi=den1*den2*t0%p
    if (t0*zi%p)&1: x,y,di=y0*i%p,x0*i%p,den1*c%p
    else: x,y,di=x0,y0,den2
    if (x*zi%p)&1: y=-y
    return ab(di*(z0-y))
def dec(s):
    u1=(1-s*s)%p;u2=(1+s*s)%p;v=(-(d*u1*u1)-u2*u2)%p
    b,iv=sr(1,v*u2*u2%p); dx=iv*u2%p;dy=iv*dx*v%p
    x=ab(2*s*dx);y=u1*dy%p
    if not b or (x*y%p)&1 or y==0: return None
    return x,y
B=(15112221349535400772501151409588531511454012693041857206046113283949847762202,46316835694926478169428394003475163141307993866256225615783033603165251855960)
sb=enc(B); print('base',sb.to_bytes(32,'little').hex(),hex(sb),[hex(a) for a in dec(sb)])
for mode in range(3):
    for k in range(40):
        m=b'input%d'%k
        u=xmd(m,b'HashToGroup-OPRFV1-'+bytes([mode])+b'-ristretto255-SHA512',64)
        t0=int.from_bytes(u[:32],'little')%2**255;t1=int.from_bytes(u[32:],'little')%2**255
        P0=MAP(t0);P1=MAP(t1)
        if (P0[4],P1[4])!=[(True,True),(True,False),(False,False)][mode]: continue
        P3=add(P0[2:4],P1[2:4]); s=enc(P3); x,y=dec(s)
        assert (P3[0]*y-P3[1]*x)%p==0 or (P3[1]*y-P3[0]*x)%p==0
        f=lambda P:'(%s, %s)'%(',\n      '.join('0x%x'%a for a in P[:4]),'true' if P[4] else 'false')
        print(mode,m); print('(%s,\n %s,\n (0x%x,\n  0x%x),\n (0x%x, 0x%x,\n  0x%x))'%(f(P0),f(P1),P3[0],P3[1],s,x,y)); break
m=b'Info'+(4).to_bytes(2,'big')+b'info'
print('info',hex(int.from_bytes(xmd(m,b'HashToScalar-OPRFV1-\2-ristretto255-SHA512',64),'little')%L))
for s in range(2,100,2):
    y=(1-s*s)*inv(1+s*s)%p
    X=(y*y-1)*inv(1+d*y*y)%p
    if pow(X,(p-1)//2,p)!=1:
        W=i*X%p; w=pow(W,(p+3)//8,p)
        if w*w%p!=W: w=w*i%p
        assert w*w%p==W
        print('nonsquare',s,hex(y),hex(w)); break
