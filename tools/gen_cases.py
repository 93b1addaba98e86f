#!/usr/bin/env python3
"""Finds inputs whose two SSWU points are the first candidates, rewrites [case_input]/[case_points] and the
constants of PropNistCases.v, and writes PropNistCases384.v and PropNistCases521.v from it."""
import hashlib, re, sys
sys.path.insert(0,'/verif/tools')
from gen_chain import CURVES
B={'256':0x5ac635d8aa3a93e7b3ebbd55769886bc651d06b0cc53b0f63bce3c3e27d2604b,
   '384':0xb3312fa7e23ee7e4988e056be3f82d19181d9c6efe8141120314088f5013875ac656398d8a2ed19d2a85c8edd3ec2aef,
   '521':0x0051953eb9618e1c9a1f929a21a0b68540eea2da725b99b315f3b8b489918ef109e156193951ec7e937b1652c0bd3bb1bf073573df883d2c34f1ef451fd46b503f00}
Z={'256':-10,'384':-12,'521':-4}; L={'256':48,'384':72,'521':98}; W={'256':32,'384':48,'521':66}
HN={'256':'256','384':'384','521':'512'}
def xmd(h,msg,dst,n):
    H=lambda b:hashlib.new('sha'+h,b).digest()
    o=hashlib.new('sha'+h).digest_size; blk=hashlib.new('sha'+h).block_size
    ell=-(-n//o); d=dst+bytes([len(dst)])
    b0=H(bytes(blk)+msg+n.to_bytes(2,'big')+b'\0'+d)
    bs=[H(b0+b'\1'+d)]
    for i in range(2,ell+1): bs.append(H(bytes(x^y for x,y in zip(b0,bs[-1]))+bytes([i])+d))
    return b''.join(bs)[:n]
def sswu1(w,u):
    p=CURVES[w]['p']; b=B[w]; z=Z[w]
    i=pow(z*z*u**4+z*u*u,-1,p); x=-b*pow(-3,-1,p)*(1+i)%p
    g=(x**3-3*x+b)%p; y=pow(g,(p+1)//4,p)
    if y*y%p!=g: return None
    if y%2!=u%2: y=p-y
    return u,i,x,y
def case(w,mode):
    p=CURVES[w]['p']; l=L[w]; tag=b'HashToGroup-OPRFV1-'+bytes([mode])+b'-P%s-SHA%s'%(w.encode(),HN[w].encode())
    for k in range(1000):
        m=b'input%d'%k; o=xmd(HN[w],m,tag,2*l)
        c=[sswu1(w,int.from_bytes(o[:l],'big')%p),sswu1(w,int.from_bytes(o[l:],'big')%p)]
        if all(c): return m.decode(),c
def fmt(c): return '('+',\n    '.join(hex(z) for z in c)+')'
T='/verif/rocq/theories/'
src=open(T+'PropNistCases.v').read()
for w in ('256','384','521'):
    t=src; cs=[case(w,m) for m in range(3)]; h=HN[w]
    n=CURVES[w]['n']
    m=int.from_bytes(xmd(h,b'Info\0\4info',b'HashToScalar-OPRFV1-\2-P%s-SHA%s'%(w.encode(),h.encode()),L[w]),'big')%n
    i=t.index('Definition case_input'); j=t.index('Definition tag256')
    t=t[:i]+'''Definition case_input (mode : N) : bytes :=
  match mode with 0%%N => str "%s" | 1%%N => str "%s" | _ => str "%s" end.
Definition case_points (mode : N) : (Z * Z * Z * Z) * (Z * Z * Z * Z) :=
  match mode with
  | 0%%N => (%s,\n   %s)
  | 1%%N => (%s,\n   %s)
  | _ => (%s,\n   %s)
  end.
'''%(tuple(c[0] for c in cs)+tuple(fmt(q) for c in cs for q in c[1]))+t[j:]
    i=t.index('Example C47_case'); j=t.index('Proof.',i)
    c0=cs[0][1]
    t=t[:i]+'''Example C47_case%s : forall pick fuel, let G := CSGroup (P256_SHA256 pick fuel) in
  exists Q, hash_to_curve G (hash_of SHA256) [str "%s"] [tag256 0] = Ok Q /\\ Q <> identity_elem G /\\
  exists P0 P1,
    affine P256 P0 = Some (0x%x,
                           0x%x) /\\
    affine P256 P1 = Some (0x%x,
                           0x%x) /\\
    Q = elem_add G P0 P1.
'''%('' if w=='256' else w,cs[0][0],c0[0][2],c0[0][3],c0[1][2],c0[1][3])+t[j:]
    t=t.replace('0x64b18a69b32a75eeb8b61e98302a082fd8665ed54a508eede309a90d20b665ec',hex(m))
    if w=='256': open(T+'PropNistCases.v','w').write(t); continue
    t=t.replace('C48_case','C48_case'+w).replace('C46_case','C46_case'+w)
    l=L[w]; W_=W[w]; o=hashlib.new('sha'+h).digest_size; bl=hashlib.new('sha'+h).block_size
    for a,c in [('n_p256','(pn P256)'),('of_Z (pn P256) 7','of_Z (pn P256) 7'),(' 32 64 ',' %d %d '%(o,bl)),('with 64%N','with %d%%N'%bl),('with 32%N','with %d%%N'%o),
      ('with 96%N','with %d%%N'%(2*l)),(' 96 = ',' %d = '%(2*l)),(' 96)',' %d)'%(2*l)),(' tag 96.',' tag %d.'%(2*l)),(' 48)',' %d)'%l),
      ('x05 32','x05 %d'%W_),('P256)) 32','P256)) %d'%W_),('to_N p) 32','to_N p) %d'%W_),('length gx = 32%nat','length gx = %d%%nat'%W_),
      (' Primes.','.'),('PropNist ','PropNist%s '%w),('PropNistCases:','PropNistCases%s:'%w),
      ('P256-SHA256','P%s-SHA%s'%(w,h)),('P256_SHA256','P%s_SHA%s'%(w,h)),('SHA256','SHA%s'%h),('sha256','sha%s'%h),
      ('Nist256','Nist%s'%w),('P256','P%s'%w),('p256','p%s'%w),('expand256','expand%s'%w),('tag256','tag%s'%w)]:
        if a not in t: print('missing',a)
        t=t.replace(a,c)
    if CURVES[w]['gy']%2==0: pass
    g=CURVES[w]['gy']
    if g%2==0: # even y: tags exchanged in the example
        t=t.replace('deserialize_elem G (x03 :: gx) = Ok','deserialize_elem G (x0Q :: gx) = Ok').replace('deserialize_elem G (x02 :: gx) <> Ok','deserialize_elem G (x03 :: gx) <> Ok').replace('x0Q','x02').replace('change (x03 :: xb) with','change (x02 :: xb) with')
    if w=='521': t=t.replace('Z.odd (pgy P521) = true','Z.odd (pgy P521) = false').replace('repeat x05','repeat x01').replace('FiveRng','OneRng').replace('five_ends','one_ends')
    t=t.replace(" *)\nFrom"," *)\n(* Written by /verif/tools/gen_cases.py from PropNistCases.v. *)\nFrom",1)
    open(T+'PropNistCases%s.v'%w,'w').write(t)
    print(w,g%2)
