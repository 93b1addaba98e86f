#!/usr/bin/env python3
"""Writes PropNist384.v and PropNist521.v from PropNist.v (same statements, other constants)."""
import re
T='/verif/rocq/theories/'
s=open(T+'PropNist.v').read()
n521=2**521-2**260+0xa51868783bf2f966b7fcc0148f709a5d03bb5c9b8899c47aebb6fb71e91386409
for w,hs,p,b,n,gx,gy,pw,pl,z,osz,bsz in [
 ('384','384','2 ^ 384 - 2 ^ 128 - 2 ^ 96 + 2 ^ 32 - 1',
  '0xb3312fa7e23ee7e4988e056be3f82d19181d9c6efe8141120314088f5013875ac656398d8a2ed19d2a85c8edd3ec2aef',
  '0xffffffffffffffffffffffffffffffffffffffffffffffffc7634d81f4372ddf581a0db248b0a77aecec196accc52973',
  '0xaa87ca22be8b05378eb1c71ef320ad746e1d3b628ba79b9859f741e082542a385502f25dbf55296c3a545e3872760ab7',
  '0x3617de4a96262c6f5d9e98bf9292dc29f8f41dbd289a147ce9da3113b5f0b8c00a60b1ce1d7e819d7a431d7c90ea0e5f',48,72,12,48,128),
 ('521','512','2 ^ 521 - 1',
  '0x51953eb9618e1c9a1f929a21a0b68540eea2da725b99b315f3b8b489918ef109e156193951ec7e937b1652c0bd3bb1bf073573df883d2c34f1ef451fd46b503f00',
  hex(n521),
  '0xc6858e06b70404e9cd9e3ecb662395b4429c648139053fb521f828af606b4d3dbaa14b5e77efe75928fe1dc127a2ffa8de3348b3c1856a429bf97e7e31c2e5bd66',
  '0x11839296a789a3bc0045c8a5fb42c7d1bd998f54449579b446817afbd17273e662c97ee72995ef42640c550b9013fad0761353c7086a272c24088be94769fd16650',66,98,4,64,128)]:
    t=s
    for a,c in [('2 ^ 256 - 2 ^ 224 + 2 ^ 192 + 2 ^ 96 - 1',p),
      ('0x5ac635d8aa3a93e7b3ebbd55769886bc651d06b0cc53b0f63bce3c3e27d2604b',b),
      ('0xffffffff00000000ffffffffffffffffbce6faada7179e84f3b9cac2fc632551',n),
      ('0x6b17d1f2e12c4247f8bce6e563a440f277037d812deb33a0f4a13945d898c296',gx),
      ('0x4fe342e2fe1a7f9b8ee7eb4a7c0f9e162bce33576b315ececbb6406837bf51f5',gy),
      ('n_p256','pn P%s'%w),('mod pn P%s'%w,'mod (pn P%s)'%w),
      ('-3) b 32 buf','-3) b %d buf'%pw),('length xb = 32%nat','length xb = %d%%nat'%pw),
      ('(f (-10))','(f (-%d))'%z),('(sha2 SHA256) 32 64','(sha2 SHA256) %d %d'%(osz,bsz)),
      ('firstn 48','firstn %d'%pl),('skipn 48','skipn %d'%pl),('expand 96%N','expand %d%%N'%(2*pl)),('expand 48%N','expand %d%%N'%pl),
      (' Primes.','.'),('PropNist:','PropNist%s:'%w),
      ('P256-SHA256','P%s-SHA%s'%(w,hs)),('P256_SHA256','P%s_SHA%s'%(w,hs)),('SHA256','SHA%s'%hs),('SHA-256','SHA-%s'%hs),('sha256','sha%s'%hs),
      ('P-256','P-%s'%w),('Nist256','Nist%s'%w),('P256','P%s'%w),('p256','p%s'%w)]:
        assert a in t or a.startswith('mod pn'),a
        t=t.replace(a,c)
    t=t.replace(" *)\nFrom"," *)\n(* Written by /verif/tools/gen_propnist.py from PropNist.v. *)\nFrom",1)
    open(T+'PropNist%s.v'%w,'w').write(t)
