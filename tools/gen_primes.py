#!/usr/bin/env python3
"""Writes the primality certificates rocq/theories/Cert*.v (data only; checked by PowCert.check_certs).

A certificate is a list (N, a, factors of N-1), in the order of proof."""
import sys
from math import gcd
S = {}  # moduli as sums and differences of d 16^k
S[2**256-2**224+2**192+2**96-1] = ([(64,1),(48,1),(24,1)],[(56,1),(0,1)])
S[2**384-2**128-2**96+2**32-1] = ([(96,1),(8,1)],[(32,1),(24,1),(0,1)])
S[2**521-1] = ([(130,2)],[(0,1)])
def sparse(n):
    if n in S: return S[n]
    k=-(-n.bit_length()//4); c=16**k-n
    nz=lambda c: sum(x!='0' for x in '%x'%c)
    best=([(0,n)],[]); cost=nz(n)
    for e in range(k-2,k+1):
        for d in range(1,17):
            c=d*16**e-n
            if c and nz(abs(c))+3<cost: best=([(e,d)],[(0,c)]) if c>0 else ([(e,d),(0,-c)],[]); cost=nz(abs(c))+3
    return best
def h(z): return ('0x%x'%z) if z>=0 else '(-0x%x)'%-z
def steps(n,a,e):
    x=1; k=0; out=[]
    for b in bin(e)[2:]:
        y=x*x*(a if b=='1' else 1); q=y//n
        x=y-q*n; out.append(('P1 ' if b=='1' else 'P0 ')+h(q)+' '+h(x)); k=2*k+int(b)
    assert k==e and x==pow(a,e,n)
    return x,'['+'; '.join(out)+']'
def cert(n,a,fs):
    if a==0: return 'mkcert %d ([], []) 0 [] []'%n
    ps,ms=sparse(n); assert sum(d*16**k for k,d in ps)-sum(d*16**k for k,d in ms)==n
    r,main=steps(n,a,n-1); assert r==1
    P=1
    subs=[]
    for f in fs:
        r,l=steps(n,a,(n-1)//f); assert gcd(r-1,n)==1
        subs.append('(%s, %s, %s)'%(h(f),h(r),l)); P*=f
    assert (n-1)%P==0 and P*P>n
    li=lambda l:'['+'; '.join('(%d%%nat, %s)'%(k,h(d)) for k,d in l)+']'
    return 'mkcert %s (%s, %s) %d\n    %s\n    [%s]'%(h(n),li(ps),li(ms),a,main,';\n     '.join(subs))
def powers(name,doc,items):
    # items: (definition name, modulus, base, exponent)
    with open('/verif/rocq/theories/%s.v'%name,'w') as f:
        f.write('(** * %s: %s  Written by /verif/tools/gen_primes.py. *)\n'%(name,doc))
        f.write('From Coq Require Import ZArith List.\nFrom Verif Require Import PowCert.\nImport ListNotations.\nOpen Scope Z_scope.\n')
        for d,n,a,e in items:
            r,l=steps(n,a,e)
            f.write('\n(** The power is %s. *)\nDefinition %s : list pstep := %s.\n'%(h(r) if r<n-1000 else 'p - %d'%(n-r),d,l))
def parse(txt):
    L=[]
    for line in txt.strip().splitlines():
        line=line.strip().rstrip(';')
        if not line: continue
        n,a,fs=eval(line.replace(';',','))
        L.append((n,a,list(fs)))
    return L
def write(name,doc,certs):
    with open('/verif/rocq/theories/%s.v'%name,'w') as f:
        f.write('(** * %s: %s  Written by /verif/tools/gen_primes.py. *)\n'%(name,doc))
        f.write('From Coq Require Import ZArith List.\nFrom Verif Require Import PowCert.\nImport ListNotations.\nOpen Scope Z_scope.\n\n')
        f.write('Definition %s : list pcert := [\n  '%name.lower()+';\n  '.join(cert(*c) for c in certs)+'\n].\n')
ELL='''
(3797, 0, []);
   (531581, 2, [3797]);
   (2551, 0, []);
   (1224481, 2, [2551]);
   (1257559732178653, 2, [1224481; 531581]);
   (4434155615661930479, 2, [1257559732178653]);
   (172054593956031949258510691, 2, [4434155615661930479]);
   (19757330305831588566944191468367130476339, 2, [172054593956031949258510691]);
   (276602624281642239937218680557139826668747, 2, [19757330305831588566944191468367130476339]);
   (7237005577332262213973186563042994240857116359379907606001950938285454250989, 2, [276602624281642239937218680557139826668747]);
'''
N256='''
   (337, 0, []);
   (104471, 2, [337]);
   (3969899, 2, [104471]);
   (1002328039319, 2, [3969899]);
   (3023, 0, []);
   (43, 0, []);
   (155317, 2, [43; 43]);
   (191039911, 2, [155317]);
   (208150935158385979, 2, [191039911; 3023]);
   (2624747550333869278416773953, 2, [208150935158385979]);
   (115792089210356248762697446949407573529996955224135760342422259061068512044369, 2, [2624747550333869278416773953; 1002328039319]);
'''
P256='''
   (197, 0, []);
   (3677, 0, []);
   (66417393611, 2, [3677; 197]);
   (11290956913871, 2, [66417393611]);
   (4349, 0, []);
   (78283, 2, [4349]);
   (5, 0, []);
   (313, 0, []);
   (704251, 2, [313; 5]);
   (46076956964474543, 2, [704251; 78283]);
   (774023187263532362759620327192479577272145303, 2, [46076956964474543; 11290956913871]);
   (835945042244614951780389953367877943453916927241, 2, [774023187263532362759620327192479577272145303]);
   (115792089210356248762697446949407573530086143415290314195533631308867097853951, 2, [835945042244614951780389953367877943453916927241]);
'''
F_N384='''
   (311, 0, []);
   (881, 0, []);
   (9863677, 2, [881; 311]);
   (37344768852931, 2, [9863677]);
   (55942463741690639, 2, [37344768852931]);
   (233, 0, []);
   (421, 0, []);
   (272109983, 2, [421; 233]);
   (228572385721, 2, [272109983]);
   (23314383343543, 2, [228572385721]);
   (426632512014427833817, 2, [23314383343543]);
   (1495199339761412565498084319, 2, [426632512014427833817]);
   (17942392077136950785977011829, 2, [1495199339761412565498084319]);
   (1059392654943455286185473617842338478315215895509773412096307, 2, [17942392077136950785977011829; 55942463741690639]);
   (3055465788140352002733946906144561090641249606160407884365391979704929268480326390471, 2, [1059392654943455286185473617842338478315215895509773412096307]);
'''
F_N521='''
   (17, 0, []);
   (127, 0, []);
   (777241, 2, [127; 17]);
   (41, 0, []);
   (71, 0, []);
   (17467, 3, [71; 41]);
   (19353437, 2, [17467]);
   (60018716061994831, 2, [19353437; 777241]);
   (4239602065187190872179, 2, [60018716061994831]);
   (7427946019382605513260578233234962521, 2, [4239602065187190872179]);
   (15994076126984618329123851002118749004583184815459808099, 2, [7427946019382605513260578233234962521]);
   (3636410625392624440351547907325502812950802686368714273274221490761556277859337865760708490235892541081304511, 2, [15994076126984618329123851002118749004583184815459808099]);
   (3615194794881930010216942559103847593050265703173292383701371712350878926821661243755933835426896058418509759880171943, 2, [3636410625392624440351547907325502812950802686368714273274221490761556277859337865760708490235892541081304511]);
'''
F_P384='''
   (211, 0, []);
   (881, 0, []);
   (105957871, 2, [881; 211]);
   (11, 0, []);
   (139, 0, []);
   (21407, 2, [139; 11]);
   (246608641, 2, [21407]);
   (529709925838459440593, 2, [246608641; 105957871]);
   (937, 0, []);
   (363557, 2, [937]);
   (532247449, 2, [363557]);
   (44925942675193, 2, [532247449]);
   (35581458644053887931343, 2, [44925942675193]);
   (23964610537191310276190549303, 2, [35581458644053887931343]);
   (862725979338887169942859774909, 2, [23964610537191310276190549303]);
   (20705423504133292078628634597817, 2, [862725979338887169942859774909]);
   (413244619895455989650825325680172591660047, 2, [20705423504133292078628634597817]);
   (12397338596863679689524759770405177749801411, 2, [413244619895455989650825325680172591660047]);
   (19173790298027098165721053155794528970226934547887232785722672956982046098136719667167519737147526097, 2, [12397338596863679689524759770405177749801411; 529709925838459440593]);
'''
P521='''
   (1237, 0, []);
   (49481, 2, [1237]);
   (308761441, 3, [49481]);
   (347, 0, []);
   (1663, 0, []);
   (2400573761, 3, [1663; 347]);
   (11, 0, []);
   (397, 0, []);
   (2995763, 2, [397; 11]);
   (65427463921, 3, [2995763]);
   (1433, 0, []);
   (227, 0, []);
   (23609, 2, [227]);
   (108140989558681, 3, [23609; 1433]);
   (151, 0, []);
   (223, 0, []);
   (8620289, 2, [223; 151]);
   (2534364967, 2, [8620289]);
   (145295143558111, 3, [2534364967]);
   (7, 0, []);
   (2437, 0, []);
   (9211861, 2, [2437; 7]);
   (24098228377, 2, [9211861]);
   (674750394557, 2, [24098228377]);
   (361725589517273017, 2, [674750394557]);
   (173308343918874810521923841, 3, [361725589517273017]);
   (6864797660130609714981900799081393217269435300143305409394463459185543183397656052122559640661454554977296311391480858037121987999716643812574028291115057151, 3, [173308343918874810521923841; 145295143558111; 108140989558681; 65427463921; 2400573761; 308761441]);
'''
if __name__=='__main__':
    write('CertOrders','certificates of the primality of the orders of ristretto255 and P-256.',parse(ELL)+parse(N256))
    write('Cert256','certificate of the primality of the field of P-256.',parse(P256))
    p=2**256-2**224+2**192+2**96-1
    powers('Pow256','powers of small numbers modulo the field of P-256.',
      [('pow_z256',p,10,(p-1)//2),('pow_c256',p,2,(p-1)//3)])
    n384=0xffffffffffffffffffffffffffffffffffffffffffffffffc7634d81f4372ddf581a0db248b0a77aecec196accc52973
    n521=2**521-2**260+0xa51868783bf2f966b7fcc0148f709a5d03bb5c9b8899c47aebb6fb71e91386409
    p384=2**384-2**128-2**96+2**32-1; p521=2**521-1
    def top(n,txt):
        L=parse(txt); f=L[-1][0]; assert (n-1)%f==0
        for a in range(2,50):
            if pow(a,n-1,n)==1 and gcd(pow(a,(n-1)//f,n)-1,n)==1: return L+[(n,a,[f])]
    write('Cert384','certificates of the primality of the field and of the order of P-384.',top(p384,F_P384)+top(n384,F_N384))
    write('Cert521','certificates of the primality of the field and of the order of P-521.',parse(P521)+top(n521,F_N521))
    powers('Pow384','a power of a small number modulo the field of P-384.',[('pow_z384',p384,12,(p384-1)//2)])
    powers('Pow521','powers of small numbers modulo the field of P-521.',
      [('pow_z521',p521,4,(p521-1)//2),('pow_c521',p521,3,(p521-1)//3)])
    # squares of X modulo X^3 - 3 X + b, for P-384 (CubicPoly)
    b=0xb3312fa7e23ee7e4988e056be3f82d19181d9c6efe8141120314088f5013875ac656398d8a2ed19d2a85c8edd3ec2aef; p=p384
    a=(0,1,0); ls=[[],[],[],[]]; S={}
    for k in range(384):
        a0,a1,a2=a; c3=2*a1*a2; c4=a2*a2
        c=(a0*a0+(p-b)*c3, 2*a0*a1+3*c3+(p-b)*c4, 2*a0*a2+a1*a1+3*c4)
        q=tuple(z//p for z in c); a=tuple(z-t*p for z,t in zip(c,q))
        ls[0 if k<32 else 1 if k<96 else 2 if k<128 else 3].append((q,a)); S[k+1]=a
    def mul3(a,c):
        a0,a1,a2=a; b0,b1,b2=c; c3=a1*b2+a2*b1; c4=a2*b2
        return ((a0*b0-b*c3)%p,(a0*b1+a1*b0+3*c3-b*c4)%p,(a0*b2+a1*b1+a2*b0+3*c4)%p)
    g=tuple((x-y)%p for x,y in zip(mul3((0,0,1),mul3(S[96],S[128])),mul3(S[32],S[384])))
    # inverse: solve the 3x3 system M v = e1, columns g, gX, gX^2
    cols=[g,mul3(g,(0,1,0)),mul3(g,(0,0,1))]
    M=[[cols[j][i] for j in range(3)]+[1 if i==0 else 0] for i in range(3)]
    for i in range(3):
        r=next(r for r in range(i,3) if M[r][i]%p); M[i],M[r]=M[r],M[i]
        iv=pow(M[i][i],-1,p); M[i]=[x*iv%p for x in M[i]]
        for r in range(3):
            if r!=i: M[r]=[(x-M[r][i]*y)%p for x,y in zip(M[r],M[i])]
    v=tuple(M[i][3] for i in range(3)); assert mul3(g,v)==(1,0,0)
    tr=lambda t:'('+', '.join(h(z) for z in t)+')'
    with open('/verif/rocq/theories/Root384.v','w') as f:
        f.write('(** * Root384: repeated squares of X modulo X^3 - 3 X + b over the field of P-384 (quotients and\n    remainders),    and an inverse; checked in [Nist384].  Written by /verif/tools/gen_primes.py. *)\n')
        f.write('From Coq Require Import ZArith List.\nFrom Verif Require Import CubicPoly.\nImport ListNotations.\nOpen Scope Z_scope.\n')
        for i,l in enumerate(ls):
            f.write('\nDefinition root384_%d : list (poly3 * poly3) := [\n  %s].\n'%(i+1,';\n  '.join('(%s, %s)'%(tr(u),tr(v)) for u,v in l)))
        f.write('\nDefinition root384_inv : poly3 := %s.\n'%tr(v))
