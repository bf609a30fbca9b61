#!/usr/bin/env python3
"""Checks the model's formulas against the test vectors in /repo/ffi/src/c.rs.

Not part of the proofs.  The vectors (c.rs:290-374) were produced by the Rust
code; this script recomputes them from the formulas of the model files, with
its own implementation of the external crates (ristretto255, STROBE-128,
ChaCha20).  How merlin 0.2 frames its messages is not in /repo: it was found by
trying variants until the three recorded challenges came out.

usage: vectors.py [/repo]
"""
import re, struct, sys

REPO = sys.argv[1] if len(sys.argv) > 1 else "/repo"

p=2**255-19; L=2**252+27742317777372353535851937790883648493
d=(-121665*pow(121666,p-2,p))%p
I=pow(2,(p-1)//4,p)
def neg(x): return x&1
def sqrt_ratio(u,v):
    v3=v*v%p*v%p; v7=v3*v3%p*v%p
    r=u*v3%p*pow(u*v7%p,(p-5)//8,p)%p
    c=v*r*r%p
    ok=c==u%p; fl=c==(-u)%p; fli=c==(-u*I)%p
    if fl or fli: r=r*I%p
    if r&1: r=p-r
    return (ok or fl), r
def dec(b):
    s=int.from_bytes(bytes(b),'little')
    if s>=p or s&1: return None
    ss=s*s%p;u1=(1-ss)%p;u2=(1+ss)%p;u2s=u2*u2%p
    v=(-(d*u1*u1)-u2s)%p
    ok,inv=sqrt_ratio(1,v*u2s%p)
    dx=inv*u2%p;dy=inv*dx*v%p
    x=2*s*dx%p
    if x&1:x=p-x
    y=u1*dy%p;t=x*y%p
    if not ok or t&1 or y==0: return None
    return (x,y,1,t)
_,invsqrt_a_minus_d=sqrt_ratio(1,(-1-d)%p)
def enc(P):
    X,Y,Z,T=P
    u1=(Z+Y)*(Z-Y)%p;u2=X*Y%p
    _,inv=sqrt_ratio(1,u1*u2*u2%p)
    d1=inv*u1%p;d2=inv*u2%p
    zi=d1*d2*T%p
    if (T*zi%p)&1:
        x=Y*I%p;y=X*I%p;den=d1*invsqrt_a_minus_d%p
    else: x,y,den=X,Y,d2
    if (x*zi%p)&1:y=(-y)%p
    s=den*(Z-y)%p
    if s&1:s=p-s
    return s.to_bytes(32,'little')
def add(P,Q):
    X1,Y1,Z1,T1=P;X2,Y2,Z2,T2=Q
    A=(Y1-X1)*(Y2-X2)%p;B=(Y1+X1)*(Y2+X2)%p;C=2*T1*d*T2%p;D=2*Z1*Z2%p
    E=B-A;F=D-C;G=D+C;H=B+A
    return (E*F%p,G*H%p,F*G%p,E*H%p)
O=(0,1,1,0)
def mul(k,P):
    k%=L;R=O
    while k:
        if k&1:R=add(R,P)
        P=add(P,P);k>>=1
    return R
def ngp(P): return ((-P[0])%p,P[1],P[2],(-P[3])%p)
def eq(P,Q): return (P[0]*Q[1]-P[1]*Q[0])%p==0 or (P[1]*Q[1]-P[0]*Q[0])%p==0
BASE=dec(bytes.fromhex('e2f2ae0a6abc4e71a884a961c500515f58e30b6aa582dd8db6a65945e08d2d76'))
# keccak/strobe
def rol(x,n): return ((x<<n)|(x>>(64-n)))&(2**64-1) if n else x
def keccakf(st):
    A=[[int.from_bytes(st[8*(x+5*y):8*(x+5*y)+8],'little') for y in range(5)] for x in range(5)]
    R=1
    for rnd in range(24):
        C=[A[x][0]^A[x][1]^A[x][2]^A[x][3]^A[x][4] for x in range(5)]
        D=[C[(x+4)%5]^rol(C[(x+1)%5],1) for x in range(5)]
        A=[[A[x][y]^D[x] for y in range(5)] for x in range(5)]
        x,y=1,0;cur=A[x][y]
        for t in range(24):
            x,y=y,(2*x+3*y)%5
            cur,A[x][y]=A[x][y],rol(cur,((t+1)*(t+2)//2)%64)
        for y in range(5):
            T=[A[x][y] for x in range(5)]
            for x in range(5):A[x][y]=T[x]^((~T[(x+1)%5])&T[(x+2)%5]&(2**64-1))
        for j in range(7):
            R=((R<<1)^((R>>7)*0x71))%256
            if R&2:A[0][0]^=1<<((1<<j)-1)
    out=bytearray(200)
    for x in range(5):
        for y in range(5): out[8*(x+5*y):8*(x+5*y)+8]=A[x][y].to_bytes(8,'little')
    return out
RATE=166
class Strobe:
    def __init__(s,label):
        st=bytearray(200);st[0:6]=bytes([1,RATE+2,1,0,1,96]);st[6:18]=b"STROBEv1.0.2"
        s.st=keccakf(st);s.pos=0;s.pb=0;s.cf=0
        s.meta_ad(label,False)
    def runf(s):
        s.st[s.pos]^=s.pb;s.st[s.pos+1]^=0x04;s.st[RATE+1]^=0x80
        s.st=keccakf(s.st);s.pos=0;s.pb=0
    def absorb(s,d):
        for b in d:
            s.st[s.pos]^=b;s.pos+=1
            if s.pos==RATE:s.runf()
    def squeeze(s,n):
        o=[]
        for _ in range(n):
            o.append(s.st[s.pos]);s.st[s.pos]=0;s.pos+=1
            if s.pos==RATE:s.runf()
        return bytes(o)
    def begin(s,f,more):
        if more: return
        old=s.pb;s.pb=s.pos+1;s.cf=f
        s.absorb(bytes([old,f]))
        if f&(4|32) and s.pos!=0:s.runf()
    def meta_ad(s,d,more): s.begin(16|2,more);s.absorb(d)
    def ad(s,d,more): s.begin(2,more);s.absorb(d)
    def prf(s,n): s.begin(1|2|4,False);return s.squeeze(n)

def key(s, d):
    """STROBE KEY: overwrite instead of xor."""
    s.begin(2 | 4, False)
    for b in d:
        s.st[s.pos] = b
        s.pos += 1
        if s.pos == RATE:
            s.runf()

def committed(label, messages):
    """Model: [transcript], [commit_bytes] (External.v)."""
    s = Strobe(label)
    for l, m in messages:
        s.meta_ad(l, False)
        s.meta_ad(len(m).to_bytes(4, 'little'), True)
        s.ad(m, False)
    return s

def challenge(label, messages):
    """Model: [get_challenge] (ModelProofs.v)."""
    s = committed(label, messages)
    s.meta_ad(b"chal", False)
    s.meta_ad((64).to_bytes(4, 'little'), True)
    return int.from_bytes(s.prf(64), 'little') % L

def forked(label, seed):
    """Model: [reseed] without witnesses (External.v); yields scalars."""
    s = committed(label, [])
    s.meta_ad(b"rng", False)
    key(s, seed)
    while True:
        s.meta_ad((64).to_bytes(4, 'little'), False)
        yield int.from_bytes(s.prf(64), 'little') % L

def chacha_block(k, ctr):
    def r(x, n): return ((x << n) | (x >> (32 - n))) & 0xffffffff
    s = list(struct.unpack('<4I', b"expand 32-byte k")) + list(struct.unpack('<8I', k)) + [ctr & 0xffffffff, ctr >> 32, 0, 0]
    w = s[:]
    def qr(a, b, c, d):
        w[a] = (w[a] + w[b]) & 0xffffffff; w[d] = r(w[d] ^ w[a], 16)
        w[c] = (w[c] + w[d]) & 0xffffffff; w[b] = r(w[b] ^ w[c], 12)
        w[a] = (w[a] + w[b]) & 0xffffffff; w[d] = r(w[d] ^ w[a], 8)
        w[c] = (w[c] + w[d]) & 0xffffffff; w[b] = r(w[b] ^ w[c], 7)
    for _ in range(10):
        qr(0, 4, 8, 12); qr(1, 5, 9, 13); qr(2, 6, 10, 14); qr(3, 7, 11, 15)
        qr(0, 5, 10, 15); qr(1, 6, 11, 12); qr(2, 7, 8, 13); qr(3, 4, 9, 14)
    return struct.pack('<16I', *[(a + b) & 0xffffffff for a, b in zip(w, s)])

def phone_number_encode(digits):
    """Model: [number_layout], [phone_number_encode] (ModelPhone.v), short numbers."""
    b = bytes([15, 15]) + bytes(digits) + bytes([15, 15, len(digits)])
    return b + bytes(32 - len(b))

src = open(REPO + '/ffi/src/c.rs').read()
V = {}
for m in re.finditer(r"const (\w+): (?:&'static )?\[uint8_t(?:; \d+)?\] =\s*&?\s*\[([^\]]*)\]", src):
    V[m.group(1)] = bytes(int(x, 0) for x in m.group(2).replace('\n', ' ').split(',') if x.strip())

fails = 0
def check(what, ok):
    global fails
    fails += not ok
    print(('ok    ' if ok else 'WRONG ') + what)

num = lambda b: int.from_bytes(b, 'little')
stream = b''.join(chacha_block(V['SEED'], i) for i in range(64))   # ModelFfi.csprng_from_seed
wide = lambda o: num(stream[o:o + 64]) % L                          # scalar_random

# hunt_and_peck (ModelPrims.v): the first 32-byte block that decodes
hs = [stream[32 * i:32 * i + 32] for i in range(128)]
h_bytes = next(b for b in hs if b != enc(BASE) and dec(b))
check('hunt_and_peck gives the h of SYSTEM_PARAMETERS', V['SYSTEM_PARAMETERS'] == enc(BASE) + h_bytes)
check('the basepoint is RISTRETTO_BASEPOINT_COMPRESSED', enc(BASE) == V['RISTRETTO_BASEPOINT_COMPRESSED'])
g, h = BASE, dec(h_bytes)

# issuer_create, keypair_new, keypair_to_bytes (ModelIssuer.v, ModelAmacs.v)
x0, x1 = wide(0), wide(64)
X1 = mul(x1, h)
check('issuer_create gives ISSUER_KEYPAIR', V['ISSUER_KEYPAIR'] == enc(X1) + x0.to_bytes(32, 'little') + x1.to_bytes(32, 'little'))
check('its public half is ISSUER_PARAMETERS', V['ISSUER_PARAMETERS'] == enc(X1))

# signal_issue (ModelSignal.v, ModelIssuer.v), issuance_to_bytes (ModelCredential.v)
number = phone_number_encode(V['PHONE_NUMBER'])
m = num(number)
iss = V['ISSUANCE']
coins = forked(b"AEONFLUX ISSUANCE", stream[:32])
b, x0t = next(coins), next(coins)
P = mul(b, BASE)
Q = mul(x0 + x1 * m, P)
C = add(mul(x0, g), mul(x0t, h))
check('issue: commitment, nonce, MAC and attribute of ISSUANCE', iss[:128] == enc(C) + enc(P) + enc(Q) + number)
frames = lambda b: [b[i:i + 8] for i in range(0, len(b), 40)]
scalars = lambda b: [num(b[i + 8:i + 40]) for i in range(0, len(b), 40)]
check('issue: the proof is framed as in ir_serialize', set(frames(iss[128:])) == {(32).to_bytes(8, 'little')})
c, r0, r1, rt, rm = scalars(iss[128:])
points = [(b"P", P), (b"Q", Q), (b"Cx0", C), (b"B", g), (b"A", h), (b"X1", X1),
          (b"com Q", add(mul(r0 + rm, P), mul(-c, Q))),
          (b"com Cx0", add(add(mul(r0, g), mul(rt, h)), mul(-c, C))),
          (b"com X1", add(mul(r1, h), mul(-c, X1)))]
check('ir_verify accepts ISSUANCE',
      c == challenge(b"AEONFLUX ISSUANCE", [(b"domain-sep", b"issuance_revealed")] + [(l, enc(p)) for l, p in points]))

# signal_user_to_bytes (ModelSignal.v, ModelUser.v)
user = V['USER_WITH_CREDENTIAL']
check('USER_WITH_CREDENTIAL is laid out as in signal_user_to_bytes',
      user == number + V['SYSTEM_PARAMETERS'] + V['ISSUER_PARAMETERS'] + bytes(64) + iss[32:128])

# roster_create (ModelPhone.v), signal_show (ModelSignal.v, ModelUser.v)
pres = V['PRESENTATION']
opening = wide(0)
Cm1 = add(mul(m, h), mul(opening, g))
z0 = wide(0)
coins = forked(b"AEONFLUX SHOW", stream[64:96])
rr, zQ = next(coins), next(coins)
P2 = mul(rr, P)
CQ = add(mul(rr, Q), mul(zQ, h))
Cm0 = add(mul(m, P2), mul(z0, h))
check('show: the four points of PRESENTATION', pres[:128] == enc(Cm1) + enc(CQ) + enc(P2) + enc(Cm0))
check('C98: bytes 32 to 63 of ISSUER_KEYPAIR open the entry of PRESENTATION',
      Cm1 == add(mul(num(V['ISSUER_KEYPAIR'][32:64]), g), mul(m, h)))
check('show: the proofs are framed as in vc_serialize and ce_serialize', set(frames(pres[128:])) == {(32).to_bytes(8, 'little')})
c, m0, rz0, rzq, c2, m02, rz02, rz1 = scalars(pres[128:])
Vp = add(add(mul(x0, P2), mul(x1, Cm0)), ngp(CQ))
points = [(b"B", g), (b"A", h), (b"X0", X1), (b"P", P2), (b"V", Vp), (b"Cm0", Cm0),
          (b"com Cm0", add(add(mul(m0, P2), mul(rz0, h)), mul(-c, Cm0))),
          (b"com V", add(add(mul(rz0, X1), mul(rzq, h)), mul(-c, Vp)))]
check('issuer_verify accepts PRESENTATION',
      c == challenge(b"AEONFLUX SHOW", [(b"domain-sep", b"valid_credential")] + [(l, enc(p)) for l, p in points]))
points = [(b"B", g), (b"A", h), (b"P", P2), (b"Cm0", Cm0), (b"Cm1", Cm1),
          (b"com Cm0", add(add(mul(m02, P2), mul(rz02, h)), mul(-c2, Cm0))),
          (b"com Cm1", add(add(mul(m02, h), mul(rz1, g)), mul(-c2, Cm1)))]
check('verify_roster_membership accepts PRESENTATION',
      c2 == challenge(b"SIGNAL GROUP MEMBERSHIP", [(b"domain-sep", b"committed_values_equal")] + [(l, enc(p)) for l, p in points]))
sys.exit(fails > 0)
