# Generates the constant tables of rocq/theories/Sha256.v (printed) and Aes.v (printed).
import math
def primes(n):
    r=[];k=2
    while len(r)<n:
        if all(k%p for p in r): r.append(k)
        k+=1
    return r
def icbrt(n):
    x=int(round(n**(1/3)))
    while x**3>n: x-=1
    while (x+1)**3<=n: x+=1
    return x
K=[icbrt(p<<96)&0xffffffff for p in primes(64)]
H=[math.isqrt(p<<64)&0xffffffff for p in primes(8)]
def xt(a): a<<=1; return (a^0x11b)&0xff if a&0x100 else a
def mul(a,b):
    r=0
    while b:
        if b&1: r^=a
        a=xt(a); b>>=1
    return r
inv=[0]*256
for a in range(1,256):
    for b in range(1,256):
        if mul(a,b)==1: inv[a]=b
def aff(b): 
    r=0
    for i in range(8):
        v=((b>>i)^(b>>((i+4)%8))^(b>>((i+5)%8))^(b>>((i+6)%8))^(b>>((i+7)%8))^(0x63>>i))&1
        r|=v<<i
    return r
S=[aff(inv[a]) for a in range(256)]
IS=[0]*256
for i,v in enumerate(S): IS[v]=i
def fmt(l,f,per):
    return ";\n    ".join("; ".join(f(x) for x in l[i:i+per]) for i in range(0,len(l),per))
print("H", fmt(H,lambda x:"0x%08x"%x,8)); print("K", fmt(K,lambda x:"0x%08x"%x,8))
print("S", fmt(S,lambda x:"x%02x"%x,16)); print("IS", fmt(IS,lambda x:"x%02x"%x,16))
