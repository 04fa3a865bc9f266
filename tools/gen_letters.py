#!/usr/bin/env python3
"""Writes rocq/theories/SpecLetters.v: for every WIF and address prefix of the coin
table the number of characters and the possible first characters of the texts.
A table to read; PropLetters.v proves it."""
import re
A="123456789ABCDEFGHJKLMNPQRSTUVWXYZabcdefghijkmnopqrstuvwxyz"
src=open('/verif/rocq/theories/Cryptocurrencies.v').read()
ws,as_=set(),set()
for m in re.finditer(r'\(0x([0-9a-f]+), 0x([0-9a-f]+)\)',src):
    ws.add(int(m[1],16)); as_.add(int(m[2],16))
def digits(v):
    n=0
    while v: v//=58; n+=1
    return n
def shape(p,r):
    lo=p*256**r; hi=(p+1)*256**r-1
    n=digits(lo); assert n==digits(hi),(hex(p),r)
    return n,A[lo//58**(n-1):hi//58**(n-1)+1]
out=[]
o=out.append
o('''(** * SpecLetters: how many characters the WIFs and addresses of each network have and
    with which characters they can begin.  A table to read, written by
    tools/gen_letters.py; PropLetters.v proves it.  Nothing here refers to the model. *)
From Verif Require Import Py Spec.

(** [s] has [n] characters and begins with one of [letters]. *)
Definition looks_like (s : pystr) (n : Z) (letters : string) : Prop :=
  zlen s = n /\\ exists c rest, In c (str letters) /\\ s = c :: rest.
Local Open Scope string_scope. Local Open Scope Z_scope.
''')
o('(** WIF prefix; uncompressed and compressed WIFs *)')
o('Definition wif_looks : list (Z * ((Z * string) * (Z * string))) :=')
o('  ['+';\n   '.join('(0x%02x, ((%d, "%s"), (%d, "%s")))'%((w,)+shape(w,36)+shape(w,37)) for w in sorted(ws))+'].')
o('(** address prefix other than 0 (for which see C79_address_zero); addresses *)')
o('Definition address_looks : list (Z * (Z * string)) :=')
o('  ['+';\n   '.join('(0x%02x, (%d, "%s"))'%((a,)+shape(a,24)) for a in sorted(as_) if a)+'].')
open('/verif/rocq/theories/SpecLetters.v','w').write('\n'.join(out)+'\n')
