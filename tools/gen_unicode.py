#!/usr/bin/env python3
"""Writes rocq/theories/UnicodeTables.v: the canonical decompositions, the combining
classes and the composition exclusions of the Unicode Character Database, as
Python's unicodedata has them."""
import unicodedata as u
d,ccc,ex=[],[],[]
for c in range(0x110000):
    ch=chr(c); x=u.decomposition(ch)
    if x and not x.startswith('<'):
        l=[int(y,16) for y in x.split()]
        d.append((c,l))
        if len(l)==2 and u.normalize('NFC',ch)!=ch: ex.append(c)
    if u.combining(ch): ccc.append((c,u.combining(ch)))
h=lambda n:'0x%x'%n
def lines(items,sep='; ',width=110):
    out,cur=[],''
    for i,x in enumerate(items):
        x=x+(sep if i<len(items)-1 else '')
        if len(cur)+len(x)>width: out.append(cur.rstrip()); cur=''
        cur+=x
    out.append(cur)
    return '\n   '.join(out)
o=[]
o.append('''(** * UnicodeTables: from the Unicode Character Database %s, as in Python's
    unicodedata; written by tools/gen_unicode.py.  Data only.  (Later versions of
    Unicode add characters and change nothing here: the Unicode Stability Policy.) *)
From Coq Require Import List NArith.
Import ListNotations.
Local Open Scope N_scope.
'''%u.unidata_version)
o.append('(** Canonical decompositions of one step (without the Hangul syllables) *)')
o.append('Definition decompositions : list (N * list N) :=\n  ['+lines(['(%s, [%s])'%(h(c),'; '.join(map(h,l))) for c,l in d])+'].')
o.append('(** Canonical combining classes other than 0 *)')
o.append('Definition combining_classes : list (N * N) :=\n  ['+lines(['(%s, %d)'%(h(c),k) for c,k in ccc])+'].')
o.append('(** Characters with a decomposition into two that are never composed again *)')
o.append('Definition composition_exclusions : list N :=\n  ['+lines([h(c) for c in ex])+'].')
open('/verif/rocq/theories/UnicodeTables.v','w').write('\n'.join(o)+'\n')
