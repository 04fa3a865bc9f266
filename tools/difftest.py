#!/usr/bin/env python3
"""Compare theories/Py.v, LotText.v and Chains.v with the Python that runs this script:
built-in functions only, nothing of /repo.  Usage: difftest.py SEED N > /tmp/D.v, then
compile /tmp/D.v with -Q rocq/theories Verif after building; it fails on a difference."""
import random, sys
seed, n = int(sys.argv[1]), int(sys.argv[2]); R = random.Random(seed)
def bs(b): return "([" + ";".join("x%02x" % x for x in b) + "] : bytes)"
def ps(s): return "([" + ";".join("%d" % ord(c) for c in s) + "]%N : pystr)"
def z(i): return "(%d)" % i
def rbytes(m=12): return bytes(R.choice([0, 1, 9, 10, 13, 34, 39, 92, 127, 128, 255, R.randrange(256)]) for _ in range(R.randrange(m)))
def rtext(m=10): return "".join(chr(R.choice([R.randrange(128), R.randrange(0x80, 0x800), R.randrange(0xD7F0, 0xE010), R.randrange(0x110000), 0xD800, 0xDFFF, 0xFFFF, 0x10000])) for _ in range(R.randrange(m)))
def hextext():
    return "".join(R.choice("0123456789abcdefABCDEF" * 2 + " \t\n\r\x0b\x0cgGxX\u0660\u00a0\x1c") if R.random() < .3 else R.choice(["%02x", "%02X", " %02x", "%02x "]) % R.randrange(256) for _ in range(R.randrange(6)))
def inttext():
    return "".join(R.choice(["0", "1", "9", "12", "_", "__", "+", "-", " ", "\n", "\t", "x", "0x", ".", "e1"]) for _ in range(R.randrange(6)))
def opt(x, f): return "None" if x is None else "(Some %s)" % f(x)
out = []
def check(l, r): out.append("  %s = %s" % (l, r))
def attempt(f, *exc):
    try: return f()
    except exc: return None
for _ in range(n):
    b = rbytes(); c = rbytes(4); i, j, k = R.randrange(14), R.randrange(14), R.randrange(1, 14)
    check("bytes_repr %s" % bs(b), ps(repr(b)))
    check("upto %d %s" % (i, bs(b)), bs(b[:i])); check("from %d %s" % (i, bs(b)), bs(b[i:]))
    check("slice %d %d %s" % (i, j, bs(b)), bs(b[i:j])); check("upto_neg %d %s" % (k, bs(b)), bs(b[:-k])); check("from_neg %d %s" % (k, bs(b)), bs(b[-k:]))
    check("startswith %s %s" % (bs(c), bs(b)), str(b.startswith(c)).lower())
    check("lstrip0 %s" % bs(b), bs(b.lstrip(b"\0"))); check("bytes_find %s x%02x" % (bs(b), i), z(b.find(bytes([i]))))
    check("tohex %s" % bs(b), ps(b.hex()))
    for e in ("big", "little"):
        for s in (True, False):
            check("from_bytes %s %s %s" % (bs(b), e.capitalize(), str(s).lower()), z(int.from_bytes(b, e, signed=s)))
            v = R.choice([0, 1, -1, 127, 128, -128, -129, 255, 256, R.randrange(-2**40, 2**40)]); m = R.choice([0, 1, 2, 4, 5, 6, 8])
            if v == -1 and m == 0: continue  # b'' before Python 3.13, by a bug; integer_to_bytes never asks for 0 bytes
            t = attempt(lambda: v.to_bytes(m, e, signed=s), OverflowError)
            check("match to_bytes %s %d %s %s with Ok b => Some b | Raise _ => None end" % (z(v), m, e.capitalize(), str(s).lower()), opt(t, bs))
    h = hextext(); check("fromhex %s" % ps(h), opt(attempt(lambda: bytes.fromhex(h), ValueError), bs))
    v = R.choice([0, R.randrange(-2**70, 2**70), 10**R.randrange(30)]); check("dec %s" % z(v), ps(str(v)))
    t = inttext(); check("int_of_str (fun s => s) %s" % ps(t), opt(attempt(lambda: int(t), ValueError), z))
    s = rtext()
    check("utf8_opt %s" % ps(s), opt(attempt(lambda: bytes(s, "utf-8"), UnicodeEncodeError), bs))
    for codec, fn in (("utf-8", "t_utf8_encode"), ("ascii", "t_ascii_encode")):
        try: r = "Fine " + bs(bytes(s, codec)); 
        except UnicodeEncodeError as x:
            r = 'Fails (Unencodable "%s" "%s" %s %d %d) []' % (x.encoding, x.reason, ps(x.object), x.start, x.end)
            check('unencodable_text "%s" "%s" %s %d %d' % (x.encoding, x.reason, ps(x.object), x.start, x.end), ps(str(x)))
        check("%s %s" % (fn, ps(s)), r)
    d = {R.choice("abc"): R.randrange(9) for _ in range(3)}
    check("dict_get %s [%s]" % (ps("b"), ";".join("(%s, %s)" % (ps(a), z(v)) for a, v in d.items())), opt(d.get("b"), z))
print("From Coq Require Import List ZArith NArith String.\nFrom Coq.Init Require Import Byte.\nFrom Verif Require Import Py LotText Chains.\nImport ListNotations.\nOpen Scope Z_scope.")
for a in out: print("Goal %s. Proof. vm_compute. reflexivity. Qed." % a.strip())
print("(* %d comparisons *)" % len(out))
