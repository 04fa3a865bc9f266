#!/usr/bin/env python3
"""Generates rocq/theories/Vectors.v: the assertions of /repo/tests (values.json)
as computations in the model.  The values of scrypt are computed here (hashlib);
everything else is computed by Coq.  Nothing of /repo is executed.

With the argument "all", every assertion of the test file is written to the file
named by the second argument; without it, a selection that compiles in a few
minutes (one multiplication on the curve takes Coq about 12 seconds)."""
import json, hashlib, sys, unicodedata
ALL = sys.argv[1:2] == ['all']
SLOW = ()  # coqchk has no virtual machine: one scalar multiplication takes minutes there
D = json.load(open('/repo/tests/data/values.json'))
p = 2**256 - 2**32 - 977
n = 0xFFFFFFFFFFFFFFFFFFFFFFFFFFFFFFFEBAAEDCE6AF48A03BBFD25E8CD0364141
G = (0x79BE667EF9DCBBAC55A06295CE870B07029BFCDB2DCE28D959F2815B16F81798, 0x483ADA7726A3C4655DA4FBFC0E1108A8FD17B448A68554199C47D08FFB10D4B8)
def add(P, Q):
    if P is None: return Q
    if Q is None: return P
    if P[0] == Q[0]:
        if (P[1] + Q[1]) % p == 0: return None
        l = 3*P[0]*P[0]*pow(2*P[1], -1, p) % p
    else: l = (Q[1]-P[1])*pow(Q[0]-P[0], -1, p) % p
    x = (l*l-P[0]-Q[0]) % p
    return x, (l*(P[0]-x)-P[1]) % p
def mul(k, P):
    R = None
    while k:
        if k & 1: R = add(R, P)
        P = add(P, P); k >>= 1
    return R
def comp(P): return bytes([2+(P[1] & 1)]) + P[0].to_bytes(32, 'big')
AL = "123456789ABCDEFGHJKLMNPQRSTUVWXYZabcdefghijkmnopqrstuvwxyz"
def unb58(s, ln):
    v = 0
    for c in s: v = v*58 + AL.index(c)
    return v.to_bytes(ln, 'big')
dsha = lambda b: hashlib.sha256(hashlib.sha256(b).digest()).digest()
T = []
def scrypt(pw, salt, N, r, pp, ln):
    v = hashlib.scrypt(pw, salt=salt, n=N, r=r, p=pp, dklen=ln, maxmem=2**27)
    e = (pw.hex(), salt.hex(), N, r, pp, ln, v.hex())
    if e not in T: T.append(e)
    return v
def norm(s): return unicodedata.normalize('NFC', s).encode()
def factor(pw, ent, lot):
    pre = scrypt(norm(pw), ent[:4] if lot else ent, 16384, 8, 8, 32)
    return dsha(pre + ent) if lot else pre
def passpoint(pw, ent, lot): return comp(mul(int.from_bytes(factor(pw, ent, lot), 'big'), G))
B = D['bip38']
for x in B['intermediate_code']:
    s = bytes.fromhex(x['owner_salt'])
    if x['lot'] is None: passpoint(x['passphrase'], s, False)
    else: passpoint(x['passphrase'], s[:4] + (x['lot']*4096+x['sequence']).to_bytes(4, 'big'), True)
for x in B['encrypt']:
    scrypt(norm(x['passphrase']), unb58(x['encrypted_wif'], 43)[3:7], 16384, 8, 8, 64)
for x in B['create_new_encrypted_wif']:
    c = unb58(x['intermediate_passphrase'], 53); e = unb58(x['encrypted_wif'], 43)
    scrypt(c[16:49], e[3:7] + c[8:16], 1024, 1, 1, 64)
for x in B['confirm_code']:
    for pw in (x['passphrase'], 'FAKE_PASSPHRASE'):
        c = unb58(x['confirmation_code'], 55); ent = c[10:18]
        scrypt(passpoint(pw, ent, bool(c[5] & 4)), c[6:10] + ent, 1024, 1, 1, 64)
for x in B['decrypt']:
    e = unb58(x['encrypted_wif'], 43)
    if e[1] == 0x42: scrypt(norm(x['passphrase']), e[3:7], 16384, 8, 8, 64)
    else: scrypt(passpoint(x['passphrase'], e[7:15], bool(e[2] & 4)), e[3:15], 1024, 1, 1, 64)

o = []
w = o.append
def st(s):
    if s is None: return 'None'
    if all(ord(c) < 128 for c in s): return '(str "%s")' % s
    return '[' + '; '.join('%d%%N' % ord(c) for c in s) + ']'
def hx(s): return '(h2b "%s")' % s
def oz(v): return 'None' if v is None else '(Some %d)' % v
def os_(v): return 'None' if v is None else '(Some %s)' % st(v)
w('''(** * Vectors: the assertions of /repo/tests/*.py on /repo/tests/data/values.json,
    computed in the model.  Generated by tools/gen_vectors.py.

    SHA-256, RIPEMD-160, AES-256 and the curve are computed by Coq; scrypt with
    the parameters of BIP38 is out of reach of [vm_compute], so its values on the
    inputs of the test file are a table.  These are tests of the model (does it
    compute what the published vectors say), not proofs of properties.  Assertions
    that need a scalar multiplication are left out here, because coqchk, which has
    no virtual machine, takes minutes for each; 'gen_vectors.py all' writes them
    too, and all of them were checked once. *)
From Verif Require Import Py Prims Const Utils Exceptions Base58 Crypto Curve Secp256k1 Cryptocurrencies P2PKHAddress Wif Bip38
  Sha256 Aes SpecRipemd Instances Unicode.

Definition h2b (s : string) : bytes := match fromhex (str s) with Some b => b | None => [] end.
Definition scrypt_table : list (bytes * bytes * (Z * Z * Z * Z) * bytes) := [''')
w(';\n'.join('  (%s, %s, (%d, %d, %d, %d), %s)' % (hx(a), hx(b), N, r, q, l, hx(v)) for a, b, N, r, q, l, v in T))
w('''].
Fixpoint lookup (t : list (bytes * bytes * (Z * Z * Z * Z) * bytes)) (pw salt : bytes) (N r p : Z) (len : nat) : bytes :=
  match t with
  | [] => repeat x00 len
  | (pw', salt', (N', r', p', len'), v) :: t' =>
      if bytes_eqb pw pw' && bytes_eqb salt salt' && (N =? N') && (r =? r') && (p =? p') && (Z.of_nat len =? len') then v
      else lookup t' pw salt N r p len
  end%bool.
Definition vec : prims :=
  {| h_sha256 := Sha256.sha256; h_ripemd160 := Some rmd160; h_scrypt := lookup scrypt_table;
     h_aes_enc := aes256_enc; h_aes_dec := aes256_dec; h_nfc := Unicode.nfc |}.
Definition bitcoin (network : string) : bip38 :=
  match bip38_init (CoinClass coin_Bitcoin) (str network) with
  | Ok b => b
  | Raise _ => {| s_cryptocurrency := coin_Bitcoin; s_network := []; s_networks := []; s_alphabet := [] |}
  end.
Definition lib_class_dec (a b : lib_class) : {a = b} + {a <> b}. Proof. decide equality. Defined.
Definition raises {A} (c : lib_class) (r : res A) : bool := match r with Raise (Lib c' _) => if lib_class_dec c c' then true else false | _ => false end.
''')
def ex(name, stm):
    slow = name.startswith(('intermediate', 'encrypt', 'create', 'confirm', 'decrypt')) and 'fake_network' not in name and 'fake_code' not in name
    if slow and not ALL and name not in SLOW: return
    w('Example %s : %s.\nProof. vm_compute. reflexivity. Qed.' % (name, stm))
# scrypt itself: the first vector of RFC 7914, and one entry of the table with the light parameters
w('Example scrypt_rfc7914 : tohex (scrypt [] [] 16 1 1 64) = %s.\nProof. vm_compute. reflexivity. Qed.' % st('77d6576238657b203b19ca42c18a0497f16b4844e3074ae8dfdffa3fede21442fcd0069ded0948f8326a753a0fc81f17e8d3e0fb2e0d3628cf35e20c38d18906'))
a_, b_, N_, r_, q_, l_, v_ = [e for e in T if e[2] == 1024][0]
if ALL: w('Example scrypt_light : scrypt %s %s %d %d %d %d = %s.\nProof. vm_compute. reflexivity. Qed.' % (hx(a_), hx(b_), N_, r_, q_, l_, hx(v_)))
for i, x in enumerate(B['intermediate_code']):
    ex('intermediate_%d' % i, 'intermediate_code vec [] %s %s %s (PStr %s) = Ok %s' % (st(x['passphrase']), oz(x['lot']), oz(x['sequence']), st(x['owner_salt']), st(x['intermediate_passphrase'])))
for i, x in enumerate(B['encrypt']):
    ex('encrypt_%d' % i, 'encrypt vec (bitcoin "%s") %s %s None = Ok %s' % (x['network'], st(x['wif']), st(x['passphrase']), st(x['encrypted_wif'])))
    ex('encrypt_fake_%d' % i, 'raises CNetworkError (encrypt vec (bitcoin "%s") %s %s (Some (str "FAKE_NETWORK"))) = true' % (x['network'], st(x['wif']), st(x['passphrase'])))
for i, x in enumerate(B['create_new_encrypted_wif']):
    ex('create_%d' % i, '''create_new_encrypted_wif vec [] (bitcoin "mainnet") %s %s (PStr %s) None = Ok
    {| n_encrypted_wif := %s; n_confirmation_code := %s; n_public_key := %s; n_seed := %s; n_public_key_type := %s; n_address := %s |}''' % tuple(map(st, (x['intermediate_passphrase'], x['wif_type'], x['seed'], x['encrypted_wif'], x['confirmation_code'], x['public_key'], x['seed'], x['public_key_type'], x['address']))))
    ex('create_fake_code_%d' % i, 'raises CPassphraseError (create_new_encrypted_wif vec [] (bitcoin "mainnet") (str "FAKE_PASSPHRASE") %s (PStr %s) None) = true' % (st(x['wif_type']), st(x['seed'])))
    ex('create_fake_network_%d' % i, 'raises CNetworkError (create_new_encrypted_wif vec [] (bitcoin "mainnet") %s %s (PStr %s) (Some (str "FAKE_NETWORK"))) = true' % (st(x['intermediate_passphrase']), st(x['wif_type']), st(x['seed'])))
for i, x in enumerate(B['confirm_code']):
    a = (st(x['passphrase']), st(x['confirmation_code']))
    ex('confirm_%d' % i, 'confirm_code vec (bitcoin "mainnet") %s %s None false = Ok (CAddress %s)' % (*a, st(x['address'])))
    ex('confirm_detail_%d' % i, '''confirm_code vec (bitcoin "mainnet") %s %s None true = Ok (CDetail
    {| c_public_key := %s; c_public_key_type := %s; c_address := %s; c_lot := %s; c_sequence := %s |})''' % (*a, st(x['public_key']), st(x['public_key_type']), st(x['address']), oz(x['lot']), oz(x['sequence'])))
    ex('confirm_fake_network_%d' % i, 'raises CNetworkError (confirm_code vec (bitcoin "mainnet") %s %s (Some (str "FAKE_NETWORK")) false) = true' % a)
    ex('confirm_fake_code_%d' % i, 'raises CError (confirm_code vec (bitcoin "mainnet") %s (str "FAKE_CONFIRMATION_CODE") None false) = true' % a[0])
    ex('confirm_fake_passphrase_%d' % i, 'raises CPassphraseError (confirm_code vec (bitcoin "mainnet") (str "FAKE_PASSPHRASE") %s None false) = true' % a[1])
for i, x in enumerate(B['decrypt']):
    a = (x['network'], st(x['encrypted_wif']), st(x['passphrase']))
    ex('decrypt_%d' % i, 'decrypt vec (bitcoin "%s") %s %s None false = Ok (DWif %s)' % (*a, st(x['wif'])))
    ex('decrypt_detail_%d' % i, '''decrypt vec (bitcoin "%s") %s %s None true = Ok (DDetail
    {| d_wif := %s; d_private_key := %s; d_wif_type := %s; d_public_key := %s; d_public_key_type := %s; d_seed := %s; d_address := %s; d_lot := %s; d_sequence := %s |})''' % (*a, st(x['wif']), st(x['private_key']), st(x['wif_type']), st(x['public_key']), st(x['public_key_type']), os_(x['seed']), st(x['address']), oz(x['lot']), oz(x['sequence'])))
    ex('decrypt_fake_network_%d' % i, 'raises CNetworkError (decrypt vec (bitcoin "%s") %s %s (Some (str "FAKE_NETWORK")) true) = true' % a)
c = D['crypto']
for f, m in (('ripemd160', 'crypto_ripemd160'), ('sha256', 'Crypto.sha256'), ('double_sha256', 'double_sha256'), ('get_checksum', 'get_checksum'), ('hash160', 'hash160')):
    ex('crypto_%s' % f, '%s vec (PStr %s) = Ok %s' % (m, st(c['data']), hx(c[f])))
W = D['wif']
for net in W['compressed']['wif']:
    pre = {'mainnet': 0x80, 'testnet': 0xef, 'regtest': 0xef}[net]
    ex('wif_%s' % net, 'encode_wif vec (PStr %s) %d = Ok (%s, %s)' % (st(W['private_key']), pre, st(W['uncompressed']['wif'][net]), st(W['compressed']['wif'][net])))
    for k in ('compressed', 'uncompressed'):
        ex('unwif_%s_%s' % (net, k), 'decode_wif %s %d = Ok (%s, %s, %s)' % (st(W[k]['wif'][net]), pre, hx(W['private_key']), st(W[k]['wif_type']), hx(W[k]['wif_checksum'][net])))
A = D['p2pkh_address']
for k in A:
    x = A[k]
    ex('address_%s' % k, 'P2PKH_encode vec (PKData (PStr %s)) (Some %d) (Some %s) None = Ok %s' % (st(x['public_key']), int(x['args']['public_key_address_prefix'], 16), st(x['args']['public_key_type']), st(x['encode'])))
    ex('unaddress_%s' % k, 'P2PKH_decode vec %s (Some %d) None = Ok %s' % (st(x['encode']), int(x['args']['public_key_address_prefix'], 16), st(x['decode'])))
open(sys.argv[2] if ALL else '/verif/rocq/theories/Vectors.v', 'w').write('\n'.join(o) + '\n')
print(len(T), 'scrypt values')
