(** * Buffers: the functions that take bytes, given a bytearray.

    The other files model bytes, which never change.  A bytearray is an object whose
    contents the caller, or another thread of the caller, may change at any time, also
    while the function runs.  This file models the same lines of utils.py, crypto.py,
    libs/base58.py, wif.py, p2pkh_address.py, secp256k1/ and bip38.py as programs that
    make, read and write such objects.  memoryview, array and subclasses are not modelled,
    and neither is libs/ripemd160.py given a bytearray.  Python 3.11 to 3.13 (in 3.14
    bytes.fromhex takes bytes-like objects). *)
From Verif Require Import Py Prims Const Exceptions Utils Base58 Crypto Curve Secp256k1
  Cryptocurrencies P2PKHAddress Wif Bip38.

(** ** Programs *)
(** A bytearray that was there before the call, or the k-th made by the call *)
Inductive object := Theirs (a : nat) | Ours (k : nat).
Inductive prog (A : Type) :=
| Done (r : res A)
| New (b : bytes) (k : object -> prog A)      (* bytearray(b) *)
| Get (o : object) (k : bytes -> prog A)      (* its contents now *)
| Put (o : object) (b : bytes) (k : prog A).  (* new contents *)
Arguments Done {A}. Arguments New {A}. Arguments Get {A}. Arguments Put {A}.
Fixpoint andthen {A B} (p : prog A) (f : A -> prog B) : prog B :=
  match p with
  | Done (Ok a) => f a
  | Done (Raise e) => Done (Raise e)
  | New b k => New b (fun o => andthen (k o) f)
  | Get o k => Get o (fun b => andthen (k b) f)
  | Put o b k => Put o b (andthen k f)
  end.
Notation "'let?' x ':=' m 'in' f" := (andthen m (fun x => f)) (at level 200, x pattern, right associativity).
Definition ret {A} (a : A) : prog A := Done (Ok a).

(** Running a program while others change their objects: [env i a] is what the object
    [a] holds at the i-th step; [priv] is what the objects made by the call hold.  The
    result comes with what the call writes to objects of others. *)
Fixpoint update (k : nat) (b : bytes) (l : list bytes) : list bytes :=
  match l, k with
  | [], _ => []
  | _ :: r, O => b :: r
  | x :: r, S k => x :: update k b r
  end.
Fixpoint run {A} (env : nat -> nat -> bytes) (i : nat) (p : prog A) (priv : list bytes)
    : list (nat * bytes) * res A :=
  match p with
  | Done r => ([], r)
  | New b k => run env (S i) (k (Ours (List.length priv))) (priv ++ [b])
  | Get (Theirs a) k => run env (S i) (k (env i a)) priv
  | Get (Ours j) k => run env (S i) (k (nth j priv [])) priv
  | Put (Theirs a) b k => let (w, r) := run env (S i) k priv in ((a, b) :: w, r)
  | Put (Ours j) b k => run env (S i) k (update j b priv)
  end.

(** A bytes object or a bytearray *)
Inductive data := Const (b : bytes) | Array (o : object).
Definition read (d : data) : prog bytes :=
  match d with Const b => ret b | Array o => Get o ret end.
(** d + b: of the type of d, a new object *)
Definition plus (d : data) (b : bytes) : prog data :=
  match d with
  | Const a => ret (Const (a ++ b))
  | Array o => Get o (fun a => New (a ++ b) (fun o => ret (Array o)))
  end.

(** ** libs/base58.py *)
(** base58.py:10-18, string_to_int: data[::-1] copies the bytearray *)
Definition b_string_to_int (data : data) : prog Z :=
  let? b := read data in ret (string_to_int b).

(** base58.py:29-39, encode: data is read by string_to_int, by len and by lstrip.  A
    difference below zero (line 38) repeats the letter no times. *)
Definition b_encode (data : data) (alphabet : pystr) : prog pystr :=
  let? val := b_string_to_int data in
  let? enc := Done (encode_loop (S (Z.to_nat (Z.log2 val))) alphabet val []) in
  let? whole := read data in
  let? stripped := read data in
  let n := (List.length whole - List.length (lstrip0 stripped))%nat in
  let? c0 := Done (char_at alphabet 0) in
  ret (repeat c0 n ++ enc).

(** base58.py:42-44, check_encode *)
Definition b_check_encode (P : prims) (raw : data) (alphabet : pystr) : prog pystr :=
  let? b := read raw in
  let chk := upto 4 (h_sha256 P (h_sha256 P b)) in
  let? all := plus raw chk in
  b_encode all alphabet.

(** base58.py:58-61, the loop that fills the bytearray dec; [fuel] as in [bytes_loop] *)
Fixpoint b_bytes_loop (fuel : nat) (val : Z) (dec : object) : prog unit :=
  if 0 <? val then
    match fuel with
    | O => Done (Raise (Builtin NonTermination))
    | S f => Get dec (fun b => Put dec (b ++ [z2b (val mod 256)]) (b_bytes_loop f (val / 256) dec))
    end
  else ret tt.

(** base58.py:47-65, decode *)
Definition b_decode (data : pystr) (alphabet : pystr) : prog bytes :=
  let? data := Done (ascii_encode data) in
  let? (val, prefix) := Done (decode_loop alphabet data 0 O) in
  New [] (fun dec =>
    let? _ := b_bytes_loop (S (Z.to_nat (Z.log2 val))) val dec in
    New (repeat x00 prefix) (fun zeros =>
      Get zeros (fun z => Get dec (fun b => Put dec (b ++ z)
        (Get dec (fun b => ret (rev b))))))).

(** base58.py:68-74, check_decode *)
Definition b_check_decode (P : prims) (enc : pystr) (alphabet : pystr) : prog bytes :=
  let? dec := b_decode enc alphabet in
  let raw := upto_neg 4 dec in
  let chk := from_neg 4 dec in
  if negb (bytes_eqb chk (upto 4 (h_sha256 P (h_sha256 P raw))))
  then Done (Raise (Builtin ValueError))
  else ret raw.

(** ** utils.py *)
(** An argument: a bytearray or anything else *)
Inductive arg := Plain (p : pyarg) | Buffer (o : object).
(** bool(a) *)
Definition b_truthy (a : arg) : prog bool :=
  match a with
  | Plain p => ret (truthy p)
  | Buffer o => Get o (fun b => ret (negb (Nat.eqb (List.length b) 0)))
  end.
(** len(a) *)
Definition b_len (a : arg) : prog Z :=
  match a with Plain p => Done (py_len p) | Buffer o => Get o (fun b => ret (zlen b)) end.

(** utils.py:12-35, get_bytes: a bytearray is neither bytes nor str *)
Definition b_get_bytes (a : arg) (unhexlify : bool) : prog bytes :=
  let? t := b_truthy a in
  if negb t then ret []
  else match a with
       | Plain p => Done (get_bytes p unhexlify)
       | Buffer _ => Done (Raise (Builtin TypeError))
       end.

(** utils.py:38-51, bytes_reverse *)
Definition b_bytes_reverse (data : data) : prog bytes :=
  let? b := read data in
  New b (fun tmp => Get tmp (fun b => Put tmp (rev b) (Get tmp ret))).

(** utils.py:54-74, bytes_to_string: bytes.fromhex takes no bytearray (its TypeError is
    caught), and bytes(data, 'utf-8') takes none either *)
Definition b_bytes_to_string (a : arg) : prog pystr :=
  let? t := b_truthy a in
  if negb t then ret []
  else match a with
       | Plain p => Done (bytes_to_string p)
       | Buffer _ => Done (Raise (Builtin TypeError))
       end.

(** utils.py:77-92, bytes_to_integer *)
Definition b_bytes_to_integer (data : data) (endianness : endian) (signed : bool) : prog Z :=
  let? b := read data in ret (bytes_to_integer_full b endianness signed).

(** ** crypto.py *)
(** crypto.py:16-31, ripemd160 *)
Definition b_ripemd160 (P : prims) (a : arg) : prog bytes :=
  let? b := b_get_bytes a true in Done (crypto_ripemd160 P (PBytes b)).
(** crypto.py:34-45, sha256 *)
Definition b_sha256 (P : prims) (a : arg) : prog bytes :=
  let? b := b_get_bytes a true in ret (h_sha256 P b).
(** crypto.py:48-59, double_sha256 *)
Definition b_double_sha256 (P : prims) (a : arg) : prog bytes :=
  let? d := b_sha256 P a in b_sha256 P (Plain (PBytes d)).
(** crypto.py:62-76, get_checksum *)
Definition b_get_checksum (P : prims) (a : arg) : prog bytes :=
  let? d := b_double_sha256 P a in ret (upto CHECKSUM_BYTE_LENGTH d).
(** crypto.py:79-90, hash160 *)
Definition b_hash160 (P : prims) (a : arg) : prog bytes :=
  let? d := b_sha256 P a in b_ripemd160 P (Plain (PBytes d)).

(** ** wif.py *)
(** wif.py:29-56, encode_wif: get_bytes is called for the length (line 44) and twice for
    the payloads (lines 48 and 51); len is that of the argument itself (line 45) *)
Definition b_encode_wif (P : prims) (private_key : arg) (wif_prefix : Z) : prog (pystr * pystr) :=
  let? pk := b_get_bytes private_key true in
  if negb (Nat.eqb (List.length pk) 32) then
    let? n := b_len private_key in
    Done (Raise (lib_error CSecp256k1Error (str "Invalid private key length") None (ExpOther (str "64") true) (dec n)))
  else
    let? prefix := Done (integer_to_bytes wif_prefix) in
    let? pk := b_get_bytes private_key true in
    let wif_payload := prefix ++ pk in
    let? pk := b_get_bytes private_key true in
    let? suffix := Done (integer_to_bytes COMPRESSED_PRIVATE_KEY_PREFIX) in
    let wif_compressed_payload := prefix ++ pk ++ suffix in
    let? chk := Done (get_checksum P (PBytes wif_payload)) in
    let? w := Done (encode (wif_payload ++ chk) base58_alphabet) in
    let? chk_c := Done (get_checksum P (PBytes wif_compressed_payload)) in
    let? wc := Done (encode (wif_compressed_payload ++ chk_c) base58_alphabet) in
    ret (w, wc).

(** wif.py:97-124, private_key_to_wif *)
Definition b_private_key_to_wif (P : prims) (private_key : arg) (wif_type : pystr)
    (cryptocurrency : coin) (network : pystr) : prog pystr :=
  if negb (str_in wif_type WIF_TYPES) then
    Done (Raise (lib_error CWIFError (str "Wrong WIF type") None (ExpList WIF_TYPES) wif_type))
  else
    let? wp := Done (wif_prefix_of cryptocurrency network) in
    let? (wif, wif_compressed) := b_encode_wif P private_key wp in
    ret (if str_eqb wif_type (str "wif") then wif else wif_compressed).

(** ** secp256k1 *)
(** private_key.py:32-51 and public_key.py:35-54, from_bytes: ecdsa takes bytearrays.
    Simplification: it reads them once. *)
Definition b_PrivateKey_from_bytes (private_key : data) : prog privkey :=
  let? b := read private_key in Done (PrivateKey_from_bytes b).
Definition b_PublicKey_from_bytes (public_key : data) : prog pubkey :=
  let? b := read public_key in Done (PublicKey_from_bytes b).

(** ** p2pkh_address.py *)
(** p2pkh_address.py:28-62, P2PKHAddress.encode with a public key that is no object *)
Definition b_P2PKH_encode (P : prims) (public_key : arg)
    (address_prefix : option Z) (public_key_type : option pystr) (alphabet : option pystr) : prog pystr :=
  let? _ := Done (integer_to_bytes (default default_address_prefix address_prefix)) in
  let? b := b_get_bytes public_key true in
  let? k := Done (PublicKey_from_bytes b) in
  Done (P2PKH_encode P (PKObj k) address_prefix public_key_type alphabet).

(** ** bip38.py *)
(** bip38.py:90-151, BIP38.intermediate_code: line 122 is
    get_bytes(owner_salt) if owner_salt else os.urandom(8), and nothing after it looks at
    the argument; the rest is that of Bip38.v with the salt drawn *)
Definition b_intermediate_code (P : prims) (urandom : bytes) (passphrase : pystr)
    (lot sequence : option Z) (owner_salt : arg) : prog pystr :=
  let? t := b_truthy owner_salt in
  let? salt := if t then b_get_bytes owner_salt true else ret urandom in
  Done (intermediate_code P salt passphrase lot sequence PNone).

(** bip38.py:236-355, BIP38.create_new_encrypted_wif: the network is chosen before line 263
    looks at seed, and nothing after it does *)
Definition b_create_new_encrypted_wif (P : prims) (urandom : bytes) (self : bip38)
    (intermediate_passphrase wif_type : pystr) (seed : arg) (network : option pystr) : prog new_wif :=
  let? _ := Done (select_network self network) in
  let? t := b_truthy seed in
  let? seed_b := if t then b_get_bytes seed true else ret urandom in
  Done (create_new_encrypted_wif P seed_b self intermediate_passphrase wif_type PNone network).
