(** * AnyFuncs: the functions below the class BIP38 with arguments of any type.

    [Base58.v], [Utils.v], [Wif.v] and [P2PKHAddress.v] model the functions on the
    types of their annotations; this file models the same lines with every argument a
    [value] (AnyArgs.v).  The hash functions of crypto.py and get_bytes and
    bytes_to_string of utils.py take a [pyarg], which covers every type already.
    Simplification: in this file [VOther] is an object without special methods other
    than those behind bool() and str(): it has no length, cannot be indexed, iterated
    over, compared by < or converted to bytes, and is not equal to any text.
    bytearray, float, and lists of ints are not modelled.
    UnicodeDecodeError, a subclass of ValueError, is recorded as [ValueError]. *)
From Verif Require Import Py Prims Const Exceptions Utils Base58 Crypto Curve Secp256k1
  Cryptocurrencies P2PKHAddress Wif Bip38 AnyArgs.

(** ** Python: bytes.decode("utf-8"), strict *)
Definition between (lo hi b : byte) : bool :=
  (Byte.to_N lo <=? Byte.to_N b)%N && (Byte.to_N b <=? Byte.to_N hi)%N.
Definition cont (b : byte) : bool := between x80 xbf b.
(** the six low-order bits of a continuation byte *)
Definition low6 (b : byte) : N := (Byte.to_N b - 128)%N.
Fixpoint utf8_decode (l : bytes) : option pystr :=
  let put c r := match utf8_decode r with Some s => Some (c :: s) | None => None end in
  match l with
  | [] => Some []
  | a :: r =>
      if between x00 x7f a then put (Byte.to_N a) r
      else match r with
      | b :: r =>
          if between xc2 xdf a then
            if cont b then put ((Byte.to_N a - 192) * 64 + low6 b)%N r else None
          else match r with
          | c :: r =>
              if between xe0 xef a then
                if between (if Byte.eqb a xe0 then xa0 else x80) (if Byte.eqb a xed then x9f else xbf) b && cont c
                then put (((Byte.to_N a - 224) * 64 + low6 b) * 64 + low6 c)%N r else None
              else match r with
              | d :: r =>
                  if between xf0 xf4 a then
                    if between (if Byte.eqb a xf0 then x90 else x80) (if Byte.eqb a xf4 then x8f else xbf) b && cont c && cont d
                    then put ((((Byte.to_N a - 240) * 64 + low6 b) * 64 + low6 c) * 64 + low6 d)%N r else None
                  else None
              | [] => None
              end
          | [] => None
          end
      | [] => None
      end
  end.

(** ** libs/base58.py *)
(** base58.py:10-18, string_to_int: bytearray(text) without an encoding is a TypeError
    (line 14), and so is slicing anything else (line 16) *)
Definition string_to_int_any (data : value) : res Z :=
  match data with VBytes b => Ok (string_to_int b) | _ => Raise (Builtin TypeError) end.

(** base58.py:21-26, ensure_string *)
Definition ensure_string_any (data : value) : res pystr :=
  match data with
  | VBytes b => match utf8_decode b with Some s => Ok s | None => Raise (Builtin ValueError) end
  | VStr s => ensure_string s
  | _ => Raise (Builtin ValueError)
  end.

(** base58.py:29-39, encode.  A bytes object as alphabet is indexed by ints, which
    cannot be joined to text; when it is empty, divmod by its length comes first. *)
Definition encode_any (data alphabet : value) : res pystr :=
  let* val := string_to_int_any data in
  match data, alphabet with
  | VBytes b, VStr a => encode b a
  | _, VBytes [] => Raise (Builtin ZeroDivisionError)
  | _, _ => Raise (Builtin TypeError)
  end.

(** base58.py:42-44, check_encode: sha256 takes bytes only *)
Definition check_encode_any (P : prims) (raw alphabet : value) : res pystr :=
  match raw with
  | VBytes b => encode_any (VBytes (b ++ upto 4 (h_sha256 P (h_sha256 P b)))) alphabet
  | _ => Raise (Builtin TypeError)
  end.

(** base58.py:47-65, decode.  len(alphabet) is taken before alphabet.encode, for each
    character *)
Definition decode_any (data alphabet : value) : res bytes :=
  match data with
  | VStr s =>
      match alphabet with
      | VStr a => decode s a
      | _ =>
          let* chars := ascii_encode s in
          match chars, alphabet with
          | [], _ => Ok []
          | _ :: _, VBytes _ => Raise (Builtin AttributeError)
          | _ :: _, _ => Raise (Builtin TypeError)
          end
      end
  | _ => Raise (Builtin TypeError)
  end.

(** base58.py:68-74, check_decode *)
Definition check_decode_any (P : prims) (enc alphabet : value) : res bytes :=
  let* dec := decode_any enc alphabet in
  let raw := upto_neg 4 dec in
  let chk := from_neg 4 dec in
  if negb (bytes_eqb chk (upto 4 (h_sha256 P (h_sha256 P raw))))
  then Raise (Builtin ValueError)
  else Ok raw.

(** ** utils.py *)
(** An int or a bool, which is an int *)
Definition as_int (v : value) : option Z :=
  match v with VInt z => Some z | VBool b => Some (if b then 1 else 0) | _ => None end.

(** utils.py:38-51, bytes_reverse: bytearray(n) for an int n is n zero bytes *)
Definition bytes_reverse_any (data : value) : res bytes :=
  match data with
  | VBytes b => Ok (bytes_reverse b)
  | _ => match as_int data with
         | Some n => if n <? 0 then Raise (Builtin ValueError) else Ok (rev (repeat x00 (Z.to_nat n)))
         | None => Raise (Builtin TypeError)
         end
  end.

(** The argument byteorder of int.from_bytes and int.to_bytes *)
Definition byteorder (v : value) : res endian :=
  match v with
  | VStr s => if str_eqb s (str "little") then Ok Little
              else if str_eqb s (str "big") then Ok Big
              else Raise (Builtin ValueError)
  | _ => Raise (Builtin TypeError)
  end.

(** utils.py:77-92, bytes_to_integer; int.from_bytes looks at byteorder first *)
Definition bytes_to_integer_any (data endianness signed : value) : res Z :=
  let* e := byteorder endianness in
  match data with
  | VBytes b => Ok (bytes_to_integer_full b e (truth signed))
  | _ => Raise (Builtin TypeError)
  end.

(** utils.py:95-115, integer_to_bytes.  With a true bytes_num line 114 does not look at
    data, and line 115 looks up data.to_bytes. *)
Definition integer_to_bytes_any (data bytes_num endianness signed : value) : res bytes :=
  let* num :=
    if truth bytes_num then Ok bytes_num
    else match as_int data with
         | Some z => Ok (VInt (((if 0 <? z then bit_length z else 1) + 7) / 8))
         | None => Raise (Builtin TypeError)
         end in
  match as_int data with
  | None => Raise (Builtin AttributeError)
  | Some z =>
      match as_int num with
      | None => Raise (Builtin TypeError)
      | Some n => let* e := byteorder endianness in to_bytes z n e (truth signed)
      end
  end.
(** with the default arguments *)
Definition prefix_bytes (data : value) : res bytes :=
  integer_to_bytes_any data VNone (VStr (str "big")) (VBool false).

(** ** wif.py *)
(** wif.py:29-56, encode_wif *)
Definition encode_wif_any (P : prims) (private_key wif_prefix : value) : res (pystr * pystr) :=
  let* pk := get_bytes (as_arg private_key) true in
  if negb (Nat.eqb (List.length pk) 32) then
    let* n := py_len (as_arg private_key) in
    Raise (lib_error CSecp256k1Error (str "Invalid private key length") None (ExpOther (str "64") true) (dec n))
  else
    let* prefix := prefix_bytes wif_prefix in
    let wif_payload := prefix ++ pk in
    let* suffix := integer_to_bytes COMPRESSED_PRIVATE_KEY_PREFIX in
    let wif_compressed_payload := prefix ++ pk ++ suffix in
    let* chk := get_checksum P (PBytes wif_payload) in
    let* w := encode (wif_payload ++ chk) base58_alphabet in
    let* chk_c := get_checksum P (PBytes wif_compressed_payload) in
    let* wc := encode (wif_compressed_payload ++ chk_c) base58_alphabet in
    Ok (w, wc).

(** wif.py:59-94, decode_wif: the text is decoded before the prefix is looked at *)
Definition decode_wif_any (wif wif_prefix : value) : res (bytes * pystr * bytes) :=
  match wif with
  | VStr s =>
      match as_int wif_prefix with
      | Some w => decode_wif s w
      | None => let* raw := decode s base58_alphabet in Raise (Builtin TypeError)
      end
  | _ => Raise (Builtin TypeError)
  end.

(** cryptocurrency.NETWORKS[network]["wif_prefix"]: a class without NETWORKS, or any
    object that is not a class of a coin, has no such attribute.  (An instance of a
    coin class, which has it, is not modelled.)  Keys are texts. *)
Definition wif_prefix_any (cryptocurrency : coin_arg) (network : value) : res Z :=
  match cryptocurrency with
  | CoinClass c =>
      match network with VStr n => wif_prefix_of c n | _ => Raise (Builtin KeyError) end
  | _ => Raise (Builtin AttributeError)
  end.

(** wif.py:97-124, private_key_to_wif *)
Definition private_key_to_wif_any (P : prims) (private_key wif_type : value)
    (cryptocurrency : coin_arg) (network : value) : res pystr :=
  if negb (existsb (equals wif_type) WIF_TYPES) then
    Raise (lib_error CWIFError (str "Wrong WIF type") None (ExpList WIF_TYPES) (shown wif_type))
  else
    let* wp := wif_prefix_any cryptocurrency network in
    let* (wif, wif_compressed) := encode_wif_any P private_key (VInt wp) in
    Ok (if equals wif_type (str "wif") then wif else wif_compressed).

(** wif.py:127-146, 149-168, 171-190: wif_to_private_key, get_wif_type,
    get_wif_checksum *)
Definition wif_to_private_key_any (wif : value) (cryptocurrency : coin_arg) (network : value) : res pystr :=
  let* wp := wif_prefix_any cryptocurrency network in
  let* (pk, t, c) := decode_wif_any wif (VInt wp) in
  bytes_to_string (PBytes pk).
Definition get_wif_type_any (wif : value) (cryptocurrency : coin_arg) (network : value) : res pystr :=
  let* wp := wif_prefix_any cryptocurrency network in
  let* (pk, t, c) := decode_wif_any wif (VInt wp) in
  Ok t.
Definition get_wif_checksum_any (wif : value) (cryptocurrency : coin_arg) (network : value) : res pystr :=
  let* wp := wif_prefix_any cryptocurrency network in
  let* (pk, t, c) := decode_wif_any wif (VInt wp) in
  bytes_to_string (PBytes c).

(** ** p2pkh_address.py.  The keyword arguments are a dict from names to values. *)
Definition kwargs := list (pystr * value).
(** kwargs.get(name, default) *)
Definition kw_get (name : string) (d : value) (kw : kwargs) : value := default d (dict_get (str name) kw).

(** p2pkh_address.py:28-62, P2PKHAddress.encode; [inl] is a PublicKey object *)
Definition P2PKH_encode_any (P : prims) (public_key : pubkey + value) (kw : kwargs) : res pystr :=
  let* prefix := prefix_bytes (kw_get "address_prefix" (VInt default_address_prefix) kw) in
  let* k := match public_key with
            | inl k => Ok k
            | inr d => let* b := get_bytes (as_arg d) true in PublicKey_from_bytes b
            end in
  let* raw := if equals (kw_get "public_key_type" (VStr (str "compressed")) kw) (str "compressed")
              then raw_compressed k else raw_uncompressed k in
  let* h := hash160 P (PBytes raw) in
  let* s := check_encode_any P (VBytes (prefix ++ h)) (kw_get "alphabet" (VStr Bitcoin_ALPHABET) kw) in
  ensure_string s.

(** p2pkh_address.py:64-97, P2PKHAddress.decode *)
Definition P2PKH_decode_any (P : prims) (address : value) (kw : kwargs) : res pystr :=
  let* prefix := prefix_bytes (kw_get "address_prefix" (VInt default_address_prefix) kw) in
  let* d := check_decode_any P address (kw_get "alphabet" (VStr Bitcoin_ALPHABET) kw) in
  let expected_length := (20 + List.length prefix)%nat in
  if negb (Nat.eqb (List.length d) expected_length)
  then Raise (Lib CAddressError
    (str "Invalid length (expected: " ++ dec (Z.of_nat expected_length) ++ str ", got: " ++ dec (zlen d) ++ str ")")%list)
  else
    let prefix_got := upto (List.length prefix) d in
    if negb (bytes_eqb prefix prefix_got)
    then Raise (Lib CAddressError
      (str "Invalid prefix (expected: " ++ bytes_repr prefix ++ str ", got: " ++ bytes_repr prefix_got ++ str ")")%list)
    else bytes_to_string (PBytes (from (List.length prefix) d)).
