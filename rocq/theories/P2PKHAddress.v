(** * P2PKHAddress: /repo/bip38/p2pkh_address.py *)
From Verif Require Import Py Prims Const Utils Base58 Crypto Secp256k1 Cryptocurrencies.

(** p2pkh_address.py:25-26: address_prefix = Bitcoin.NETWORKS["mainnet"]["address_prefix"],
    alphabet = Bitcoin.ALPHABET *)
Definition default_address_prefix : Z :=
  match dict_get (str "mainnet") (c_networks coin_Bitcoin) with Some (_, a) => a | None => 0 end.
Definition Bitcoin_ALPHABET : pystr :=
  match c_alphabet coin_Bitcoin with Some a => a | None => [] end.

Definition default {A} (d : A) (o : option A) : A := match o with Some a => a | None => d end.

(** The public_key argument: a PublicKey object, or str/bytes. *)
Inductive pubkey_arg := PKObj (k : pubkey) | PKData (d : pyarg).

(** p2pkh_address.py:28-62, P2PKHAddress.encode; each [option] is a keyword
    argument, [None] when it is not given *)
Definition P2PKH_encode (P : prims) (public_key : pubkey_arg)
    (address_prefix : option Z) (public_key_type : option pystr) (alphabet : option pystr)
    : res pystr :=
  let* prefix := integer_to_bytes (default default_address_prefix address_prefix) in
  let* k := match public_key with
            | PKObj k => Ok k
            | PKData d => let* b := get_bytes d true in PublicKey_from_bytes b
            end in
  let* raw := if str_eqb (default (str "compressed") public_key_type) (str "compressed")
              then raw_compressed k else raw_uncompressed k in
  let* h := hash160 P (PBytes raw) in
  let* s := check_encode P (prefix ++ h) (default Bitcoin_ALPHABET alphabet) in
  ensure_string s.

(** p2pkh_address.py:64-97, P2PKHAddress.decode *)
Definition P2PKH_decode (P : prims) (address : pystr)
    (address_prefix : option Z) (alphabet : option pystr) : res pystr :=
  let* prefix := integer_to_bytes (default default_address_prefix address_prefix) in
  let* d := check_decode P address (default Bitcoin_ALPHABET alphabet) in
  let expected_length := (20 + List.length prefix)%nat in
  if negb (Nat.eqb (List.length d) expected_length)
  then Raise (Lib CAddressError
    (str "Invalid length (expected: " ++ dec (Z.of_nat expected_length) ++ str ", got: " ++ dec (zlen d) ++ str ")")%list)
  else
    let prefix_got := upto (List.length prefix) d in
    if negb (bytes_eqb prefix prefix_got)
    then Raise (Lib CAddressError
      (str "Invalid prefix (expected: " ++ bytes_repr prefix ++ str ", got: " ++ bytes_repr prefix_got ++ str ")")%list)
    else bytes_to_string (PBytes (from (List.length prefix) d)).
