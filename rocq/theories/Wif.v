(** * Wif: /repo/bip38/wif.py *)
From Verif Require Import Py Prims Const Exceptions Utils Base58 Crypto Cryptocurrencies.

(** cryptocurrency.NETWORKS[network]["wif_prefix"], .NETWORKS[network]["address_prefix"] *)
Definition wif_prefix_of (c : coin) (network : pystr) : res Z :=
  match dict_get network (c_networks c) with
  | Some (w, _) => Ok w
  | None => Raise (Builtin KeyError)
  end.
Definition address_prefix_of (c : coin) (network : pystr) : res Z :=
  match dict_get network (c_networks c) with
  | Some (_, a) => Ok a
  | None => Raise (Builtin KeyError)
  end.

(** len(private_key) in the error path of encode_wif (wif.py:45): TypeError on
    objects without a length *)
Definition py_len (d : pyarg) : res Z :=
  match d with PBytes b => Ok (zlen b) | PStr s => Ok (zlen s) | _ => Raise (Builtin TypeError) end.

(** wif.py:29-56, encode_wif: the pair (wif, wif_compressed) *)
Definition encode_wif (P : prims) (private_key : pyarg) (wif_prefix : Z) : res (pystr * pystr) :=
  let* pk := get_bytes private_key true in
  if negb (Nat.eqb (List.length pk) 32) then
    let* n := py_len private_key in
    Raise (lib_error CSecp256k1Error (str "Invalid private key length") None (ExpOther (str "64") true) (dec n))
  else
    let* prefix := integer_to_bytes wif_prefix in
    let wif_payload := prefix ++ pk in
    let* suffix := integer_to_bytes COMPRESSED_PRIVATE_KEY_PREFIX in
    let wif_compressed_payload := prefix ++ pk ++ suffix in
    let* chk := get_checksum P (PBytes wif_payload) in
    let* w := encode (wif_payload ++ chk) base58_alphabet in
    let* chk_c := get_checksum P (PBytes wif_compressed_payload) in
    let* wc := encode (wif_compressed_payload ++ chk_c) base58_alphabet in
    Ok (w, wc).

(** wif.py:59-94, decode_wif: (private_key, wif_type, checksum) *)
Definition decode_wif (wif : pystr) (wif_prefix : Z) : res (bytes * pystr * bytes) :=
  let* raw := decode wif base58_alphabet in
  let* prefix := integer_to_bytes wif_prefix in
  if negb (startswith prefix raw)
  then Raise (Lib CWIFError "Invalid Wallet Import Format (WIF)")
  else
    let prefix_length := List.length prefix in
    let prefix_got := upto prefix_length raw in
    if negb (bytes_eqb prefix prefix_got) then 
    Raise (lib_error CWIFError (str "Invalid WIF prefix") None
             (ExpOther (dec (Z.of_nat prefix_length)) (negb (Nat.eqb prefix_length 0))) (bytes_repr prefix_got))
    else
      let raw_without_prefix := from prefix_length raw in
      let checksum := from_neg 4 raw_without_prefix in
      let private_key := upto_neg 4 raw_without_prefix in
      let n := List.length private_key in
      if negb (Nat.eqb n 33 || Nat.eqb n 32)
      then Raise (Lib CWIFError "Invalid Wallet Import Format (WIF)")
      else if Nat.eqb n 33 then
        let* suffix := integer_to_bytes COMPRESSED_PRIVATE_KEY_PREFIX in
        Ok (upto_neg (List.length suffix) private_key, str "wif-compressed", checksum)
      else Ok (private_key, str "wif", checksum).

(** wif.py:97-124, private_key_to_wif *)
Definition private_key_to_wif (P : prims) (private_key : pyarg) (wif_type : pystr)
    (cryptocurrency : coin) (network : pystr) : res pystr :=
  if negb (str_in wif_type WIF_TYPES) then 
    Raise (lib_error CWIFError (str "Wrong WIF type") None (ExpList WIF_TYPES) wif_type)
  else
    let* wp := wif_prefix_of cryptocurrency network in
    let* (wif, wif_compressed) := encode_wif P private_key wp in
    Ok (if str_eqb wif_type (str "wif") then wif else wif_compressed).

(** wif.py:127-146, wif_to_private_key *)
Definition wif_to_private_key (wif : pystr) (cryptocurrency : coin) (network : pystr) : res pystr :=
  let* wp := wif_prefix_of cryptocurrency network in
  let* (pk, t, c) := decode_wif wif wp in
  bytes_to_string (PBytes pk).

(** wif.py:149-168, get_wif_type *)
Definition get_wif_type (wif : pystr) (cryptocurrency : coin) (network : pystr) : res pystr :=
  let* wp := wif_prefix_of cryptocurrency network in
  let* (pk, t, c) := decode_wif wif wp in
  Ok t.

(** wif.py:171-190, get_wif_checksum *)
Definition get_wif_checksum (wif : pystr) (cryptocurrency : coin) (network : pystr) : res pystr :=
  let* wp := wif_prefix_of cryptocurrency network in
  let* (pk, t, c) := decode_wif wif wp in
  bytes_to_string (PBytes c).
