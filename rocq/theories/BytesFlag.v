(** * BytesFlag: the library under "python -bb".

    With the interpreter's flag -bb, showing a bytes object with str() or in an
    f-string raises BytesWarning; without it the text is the repr of the bytes.  (With
    -b a warning goes to stderr and the text is the same.)  Three places of the
    modelled code show bytes: got=prefix_got in decode_wif (wif.py:81) and confirm_code
    (bip38.py:401), which exceptions.py:18 puts into an f-string, and the f-string at
    p2pkh_address.py:95.  This file models the functions that contain or call them
    once more, line by line as in [Wif.v], [P2PKHAddress.v] and [Bip38.v], with the
    exception [bb] that showing bytes raises, if it raises one.  The other functions
    show no bytes, and none compares text with bytes, which -bb forbids as well
    (base58.py:48 compares the types): they are as they were. *)
From Verif Require Import Py Prims Const Exceptions Utils Base58 Crypto Curve Secp256k1
  Cryptocurrencies P2PKHAddress Wif Bip38.

(** f"{b}" *)
Definition shown (bb : option exn) (b : bytes) : res pystr :=
  match bb with None => Ok (bytes_repr b) | Some e => Raise e end.

(** wif.py:59-94, decode_wif: (private_key, wif_type, checksum) *)
Definition decode_wif_bb (bb : option exn) (wif : pystr) (wif_prefix : Z) : res (bytes * pystr * bytes) :=
  let* raw := decode wif base58_alphabet in
  let* prefix := integer_to_bytes wif_prefix in
  if negb (startswith prefix raw)
  then Raise (Lib CWIFError "Invalid Wallet Import Format (WIF)")
  else
    let prefix_length := List.length prefix in
    let prefix_got := upto prefix_length raw in
    if negb (bytes_eqb prefix prefix_got) then
      let* got := shown bb prefix_got in
      Raise (lib_error CWIFError (str "Invalid WIF prefix") None
               (ExpOther (dec (Z.of_nat prefix_length)) (negb (Nat.eqb prefix_length 0))) got)
    else
      let raw_without_prefix := from prefix_length raw in
      let checksum := from_neg 4 raw_without_prefix in
      let private_key := upto_neg 4 raw_without_prefix in
      let n := List.length private_key in
      if negb (Nat.eqb n 33 || Nat.eqb n 32)
      then Raise (Lib CWIFError "Invalid Wallet Import Format (WIF)")
      else if Nat.eqb n 33 then
        let* suffix := integer_to_bytes COMPRESSED_PRIVATE_KEY_PREFIX in
        Ok (upto_neg (List.length suffix) private_key, str "wif-compressed", checksum)
      else Ok (private_key, str "wif", checksum).

(** wif.py:127-146, wif_to_private_key *)
Definition wif_to_private_key_bb (bb : option exn) (wif : pystr) (cryptocurrency : coin) (network : pystr) : res pystr :=
  let* wp := wif_prefix_of cryptocurrency network in
  let* (pk, t, c) := decode_wif_bb bb wif wp in
  bytes_to_string (PBytes pk).

(** wif.py:149-168, get_wif_type *)
Definition get_wif_type_bb (bb : option exn) (wif : pystr) (cryptocurrency : coin) (network : pystr) : res pystr :=
  let* wp := wif_prefix_of cryptocurrency network in
  let* (pk, t, c) := decode_wif_bb bb wif wp in
  Ok t.

(** wif.py:171-190, get_wif_checksum *)
Definition get_wif_checksum_bb (bb : option exn) (wif : pystr) (cryptocurrency : coin) (network : pystr) : res pystr :=
  let* wp := wif_prefix_of cryptocurrency network in
  let* (pk, t, c) := decode_wif_bb bb wif wp in
  bytes_to_string (PBytes c).

(** p2pkh_address.py:64-97, P2PKHAddress.decode *)
Definition P2PKH_decode_bb (bb : option exn) (P : prims) (address : pystr)
    (address_prefix : option Z) (alphabet : option pystr) : res pystr :=
  let* prefix := integer_to_bytes (default default_address_prefix address_prefix) in
  let* d := check_decode P address (default Bitcoin_ALPHABET alphabet) in
  let expected_length := (20 + List.length prefix)%nat in
  if negb (Nat.eqb (List.length d) expected_length)
  then Raise (Lib CAddressError
    (str "Invalid length (expected: " ++ dec (Z.of_nat expected_length) ++ str ", got: " ++ dec (zlen d) ++ str ")")%list)
  else
    let prefix_got := upto (List.length prefix) d in
    if negb (bytes_eqb prefix prefix_got)
    then
      let* x1 := shown bb prefix in
      let* x2 := shown bb prefix_got in
      Raise (Lib CAddressError (str "Invalid prefix (expected: " ++ x1 ++ str ", got: " ++ x2 ++ str ")")%list)
    else bytes_to_string (PBytes (from (List.length prefix) d)).

(** bip38.py:153-225, BIP38.encrypt *)
Definition encrypt_bb (bb : option exn) (P : prims) (self : bip38) (wif passphrase : pystr) (network : option pystr)
    : res pystr :=
  let* network := select_network self network in
  let* wif_type := get_wif_type_bb bb wif (s_cryptocurrency self) network in
  let* (flag, private_key, public_key_type) :=
    if str_eqb wif_type (str "wif") then
      let* flag := integer_to_bytes NO_EC_MULTIPLIED_WIF_FLAG in
      let* h := wif_to_private_key_bb bb wif (s_cryptocurrency self) network in
      let* b := get_bytes (PStr h) true in
      let* sk := PrivateKey_from_bytes b in
      Ok (flag, sk, str "uncompressed")
    else
      let* flag := integer_to_bytes NO_EC_MULTIPLIED_WIF_COMPRESSED_FLAG in
      let* h := wif_to_private_key_bb bb wif (s_cryptocurrency self) network in
      let* b := get_bytes (PStr h) true in
      let* sk := PrivateKey_from_bytes b in
      Ok (flag, sk, str "compressed") in
  let* public_key := PrivateKey_public_key private_key in
  let* address := address_of P self network public_key public_key_type in
  let* address_hash := address_hash_of P address in
  let* key := scrypt_str P passphrase address_hash 16384 8 8 64 in
  let derived_half_1 := slice 0 32 key in
  let derived_half_2 := slice 32 64 key in
  let* aes := aes_new derived_half_2 in
  let* m1 := xor_bytes (slice 0 16 (PrivateKey_raw private_key)) (slice 0 16 derived_half_1) in
  let* encrypted_half_1 := aes_encrypt P aes m1 in
  let* m2 := xor_bytes (slice 16 32 (PrivateKey_raw private_key)) (slice 16 32 derived_half_1) in
  let* encrypted_half_2 := aes_encrypt P aes m2 in
  let* prefix := integer_to_bytes NO_EC_MULTIPLIED_PRIVATE_KEY_PREFIX in
  let encrypted_private_key := prefix ++ flag ++ address_hash ++ encrypted_half_1 ++ encrypted_half_2 in
  let* chk := get_checksum P (PBytes encrypted_private_key) in
  let* s := encode (encrypted_private_key ++ chk) base58_alphabet in
  ensure_string s.

(** bip38.py:357-470, BIP38.confirm_code *)
Definition confirm_code_bb (bb : option exn) (P : prims) (self : bip38) (passphrase confirmation_code : pystr)
    (network : option pystr) (detail : bool) : res confirm_result :=
  let* network := select_network self network in
  let* d :=
    match check_decode P confirmation_code base58_alphabet with
    | Raise e => if is_value_error e then Raise (Lib CError "Invalid confirmation code") else Raise e
    | Ok d => Ok d
    end in
  if negb (Nat.eqb (List.length d) 51) 
  then Raise (lib_error CError (str "Invalid confirmation code length") None (ExpOther (str "102") true) (dec (zlen d)))
  else
  let* prefix := integer_to_bytes CONFIRMATION_CODE_PREFIX in
  let prefix_got := upto (List.length prefix) d in
  if negb (bytes_eqb prefix prefix_got) 
  then
    let* got := shown bb prefix_got in
    Raise (lib_error CError (str "Invalid confirmation code prefix") None
             (ExpOther (dec (zlen prefix)) (negb (zlen prefix =? 0))) got)
  else
  let flag := slice 5 6 d in
  let address_hash := slice 6 10 d in
  let owner_entropy := slice 10 18 d in
  let encrypted_point_b := from 18 d in
  let* (pass_factor, lot_and_sequence) := derive_pass_factor P passphrase flag owner_entropy in
  let* sk := PrivateKey_from_bytes pass_factor in
  let* ppk := PrivateKey_public_key sk in
  let* pass_point := raw_compressed ppk in
  let salt := address_hash ++ owner_entropy in
  let scrypt_hash := h_scrypt P pass_point salt 1024 1 1 64 in
  let derived_half_1 := slice 1 17 encrypted_point_b in
  let derived_half_2 := from 17 encrypted_point_b in
  let key := from 32 scrypt_hash in
  let* aes := aes_new key in
  let* d1 := aes_decrypt P aes derived_half_1 in
  let* point_b_half_1 := xor_bytes d1 (upto 16 scrypt_hash) in
  let* d2 := aes_decrypt P aes derived_half_2 in
  let* point_b_half_2 := xor_bytes d2 (slice 16 32 scrypt_hash) in
  let* point_b_prefix :=
    integer_to_bytes (Z.lxor (bytes_to_integer (upto 1 encrypted_point_b))
                             (Z.land (bytes_to_integer (from 63 scrypt_hash)) 1)) in
  let point_b := point_b_prefix ++ point_b_half_1 ++ point_b_half_2 in
  let* (public_key, public_key_type) :=
    match
      (let* pb := PublicKey_from_bytes point_b in
       let* pk := PublicKey_from_point (Point_mul (PublicKey_point pb) (bytes_to_integer pass_factor)) in
       Ok (pk, if int_in (bytes_to_integer flag) FLAGS_compression
               then str "compressed" else str "uncompressed"))
    with
    | Raise e => if is_secp256k1_error e then Raise (Lib CPassphraseError "Incorrect passphrase")
                 else Raise e
    | Ok r => Ok r
    end in
  let* address := address_of P self network public_key public_key_type in
  let* ah := address_hash_of P address in
  if bytes_eqb ah address_hash then
    if detail then
      let '(lot, sequence) := split_lot_sequence lot_and_sequence in
      let* pkr := PublicKey_raw public_key public_key_type in
      let* pks := bytes_to_string (PBytes pkr) in
      Ok (CDetail {| c_public_key := pks;
                     c_public_key_type := public_key_type;
                     c_address := address;
                     c_lot := lot;
                     c_sequence := sequence |})
    else Ok (CAddress address)
  else Raise (Lib CPassphraseError "Incorrect passphrase").
