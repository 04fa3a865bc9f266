(** * Backend: the library over an arbitrary curve package.

    /repo/bip38/secp256k1 hands every question about keys and points to the ecdsa
    package.  This file models p2pkh_address.py and the methods of bip38.py once more,
    line by line as in [P2PKHAddress.v] and [Bip38.v], but over any package, given by
    what the methods of PrivateKey, PublicKey and Point return with it.  [standard] is
    the package as modelled in [Secp256k1.v]; [optimised] the same package under
    python -O, which leaves out every assert statement. *)
From Verif Require Import Py Prims Const Exceptions Utils Base58 Crypto Curve Secp256k1
  Cryptocurrencies P2PKHAddress Wif Bip38.

(** What the classes of /repo/bip38/secp256k1 return over a package.  A PrivateKey is
    given by its exponent, a PublicKey by its coordinates, as in [Secp256k1.v]. *)
Record backend := {
  b_private : bytes -> res privkey;          (* PrivateKey.from_bytes, private_key.py:32-51 *)
  b_secret : privkey -> bytes;               (* PrivateKey.raw, private_key.py:74-82 *)
  b_public : privkey -> res pubkey;          (* PrivateKey.public_key, private_key.py:84-92 *)
  b_from_bytes : bytes -> res pubkey;        (* PublicKey.from_bytes, public_key.py:35-54 *)
  b_mul : pubkey -> Z -> pt;                 (* PublicKey.point() * scalar, public_key.py:142-150, point.py:181-192 *)
  b_from_point : pt -> res pubkey;           (* PublicKey.from_point, public_key.py:56-78 *)
  b_compressed : pubkey -> res bytes;        (* PublicKey.raw_compressed, public_key.py:122-130 *)
  b_uncompressed : pubkey -> res bytes       (* PublicKey.raw_uncompressed, public_key.py:132-140 *)
}.

(** public_key.py:112-120, raw *)
Definition PublicKey_raw_on (B : backend) (k : pubkey) (public_key_type : pystr) : res bytes :=
  if str_eqb public_key_type (str "compressed") then b_compressed B k else b_uncompressed B k.

(** p2pkh_address.py:28-62, P2PKHAddress.encode; each [option] is a keyword
    argument, [None] when it is not given *)
Definition P2PKH_encode_on (B : backend) (P : prims) (public_key : pubkey_arg)
    (address_prefix : option Z) (public_key_type : option pystr) (alphabet : option pystr)
    : res pystr :=
  let* prefix := integer_to_bytes (default default_address_prefix address_prefix) in
  let* k := match public_key with
            | PKObj k => Ok k
            | PKData d => let* b := get_bytes d true in b_from_bytes B b
            end in
  let* raw := if str_eqb (default (str "compressed") public_key_type) (str "compressed")
              then b_compressed B k else b_uncompressed B k in
  let* h := hash160 P (PBytes raw) in
  let* s := check_encode P (prefix ++ h) (default Bitcoin_ALPHABET alphabet) in
  ensure_string s.

(** bip38.py:90-151, BIP38.intermediate_code.  [urandom] is the value that
    os.urandom(8) returns if it is called. *)
Definition intermediate_code_on (B : backend) (P : prims) (urandom : bytes) (passphrase : pystr)
    (lot sequence : option Z) (owner_salt : pyarg) : res pystr :=
  let* owner_salt := if truthy owner_salt then get_bytes owner_salt true else Ok urandom in
  let n := List.length owner_salt in
  if negb (Nat.eqb n 4 || Nat.eqb n 8) then
    let* h := bytes_to_string (PBytes owner_salt) in
    Raise (lib_error CError (str "Invalid owner salt length") None (ExpList [dec 8; dec 16]) (dec (zlen h)))
  else if Nat.eqb n 4 && (is_none lot || is_none sequence)
  then
    let* h := bytes_to_string (PBytes owner_salt) in
    Raise (lib_error CError (str "Invalid owner salt length for non lot/sequence") None (ExpOther (str "16") true) (dec (zlen h)))
  else if (truthy_int lot && is_none sequence) || (is_none lot && truthy_int sequence)
  then Raise (lib_error CError (str "Both lot & sequence are required")
                (Some (str "got: (lot " ++ opt_dec lot ++ str ") & (sequence " ++ opt_dec sequence ++ str ")")) ExpNone (str "None"))
  else
    let* (pass_factor, magic, owner_entropy) :=
      match truthy_int lot && truthy_int sequence, lot, sequence with
      | true, Some lot, Some sequence =>
          if negb ((100000 <=? lot) && (lot <=? 999999))
          then Raise (lib_error CError (str "Invalid lot") None (ExpOther (str "100000 <= lot <= 999999") true) (dec lot))
          else if negb ((0 <=? sequence) && (sequence <=? 4095))
          then Raise (lib_error CError (str "Invalid sequence") None (ExpOther (str "0 <= sequence <= 4095") true) (dec sequence))
          else
            let* pre_factor := scrypt_str P passphrase (upto 4 owner_salt) 16384 8 8 32 in
            let* ls := integer_to_bytes_n (lot * 4096 + sequence) 4 in
            let owner_entropy := upto 4 owner_salt ++ ls in
            let* pass_factor := double_sha256 P (PBytes (pre_factor ++ owner_entropy)) in
            let* magic := integer_to_bytes MAGIC_LOT_AND_SEQUENCE in
            Ok (pass_factor, magic, owner_entropy)
      | _, _, _ =>
          let* pass_factor := scrypt_str P passphrase owner_salt 16384 8 8 32 in
          let* magic := integer_to_bytes MAGIC_NO_LOT_AND_SEQUENCE in
          Ok (pass_factor, magic, owner_salt)
      end in
    let* sk := b_private B pass_factor in
    let* pass_point := b_public B sk in
    let* pp := b_compressed B pass_point in
    let* s := check_encode P (magic ++ owner_entropy ++ pp) base58_alphabet in
    ensure_string s.

(** bip38.py:201-206 = 307-312 = 450-455 = 550-555 = 625-630: the address of a
    public key and get_checksum(get_bytes(address, unhexlify=False)) *)
Definition address_of_on (B : backend) (P : prims) (self : bip38) (network : pystr) (public_key : pubkey)
    (public_key_type : pystr) : res pystr :=
  let* ap := address_prefix_of (s_cryptocurrency self) network in
  P2PKH_encode_on B P (PKObj public_key) (Some ap) (Some public_key_type) None.

(** bip38.py:153-225, BIP38.encrypt *)
Definition encrypt_on (B : backend) (P : prims) (self : bip38) (wif passphrase : pystr) (network : option pystr)
    : res pystr :=
  let* network := select_network self network in
  let* wif_type := get_wif_type wif (s_cryptocurrency self) network in
  let* (flag, private_key, public_key_type) :=
    if str_eqb wif_type (str "wif") then
      let* flag := integer_to_bytes NO_EC_MULTIPLIED_WIF_FLAG in
      let* h := wif_to_private_key wif (s_cryptocurrency self) network in
      let* b := get_bytes (PStr h) true in
      let* sk := b_private B b in
      Ok (flag, sk, str "uncompressed")
    else
      let* flag := integer_to_bytes NO_EC_MULTIPLIED_WIF_COMPRESSED_FLAG in
      let* h := wif_to_private_key wif (s_cryptocurrency self) network in
      let* b := get_bytes (PStr h) true in
      let* sk := b_private B b in
      Ok (flag, sk, str "compressed") in
  let* public_key := b_public B private_key in
  let* address := address_of_on B P self network public_key public_key_type in
  let* address_hash := address_hash_of P address in
  let* key := scrypt_str P passphrase address_hash 16384 8 8 64 in
  let derived_half_1 := slice 0 32 key in
  let derived_half_2 := slice 32 64 key in
  let* aes := aes_new derived_half_2 in
  let* m1 := xor_bytes (slice 0 16 (b_secret B private_key)) (slice 0 16 derived_half_1) in
  let* encrypted_half_1 := aes_encrypt P aes m1 in
  let* m2 := xor_bytes (slice 16 32 (b_secret B private_key)) (slice 16 32 derived_half_1) in
  let* encrypted_half_2 := aes_encrypt P aes m2 in
  let* prefix := integer_to_bytes NO_EC_MULTIPLIED_PRIVATE_KEY_PREFIX in
  let encrypted_private_key := prefix ++ flag ++ address_hash ++ encrypted_half_1 ++ encrypted_half_2 in
  let* chk := get_checksum P (PBytes encrypted_private_key) in
  let* s := encode (encrypted_private_key ++ chk) base58_alphabet in
  ensure_string s.

(** bip38.py:227-355, BIP38.create_new_encrypted_wif.  [urandom] is the value
    that os.urandom(24) returns if it is called. *)
Definition create_new_encrypted_wif_on (B : backend) (P : prims) (urandom : bytes) (self : bip38)
    (intermediate_passphrase wif_type : pystr) (seed : pyarg) (network : option pystr)
    : res new_wif :=
  let* network := select_network self network in
  let* seed_b := if truthy seed then get_bytes seed true else Ok urandom in
  let* intermediate_decode :=
    match check_decode P intermediate_passphrase base58_alphabet with
    | Raise e => if is_value_error e then Raise (Lib CPassphraseError "Invalid intermediate passphrase")
                 else Raise e
    | Ok d => Ok d
    end in
  if negb (Nat.eqb (List.length intermediate_decode) 49)
  then Raise (lib_error CPassphraseError (str "Invalid intermediate passphrase length") None
                (ExpOther (str "49") true) (dec (zlen intermediate_decode)))
  else
  let magic := upto 8 intermediate_decode in
  let owner_entropy := slice 8 16 intermediate_decode in
  let pass_point := from 16 intermediate_decode in
  let* public_key_type :=
    if str_eqb wif_type (str "wif") then Ok (str "uncompressed")
    else if str_eqb wif_type (str "wif-compressed") then Ok (str "compressed")
    else Raise (lib_error CWIFError (str "Invalid wif type") None (ExpList WIF_TYPES) wif_type) in
  let* magic_ls := integer_to_bytes MAGIC_LOT_AND_SEQUENCE in
  let* magic_no := integer_to_bytes MAGIC_NO_LOT_AND_SEQUENCE in
  let* flag :=
    if bytes_eqb magic magic_ls then
      if str_eqb public_key_type (str "uncompressed")
      then integer_to_bytes MAGIC_LOT_AND_SEQUENCE_UNCOMPRESSED_FLAG
      else integer_to_bytes MAGIC_LOT_AND_SEQUENCE_COMPRESSED_FLAG
    else if bytes_eqb magic magic_no then
      if str_eqb public_key_type (str "uncompressed")
      then integer_to_bytes MAGIC_NO_LOT_AND_SEQUENCE_UNCOMPRESSED_FLAG
      else integer_to_bytes MAGIC_NO_LOT_AND_SEQUENCE_COMPRESSED_FLAG
    else raise_not_one_of "Invalid magic" MAGIC_LOT_AND_SEQUENCE MAGIC_NO_LOT_AND_SEQUENCE magic in
  let* factor_b := double_sha256 P (PBytes seed_b) in
  if negb ((0 <? bytes_to_integer factor_b) && (bytes_to_integer factor_b <? N_order))
  then Raise (Lib CError "Invalid EC encrypted WIF (Wallet Import Format)")
  else
  let* ppk := b_from_bytes B pass_point in
  let* public_key :=
    b_from_point B (b_mul B ppk (bytes_to_integer factor_b)) in
  let* address := address_of_on B P self network public_key public_key_type in
  let* address_hash := address_hash_of P address in
  let salt := address_hash ++ owner_entropy in
  let scrypt_hash := h_scrypt P pass_point salt 1024 1 1 64 in
  let derived_half_1 := upto 16 scrypt_hash in
  let derived_half_2 := slice 16 32 scrypt_hash in
  let key := from 32 scrypt_hash in
  let* aes := aes_new key in
  let* m1 := xor_bytes (upto 16 seed_b) derived_half_1 in
  let* encrypted_half_1 := aes_encrypt P aes m1 in
  let* m2 := xor_bytes (from 8 encrypted_half_1 ++ from 16 seed_b) derived_half_2 in
  let* encrypted_half_2 := aes_encrypt P aes m2 in
  let* ec_prefix := integer_to_bytes EC_MULTIPLIED_PRIVATE_KEY_PREFIX in
  let* ew := check_encode P (ec_prefix ++ flag ++ address_hash ++ owner_entropy
                             ++ upto 8 encrypted_half_1 ++ encrypted_half_2) base58_alphabet in
  let* encrypted_wif := ensure_string ew in
  let* fb := b_private B factor_b in
  let* fbp := b_public B fb in
  let* point_b := b_compressed B fbp in
  let* point_b_prefix :=
    integer_to_bytes (Z.lxor (Z.land (bytes_to_integer (from 63 scrypt_hash)) 1)
                             (bytes_to_integer (upto 1 point_b))) in
  let* m3 := xor_bytes (slice 1 17 point_b) derived_half_1 in
  let* point_b_half_1 := aes_encrypt P aes m3 in
  let* m4 := xor_bytes (from 17 point_b) derived_half_2 in
  let* point_b_half_2 := aes_encrypt P aes m4 in
  let encrypted_point_b := point_b_prefix ++ point_b_half_1 ++ point_b_half_2 in
  let* cfrm_prefix := integer_to_bytes CONFIRMATION_CODE_PREFIX in
  let* cc := check_encode P (cfrm_prefix ++ flag ++ address_hash ++ owner_entropy
                             ++ encrypted_point_b) base58_alphabet in
  let* confirmation_code := ensure_string cc in
  let* pkr := PublicKey_raw_on B public_key public_key_type in
  let* pks := bytes_to_string (PBytes pkr) in
  let* seed_s := bytes_to_string (PBytes seed_b) in
  Ok {| n_encrypted_wif := encrypted_wif;
        n_confirmation_code := confirmation_code;
        n_public_key := pks;
        n_seed := seed_s;
        n_public_key_type := public_key_type;
        n_address := address |}.

(** bip38.py:357-470, BIP38.confirm_code *)
Definition confirm_code_on (B : backend) (P : prims) (self : bip38) (passphrase confirmation_code : pystr)
    (network : option pystr) (detail : bool) : res confirm_result :=
  let* network := select_network self network in
  let* d :=
    match check_decode P confirmation_code base58_alphabet with
    | Raise e => if is_value_error e then Raise (Lib CError "Invalid confirmation code") else Raise e
    | Ok d => Ok d
    end in
  if negb (Nat.eqb (List.length d) 51) 
  then Raise (lib_error CError (str "Invalid confirmation code length") None (ExpOther (str "102") true) (dec (zlen d)))
  else
  let* prefix := integer_to_bytes CONFIRMATION_CODE_PREFIX in
  let prefix_got := upto (List.length prefix) d in
  if negb (bytes_eqb prefix prefix_got) 
  then Raise (lib_error CError (str "Invalid confirmation code prefix") None
                (ExpOther (dec (zlen prefix)) (negb (zlen prefix =? 0))) (bytes_repr prefix_got))
  else
  let flag := slice 5 6 d in
  let address_hash := slice 6 10 d in
  let owner_entropy := slice 10 18 d in
  let encrypted_point_b := from 18 d in
  let* (pass_factor, lot_and_sequence) := derive_pass_factor P passphrase flag owner_entropy in
  let* sk := b_private B pass_factor in
  let* ppk := b_public B sk in
  let* pass_point := b_compressed B ppk in
  let salt := address_hash ++ owner_entropy in
  let scrypt_hash := h_scrypt P pass_point salt 1024 1 1 64 in
  let derived_half_1 := slice 1 17 encrypted_point_b in
  let derived_half_2 := from 17 encrypted_point_b in
  let key := from 32 scrypt_hash in
  let* aes := aes_new key in
  let* d1 := aes_decrypt P aes derived_half_1 in
  let* point_b_half_1 := xor_bytes d1 (upto 16 scrypt_hash) in
  let* d2 := aes_decrypt P aes derived_half_2 in
  let* point_b_half_2 := xor_bytes d2 (slice 16 32 scrypt_hash) in
  let* point_b_prefix :=
    integer_to_bytes (Z.lxor (bytes_to_integer (upto 1 encrypted_point_b))
                             (Z.land (bytes_to_integer (from 63 scrypt_hash)) 1)) in
  let point_b := point_b_prefix ++ point_b_half_1 ++ point_b_half_2 in
  let* (public_key, public_key_type) :=
    match
      (let* pb := b_from_bytes B point_b in
       let* pk := b_from_point B (b_mul B pb (bytes_to_integer pass_factor)) in
       Ok (pk, if int_in (bytes_to_integer flag) FLAGS_compression
               then str "compressed" else str "uncompressed"))
    with
    | Raise e => if is_secp256k1_error e then Raise (Lib CPassphraseError "Incorrect passphrase")
                 else Raise e
    | Ok r => Ok r
    end in
  let* address := address_of_on B P self network public_key public_key_type in
  let* ah := address_hash_of P address in
  if bytes_eqb ah address_hash then
    if detail then
      let '(lot, sequence) := split_lot_sequence lot_and_sequence in
      let* pkr := PublicKey_raw_on B public_key public_key_type in
      let* pks := bytes_to_string (PBytes pkr) in
      Ok (CDetail {| c_public_key := pks;
                     c_public_key_type := public_key_type;
                     c_address := address;
                     c_lot := lot;
                     c_sequence := sequence |})
    else Ok (CAddress address)
  else Raise (Lib CPassphraseError "Incorrect passphrase").

(** bip38.py:516-573, the non-EC branch of decrypt; [d] is the decoded key *)
Definition decrypt_no_ec_on (B : backend) (P : prims) (self : bip38) (d : bytes) (passphrase network : pystr)
    (detail : bool) : res decrypt_result :=
  let flag := slice 2 3 d in
  let address_hash := slice 3 7 d in
  let* f_u := integer_to_bytes NO_EC_MULTIPLIED_WIF_FLAG in
  let* f_c := integer_to_bytes NO_EC_MULTIPLIED_WIF_COMPRESSED_FLAG in
  let* (wif_type, public_key_type) :=
    if bytes_eqb flag f_u then Ok (str "wif", str "uncompressed")
    else if bytes_eqb flag f_c then Ok (str "wif-compressed", str "compressed")
    else raise_not_one_of "Invalid flag" NO_EC_MULTIPLIED_WIF_FLAG NO_EC_MULTIPLIED_WIF_COMPRESSED_FLAG flag in
  let* key := scrypt_str P passphrase address_hash 16384 8 8 64 in
  let derived_half_1 := slice 0 32 key in
  let derived_half_2 := slice 32 64 key in
  let encrypted_half_1 := slice 7 23 d in
  let encrypted_half_2 := slice 23 39 d in
  let* aes := aes_new derived_half_2 in
  let* decrypted_half_2 := aes_decrypt P aes encrypted_half_2 in
  let* decrypted_half_1 := aes_decrypt P aes encrypted_half_1 in
  let* private_key := xor_bytes (decrypted_half_1 ++ decrypted_half_2) derived_half_1 in
  if (bytes_to_integer private_key =? 0) || (N_order <=? bytes_to_integer private_key)
  then Raise (Lib CError "Invalid Non-EC encrypted WIF (Wallet Import Format)")
  else
  let* sk := b_private B private_key in
  let* public_key := b_public B sk in
  let* address := address_of_on B P self network public_key public_key_type in
  let* ah := address_hash_of P address in
  if negb (bytes_eqb ah address_hash) then Raise (Lib CPassphraseError "Incorrect passphrase")
  else
  let* wif := private_key_to_wif P (PBytes private_key) wif_type (s_cryptocurrency self) network in
  if detail then
    let* pk_s := bytes_to_string (PBytes private_key) in
    let* pub_r := PublicKey_raw_on B public_key public_key_type in
    let* pub_s := bytes_to_string (PBytes pub_r) in
    Ok (DDetail {| d_wif := wif;
                   d_private_key := pk_s;
                   d_wif_type := wif_type;
                   d_public_key := pub_s;
                   d_public_key_type := public_key_type;
                   d_seed := None;
                   d_address := address;
                   d_lot := None;
                   d_sequence := None |})
  else Ok (DWif wif).

(** bip38.py:575-652, the EC branch of decrypt *)
Definition decrypt_ec_on (B : backend) (P : prims) (self : bip38) (d : bytes) (passphrase network : pystr)
    (detail : bool) : res decrypt_result :=
  let flag := slice 2 3 d in
  let address_hash := slice 3 7 d in
  let owner_entropy := slice 7 15 d in
  let encrypted_half_1_half_1 := slice 15 23 d in
  let encrypted_half_2 := from 23 (upto_neg 4 d) in
  let* (pass_factor, lot_and_sequence) := derive_pass_factor P passphrase flag owner_entropy in
  let* psk := b_private B pass_factor in
  let* pre_public_key := b_public B psk in
  let salt := address_hash ++ owner_entropy in
  let* ppr := b_compressed B pre_public_key in
  let encrypted_seed_b := h_scrypt P ppr salt 1024 1 1 64 in
  let key := from 32 encrypted_seed_b in
  let* aes := aes_new key in
  let* d2 := aes_decrypt P aes encrypted_half_2 in
  let* h1h2_seed_last := xor_bytes d2 (slice 16 32 encrypted_seed_b) in
  let encrypted_half_1_half_2 := upto 8 h1h2_seed_last in
  let encrypted_half_1 := encrypted_half_1_half_1 ++ encrypted_half_1_half_2 in
  let* d1 := aes_decrypt P aes encrypted_half_1 in
  let* seed_1 := xor_bytes d1 (upto 16 encrypted_seed_b) in
  let seed_b := seed_1 ++ from 8 h1h2_seed_last in
  let* factor_b := double_sha256 P (PBytes seed_b) in
  if (bytes_to_integer factor_b =? 0) || (N_order <=? bytes_to_integer factor_b)
  then Raise (Lib CError "Invalid EC encrypted WIF (Wallet Import Format)")
  else
  let* private_key :=
    integer_to_bytes ((bytes_to_integer pass_factor * bytes_to_integer factor_b) mod N_order) in
  let* sk := b_private B private_key in
  let* public_key := b_public B sk in
  let '(wif_type, public_key_type) :=
    if int_in (bytes_to_integer flag) FLAGS_compression
    then (str "wif-compressed", str "compressed")
    else (str "wif", str "uncompressed") in
  let* address := address_of_on B P self network public_key public_key_type in
  let* ah := address_hash_of P address in
  if bytes_eqb ah address_hash then
    let* wif := private_key_to_wif P (PBytes private_key) wif_type (s_cryptocurrency self) network in
    if detail then
      let '(lot, sequence) := split_lot_sequence lot_and_sequence in
      let* pk_s := bytes_to_string (PBytes private_key) in
      let* pub_r := PublicKey_raw_on B public_key public_key_type in
      let* pub_s := bytes_to_string (PBytes pub_r) in
      let* seed_s := bytes_to_string (PBytes seed_b) in
      Ok (DDetail {| d_wif := wif;
                     d_private_key := pk_s;
                     d_wif_type := wif_type;
                     d_public_key := pub_s;
                     d_public_key_type := public_key_type;
                     d_seed := Some seed_s;
                     d_address := address;
                     d_lot := lot;
                     d_sequence := sequence |})
    else Ok (DWif wif)
  else Raise (Lib CPassphraseError "Incorrect passphrase").

(** bip38.py:472-659, BIP38.decrypt *)
Definition decrypt_on (B : backend) (P : prims) (self : bip38) (encrypted_wif passphrase : pystr)
    (network : option pystr) (detail : bool) : res decrypt_result :=
  let* network := select_network self network in
  let* d := decode encrypted_wif base58_alphabet in
  if negb (Nat.eqb (List.length d) 43) 
  then Raise (lib_error CWIFError (str "Invalid encrypted WIF length") None (ExpOther (str "43") true) (dec (zlen d)))
  else
  let prefix := upto 2 d in
  let* p_no := integer_to_bytes NO_EC_MULTIPLIED_PRIVATE_KEY_PREFIX in
  let* p_ec := integer_to_bytes EC_MULTIPLIED_PRIVATE_KEY_PREFIX in
  if bytes_eqb prefix p_no then decrypt_no_ec_on B P self d passphrase network detail
  else if bytes_eqb prefix p_ec then decrypt_ec_on B P self d passphrase network detail
  else raise_not_one_of "Invalid prefix" NO_EC_MULTIPLIED_PRIVATE_KEY_PREFIX EC_MULTIPLIED_PRIVATE_KEY_PREFIX prefix.

(** The package as in [Secp256k1.v] *)
Definition standard : backend := {|
  b_private := PrivateKey_from_bytes;
  b_secret := PrivateKey_raw;
  b_public := PrivateKey_public_key;
  b_from_bytes := PublicKey_from_bytes;
  b_mul := fun k => Point_mul (PublicKey_point k);
  b_from_point := PublicKey_from_point;
  b_compressed := raw_compressed;
  b_uncompressed := raw_uncompressed
|}.

(** ** python -O.  The assert statements that can fail are those of ecdsa's
    number_to_string (the length of the result) and of the constructor of
    ellipticcurve.Point (the point is on the curve); ripemd160.py:73 is never reached
    (PropRipemdChecked.v), and the other assertions of ecdsa state what its own code
    has just established (the length of a raw encoding it has cut). *)

(** util.number_to_string(num, order) without its assertion: numbers from 2^256 on
    that have an even number of hexadecimal digits are written in full *)
Definition number_to_string_O (n : Z) : res bytes :=
  if n <? 0 then Raise (Builtin ValueError)
  else if n <? 2 ^ 256 then Ok (z2be 32 n)
  else if Z.even (Z.log2 n / 4 + 1) then Ok (z2be (Z.to_nat ((Z.log2 n / 4 + 1) / 2)) n)
  else Raise (Builtin ValueError).

(** point.py:60-78, Point.from_coordinates: nothing is checked any more *)
Definition Point_from_coordinates_O (x y : Z) : res pt := Ok (Aff x y).

(** point.py:120-134, Point.raw_encoded; 136-153, raw_decoded *)
Definition Point_raw_encoded_O (P : pt) : res bytes :=
  match P with
  | Inf => Raise (Builtin AttributeError)
  | Aff x y => let* xs := number_to_string_O x in
               Ok ((if Z.odd y then x03 else x02) :: xs)
  end.
Definition Point_raw_decoded_O (P : pt) : res bytes :=
  match P with
  | Inf => Raise (Builtin AttributeError)
  | Aff x y => let* xs := number_to_string_O x in
               let* ys := number_to_string_O y in
               Ok (xs ++ ys)
  end.

(** public_key.py:56-78, PublicKey.from_point.  ellipticcurve.Point takes any
    coordinates; ecdsa.Public_key then refuses those out of range or off the curve
    (InvalidPointError, which VerifyingKey.from_public_point turns into
    MalformedPointError), and comparing None with an int is a TypeError. *)
Definition PublicKey_from_point_O (point : pt) : res pubkey :=
  match point with
  | Inf => Raise (Builtin TypeError)
  | Aff x y =>
      if valid_public_point x y then Ok {| pk_x := x; pk_y := y |}
      else Raise (Lib CSecp256k1Error "Invalid public key point")
  end.

(** public_key.py:122-130 and 132-140 *)
Definition raw_compressed_O (k : pubkey) : res bytes :=
  let* xs := number_to_string_O (pk_x k) in
  Ok ((if Z.odd (pk_y k) then x03 else x02) :: xs).
Definition raw_uncompressed_O (k : pubkey) : res bytes :=
  let* xs := number_to_string_O (pk_x k) in
  let* ys := number_to_string_O (pk_y k) in
  Ok (x04 :: xs ++ ys).

Definition optimised : backend := {|
  b_private := PrivateKey_from_bytes;
  b_secret := PrivateKey_raw;
  b_public := PrivateKey_public_key;
  b_from_bytes := PublicKey_from_bytes;
  b_mul := fun k => Point_mul (PublicKey_point k);
  b_from_point := PublicKey_from_point_O;
  b_compressed := raw_compressed_O;
  b_uncompressed := raw_uncompressed_O
|}.
