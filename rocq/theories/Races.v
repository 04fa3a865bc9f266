(** * Races: method calls while other threads change the object or its class.

    A method reads the attributes of its object, and the table of the object's
    class, several times.  Between two reads other threads may assign to the
    object's attributes and change the table (Worlds.v lists the ways).  Here
    [self j] is the object, with its class and the class's table, as it is when
    the method reads it for the (j+1)-st time: any sequence of objects.

    In every method read 0 is [self.network] (only if no network was given, but
    counted in any case), read 1 is [self.networks] in the check, and read 2, if
    the check fails, [self.networks] in the error.  If it succeeds the reads are
    the uses of [self.cryptocurrency.NETWORKS[network]]: in encrypt for the type
    of the WIF, for its key (the two cases of lines 187-199 read alike) and for
    the address; in create_new_encrypted_wif and confirm_code for the address; in
    decrypt for the address and for the WIF.  The passphrase and the other
    arguments are immutable.  Simplification: looking up [self.cryptocurrency],
    its NETWORKS, the entry and the prefix in it is one step. *)
From Verif Require Import Py Prims Const Exceptions Utils Base58 Crypto Curve Secp256k1 P2PKHAddress Cryptocurrencies Wif Bip38.

(** bip38.py:180-184 = 258-262 = 386-390 = 503-507 *)
Definition select_network_at (self : nat -> bip38) (network : option pystr) : res pystr :=
  let network := match network with
                 | Some (x :: r) => x :: r
                 | _ => s_network (self 0%nat)
                 end in
  if negb (str_in network (s_networks (self 1%nat)))
  then Raise (lib_error CNetworkError (str "Wrong network type") None (ExpList (s_networks (self 2%nat))) str_type)
  else Ok network.

(** bip38.py:153-225, BIP38.encrypt *)
Definition encrypt_at (P : prims) (self : nat -> bip38) (wif passphrase : pystr) (network : option pystr)
    : res pystr :=
  let* network := select_network_at self network in
  let* wif_type := get_wif_type wif (s_cryptocurrency (self 2%nat)) network in
  let* (flag, private_key, public_key_type) :=
    if str_eqb wif_type (str "wif") then
      let* flag := integer_to_bytes NO_EC_MULTIPLIED_WIF_FLAG in
      let* h := wif_to_private_key wif (s_cryptocurrency (self 3%nat)) network in
      let* b := get_bytes (PStr h) true in
      let* sk := PrivateKey_from_bytes b in
      Ok (flag, sk, str "uncompressed")
    else
      let* flag := integer_to_bytes NO_EC_MULTIPLIED_WIF_COMPRESSED_FLAG in
      let* h := wif_to_private_key wif (s_cryptocurrency (self 3%nat)) network in
      let* b := get_bytes (PStr h) true in
      let* sk := PrivateKey_from_bytes b in
      Ok (flag, sk, str "compressed") in
  let* public_key := PrivateKey_public_key private_key in
  let* address := address_of P (self 4%nat) network public_key public_key_type in
  let* address_hash := address_hash_of P address in
  let* key := scrypt_str P passphrase address_hash 16384 8 8 64 in
  let derived_half_1 := slice 0 32 key in
  let derived_half_2 := slice 32 64 key in
  let* aes := aes_new derived_half_2 in
  let* m1 := xor_bytes (slice 0 16 (PrivateKey_raw private_key)) (slice 0 16 derived_half_1) in
  let* encrypted_half_1 := aes_encrypt P aes m1 in
  let* m2 := xor_bytes (slice 16 32 (PrivateKey_raw private_key)) (slice 16 32 derived_half_1) in
  let* encrypted_half_2 := aes_encrypt P aes m2 in
  let* prefix := integer_to_bytes NO_EC_MULTIPLIED_PRIVATE_KEY_PREFIX in
  let encrypted_private_key := prefix ++ flag ++ address_hash ++ encrypted_half_1 ++ encrypted_half_2 in
  let* chk := get_checksum P (PBytes encrypted_private_key) in
  let* s := encode (encrypted_private_key ++ chk) base58_alphabet in
  ensure_string s.

(** An object whose methods choose [network] and find the table of [v] *)
Definition fixed (v : bip38) (network : pystr) : bip38 :=
  {| s_cryptocurrency := s_cryptocurrency v; s_networks := [network]; s_network := network; s_alphabet := s_alphabet v |}.
(** bip38.py:227-355 and 357-470, create_new_encrypted_wif and confirm_code: the
    lines after the check have one lookup (309, 452) *)
Definition create_at (P : prims) (urandom : bytes) (self : nat -> bip38)
    (intermediate_passphrase wif_type : pystr) (seed : pyarg) (network : option pystr) : res new_wif :=
  let* network := select_network_at self network in
  create_new_encrypted_wif P urandom (fixed (self 2%nat) network) intermediate_passphrase wif_type seed (Some network).
Definition confirm_at (P : prims) (self : nat -> bip38) (passphrase confirmation_code : pystr)
    (network : option pystr) (detail : bool) : res confirm_result :=
  let* network := select_network_at self network in
  confirm_code P (fixed (self 2%nat) network) passphrase confirmation_code (Some network) detail.

(** bip38.py:516-573, the non-EC branch of decrypt; [d] is the decoded key *)
Definition decrypt_no_ec_at (P : prims) (self : nat -> bip38) (d : bytes) (passphrase network : pystr)
    (detail : bool) : res decrypt_result :=
  let flag := slice 2 3 d in
  let address_hash := slice 3 7 d in
  let* f_u := integer_to_bytes NO_EC_MULTIPLIED_WIF_FLAG in
  let* f_c := integer_to_bytes NO_EC_MULTIPLIED_WIF_COMPRESSED_FLAG in
  let* (wif_type, public_key_type) :=
    if bytes_eqb flag f_u then Ok (str "wif", str "uncompressed")
    else if bytes_eqb flag f_c then Ok (str "wif-compressed", str "compressed")
    else raise_not_one_of "Invalid flag" NO_EC_MULTIPLIED_WIF_FLAG NO_EC_MULTIPLIED_WIF_COMPRESSED_FLAG flag in
  let* key := scrypt_str P passphrase address_hash 16384 8 8 64 in
  let derived_half_1 := slice 0 32 key in
  let derived_half_2 := slice 32 64 key in
  let encrypted_half_1 := slice 7 23 d in
  let encrypted_half_2 := slice 23 39 d in
  let* aes := aes_new derived_half_2 in
  let* decrypted_half_2 := aes_decrypt P aes encrypted_half_2 in
  let* decrypted_half_1 := aes_decrypt P aes encrypted_half_1 in
  let* private_key := xor_bytes (decrypted_half_1 ++ decrypted_half_2) derived_half_1 in
  if (bytes_to_integer private_key =? 0) || (N_order <=? bytes_to_integer private_key)
  then Raise (Lib CError "Invalid Non-EC encrypted WIF (Wallet Import Format)")
  else
  let* sk := PrivateKey_from_bytes private_key in
  let* public_key := PrivateKey_public_key sk in
  let* address := address_of P (self 2%nat) network public_key public_key_type in
  let* ah := address_hash_of P address in
  if negb (bytes_eqb ah address_hash) then Raise (Lib CPassphraseError "Incorrect passphrase")
  else
  let* wif := private_key_to_wif P (PBytes private_key) wif_type (s_cryptocurrency (self 3%nat)) network in
  if detail then
    let* pk_s := bytes_to_string (PBytes private_key) in
    let* pub_r := PublicKey_raw public_key public_key_type in
    let* pub_s := bytes_to_string (PBytes pub_r) in
    Ok (DDetail {| d_wif := wif;
                   d_private_key := pk_s;
                   d_wif_type := wif_type;
                   d_public_key := pub_s;
                   d_public_key_type := public_key_type;
                   d_seed := None;
                   d_address := address;
                   d_lot := None;
                   d_sequence := None |})
  else Ok (DWif wif).

(** bip38.py:575-652, the EC branch of decrypt *)
Definition decrypt_ec_at (P : prims) (self : nat -> bip38) (d : bytes) (passphrase network : pystr)
    (detail : bool) : res decrypt_result :=
  let flag := slice 2 3 d in
  let address_hash := slice 3 7 d in
  let owner_entropy := slice 7 15 d in
  let encrypted_half_1_half_1 := slice 15 23 d in
  let encrypted_half_2 := from 23 (upto_neg 4 d) in
  let* (pass_factor, lot_and_sequence) := derive_pass_factor P passphrase flag owner_entropy in
  let* psk := PrivateKey_from_bytes pass_factor in
  let* pre_public_key := PrivateKey_public_key psk in
  let salt := address_hash ++ owner_entropy in
  let* ppr := raw_compressed pre_public_key in
  let encrypted_seed_b := h_scrypt P ppr salt 1024 1 1 64 in
  let key := from 32 encrypted_seed_b in
  let* aes := aes_new key in
  let* d2 := aes_decrypt P aes encrypted_half_2 in
  let* h1h2_seed_last := xor_bytes d2 (slice 16 32 encrypted_seed_b) in
  let encrypted_half_1_half_2 := upto 8 h1h2_seed_last in
  let encrypted_half_1 := encrypted_half_1_half_1 ++ encrypted_half_1_half_2 in
  let* d1 := aes_decrypt P aes encrypted_half_1 in
  let* seed_1 := xor_bytes d1 (upto 16 encrypted_seed_b) in
  let seed_b := seed_1 ++ from 8 h1h2_seed_last in
  let* factor_b := double_sha256 P (PBytes seed_b) in
  if (bytes_to_integer factor_b =? 0) || (N_order <=? bytes_to_integer factor_b)
  then Raise (Lib CError "Invalid EC encrypted WIF (Wallet Import Format)")
  else
  let* private_key :=
    integer_to_bytes ((bytes_to_integer pass_factor * bytes_to_integer factor_b) mod N_order) in
  let* sk := PrivateKey_from_bytes private_key in
  let* public_key := PrivateKey_public_key sk in
  let '(wif_type, public_key_type) :=
    if int_in (bytes_to_integer flag) FLAGS_compression
    then (str "wif-compressed", str "compressed")
    else (str "wif", str "uncompressed") in
  let* address := address_of P (self 2%nat) network public_key public_key_type in
  let* ah := address_hash_of P address in
  if bytes_eqb ah address_hash then
    let* wif := private_key_to_wif P (PBytes private_key) wif_type (s_cryptocurrency (self 3%nat)) network in
    if detail then
      let '(lot, sequence) := split_lot_sequence lot_and_sequence in
      let* pk_s := bytes_to_string (PBytes private_key) in
      let* pub_r := PublicKey_raw public_key public_key_type in
      let* pub_s := bytes_to_string (PBytes pub_r) in
      let* seed_s := bytes_to_string (PBytes seed_b) in
      Ok (DDetail {| d_wif := wif;
                     d_private_key := pk_s;
                     d_wif_type := wif_type;
                     d_public_key := pub_s;
                     d_public_key_type := public_key_type;
                     d_seed := Some seed_s;
                     d_address := address;
                     d_lot := lot;
                     d_sequence := sequence |})
    else Ok (DWif wif)
  else Raise (Lib CPassphraseError "Incorrect passphrase").

(** bip38.py:472-659, BIP38.decrypt *)
Definition decrypt_at (P : prims) (self : nat -> bip38) (encrypted_wif passphrase : pystr)
    (network : option pystr) (detail : bool) : res decrypt_result :=
  let* network := select_network_at self network in
  let* d := decode encrypted_wif base58_alphabet in
  if negb (Nat.eqb (List.length d) 43) 
  then Raise (lib_error CWIFError (str "Invalid encrypted WIF length") None (ExpOther (str "43") true) (dec (zlen d)))
  else
  let prefix := upto 2 d in
  let* p_no := integer_to_bytes NO_EC_MULTIPLIED_PRIVATE_KEY_PREFIX in
  let* p_ec := integer_to_bytes EC_MULTIPLIED_PRIVATE_KEY_PREFIX in
  if bytes_eqb prefix p_no then decrypt_no_ec_at P self d passphrase network detail
  else if bytes_eqb prefix p_ec then decrypt_ec_at P self d passphrase network detail
  else raise_not_one_of "Invalid prefix" NO_EC_MULTIPLIED_PRIVATE_KEY_PREFIX EC_MULTIPLIED_PRIVATE_KEY_PREFIX prefix.
