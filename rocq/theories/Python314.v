(** * Python314: the library under Python 3.14 and later.

    setup.py:46 allows every Python from 3.9 on.  Of the operations the modelled code
    uses, Python 3.14 changed one: bytes.fromhex also takes bytes, which it reads as
    ASCII text.  [bytes_to_string] (utils.py:54-74) tries bytes.fromhex on its argument
    first, and returns the argument as it is if that works.  So from 3.14 on it returns
    a bytes object, not text, for bytes that are hexadecimal digits in ASCII.  This
    file models the functions that call it once more, line by line as in [Wif.v],
    [P2PKHAddress.v] and [Bip38.v], but with that [bytes_to_string]. *)
From Verif Require Import Py Prims Const Exceptions Utils Base58 Crypto Curve Secp256k1
  Cryptocurrencies P2PKHAddress Wif Bip38.

(** What bytes_to_string returns: text or a bytes object *)
Inductive written := Text (s : pystr) | Raw (b : bytes).
(** as an argument of another function *)
Definition as_arg (x : written) : pyarg := match x with Text s => PStr s | Raw b => PBytes b end.
(** len(x), f"{x}" *)
Definition written_len (x : written) : Z := match x with Text s => zlen s | Raw b => zlen b end.
Definition shown (x : written) : pystr := match x with Text s => s | Raw b => bytes_repr b end.

(** bytes.fromhex of Python 3.14 on bytes: they are read as text (a byte from 128 on is
    no hexadecimal digit, as is the character with that number) *)
Definition fromhex_bytes (b : bytes) : option bytes := fromhex (List.map Byte.to_N b).

(** utils.py:54-74, bytes_to_string *)
Definition bytes_to_string_314 (data : pyarg) : res written :=
  if negb (truthy data) then Ok (Text [])
  else match data with
       | PStr s =>
           match fromhex s with
           | Some _ => Ok (Text s)
           | None => let* b := utf8_encode s in Ok (Text (tohex b))
           end
       | PBytes b =>
           match fromhex_bytes b with
           | Some _ => Ok (Raw b)
           | None => Ok (Text (tohex b))
           end
       | _ => Raise (Builtin TypeError)
       end.

(** wif.py:127-146, wif_to_private_key *)
Definition wif_to_private_key_314 (wif : pystr) (cryptocurrency : coin) (network : pystr) : res written :=
  let* wp := wif_prefix_of cryptocurrency network in
  let* (pk, t, c) := decode_wif wif wp in
  bytes_to_string_314 (PBytes pk).

(** wif.py:171-190, get_wif_checksum *)
Definition get_wif_checksum_314 (wif : pystr) (cryptocurrency : coin) (network : pystr) : res written :=
  let* wp := wif_prefix_of cryptocurrency network in
  let* (pk, t, c) := decode_wif wif wp in
  bytes_to_string_314 (PBytes c).

(** p2pkh_address.py:64-97, P2PKHAddress.decode *)
Definition P2PKH_decode_314 (P : prims) (address : pystr)
    (address_prefix : option Z) (alphabet : option pystr) : res written :=
  let* prefix := integer_to_bytes (default default_address_prefix address_prefix) in
  let* d := check_decode P address (default Bitcoin_ALPHABET alphabet) in
  let expected_length := (20 + List.length prefix)%nat in
  if negb (Nat.eqb (List.length d) expected_length)
  then Raise (Lib CAddressError
    (str "Invalid length (expected: " ++ dec (Z.of_nat expected_length) ++ str ", got: " ++ dec (zlen d) ++ str ")")%list)
  else
    let prefix_got := upto (List.length prefix) d in
    if negb (bytes_eqb prefix prefix_got)
    then Raise (Lib CAddressError
      (str "Invalid prefix (expected: " ++ bytes_repr prefix ++ str ", got: " ++ bytes_repr prefix_got ++ str ")")%list)
    else bytes_to_string_314 (PBytes (from (List.length prefix) d)).

(** raise Error(message, expected=[bytes_to_string(integer_to_bytes(z1)),
    bytes_to_string(integer_to_bytes(z2))], got=bytes_to_string(got)),
    bip38.py:293-298 = 523-528 = 653-658 *)
Definition raise_not_one_of_314 {A} (message : string) (z1 z2 : Z) (got : bytes) : res A :=
  let* b1 := integer_to_bytes z1 in
  let* x1 := bytes_to_string_314 (PBytes b1) in
  let* b2 := integer_to_bytes z2 in
  let* x2 := bytes_to_string_314 (PBytes b2) in
  let* g := bytes_to_string_314 (PBytes got) in
  Raise (lib_error CError (str message) None (ExpList [shown x1; shown x2]) (shown g)).

(** bip38.py:90-151, BIP38.intermediate_code.  [urandom] is the value that
    os.urandom(8) returns if it is called. *)
Definition intermediate_code_314 (P : prims) (urandom : bytes) (passphrase : pystr)
    (lot sequence : option Z) (owner_salt : pyarg) : res pystr :=
  let* owner_salt := if truthy owner_salt then get_bytes owner_salt true else Ok urandom in
  let n := List.length owner_salt in
  if negb (Nat.eqb n 4 || Nat.eqb n 8) then
    let* h := bytes_to_string_314 (PBytes owner_salt) in
    Raise (lib_error CError (str "Invalid owner salt length") None (ExpList [dec 8; dec 16]) (dec (written_len h)))
  else if Nat.eqb n 4 && (is_none lot || is_none sequence)
  then
    let* h := bytes_to_string_314 (PBytes owner_salt) in
    Raise (lib_error CError (str "Invalid owner salt length for non lot/sequence") None (ExpOther (str "16") true) (dec (written_len h)))
  else if (truthy_int lot && is_none sequence) || (is_none lot && truthy_int sequence)
  then Raise (lib_error CError (str "Both lot & sequence are required")
                (Some (str "got: (lot " ++ opt_dec lot ++ str ") & (sequence " ++ opt_dec sequence ++ str ")")) ExpNone (str "None"))
  else
    let* (pass_factor, magic, owner_entropy) :=
      match truthy_int lot && truthy_int sequence, lot, sequence with
      | true, Some lot, Some sequence =>
          if negb ((100000 <=? lot) && (lot <=? 999999))
          then Raise (lib_error CError (str "Invalid lot") None (ExpOther (str "100000 <= lot <= 999999") true) (dec lot))
          else if negb ((0 <=? sequence) && (sequence <=? 4095))
          then Raise (lib_error CError (str "Invalid sequence") None (ExpOther (str "0 <= sequence <= 4095") true) (dec sequence))
          else
            let* pre_factor := scrypt_str P passphrase (upto 4 owner_salt) 16384 8 8 32 in
            let* ls := integer_to_bytes_n (lot * 4096 + sequence) 4 in
            let owner_entropy := upto 4 owner_salt ++ ls in
            let* pass_factor := double_sha256 P (PBytes (pre_factor ++ owner_entropy)) in
            let* magic := integer_to_bytes MAGIC_LOT_AND_SEQUENCE in
            Ok (pass_factor, magic, owner_entropy)
      | _, _, _ =>
          let* pass_factor := scrypt_str P passphrase owner_salt 16384 8 8 32 in
          let* magic := integer_to_bytes MAGIC_NO_LOT_AND_SEQUENCE in
          Ok (pass_factor, magic, owner_salt)
      end in
    let* sk := PrivateKey_from_bytes pass_factor in
    let* pass_point := PrivateKey_public_key sk in
    let* pp := raw_compressed pass_point in
    let* s := check_encode P (magic ++ owner_entropy ++ pp) base58_alphabet in
    ensure_string s.

(** bip38.py:153-225, BIP38.encrypt *)
Definition encrypt_314 (P : prims) (self : bip38) (wif passphrase : pystr) (network : option pystr)
    : res pystr :=
  let* network := select_network self network in
  let* wif_type := get_wif_type wif (s_cryptocurrency self) network in
  let* (flag, private_key, public_key_type) :=
    if str_eqb wif_type (str "wif") then
      let* flag := integer_to_bytes NO_EC_MULTIPLIED_WIF_FLAG in
      let* h := wif_to_private_key_314 wif (s_cryptocurrency self) network in
      let* b := get_bytes (as_arg h) true in
      let* sk := PrivateKey_from_bytes b in
      Ok (flag, sk, str "uncompressed")
    else
      let* flag := integer_to_bytes NO_EC_MULTIPLIED_WIF_COMPRESSED_FLAG in
      let* h := wif_to_private_key_314 wif (s_cryptocurrency self) network in
      let* b := get_bytes (as_arg h) true in
      let* sk := PrivateKey_from_bytes b in
      Ok (flag, sk, str "compressed") in
  let* public_key := PrivateKey_public_key private_key in
  let* address := address_of P self network public_key public_key_type in
  let* address_hash := address_hash_of P address in
  let* key := scrypt_str P passphrase address_hash 16384 8 8 64 in
  let derived_half_1 := slice 0 32 key in
  let derived_half_2 := slice 32 64 key in
  let* aes := aes_new derived_half_2 in
  let* m1 := xor_bytes (slice 0 16 (PrivateKey_raw private_key)) (slice 0 16 derived_half_1) in
  let* encrypted_half_1 := aes_encrypt P aes m1 in
  let* m2 := xor_bytes (slice 16 32 (PrivateKey_raw private_key)) (slice 16 32 derived_half_1) in
  let* encrypted_half_2 := aes_encrypt P aes m2 in
  let* prefix := integer_to_bytes NO_EC_MULTIPLIED_PRIVATE_KEY_PREFIX in
  let encrypted_private_key := prefix ++ flag ++ address_hash ++ encrypted_half_1 ++ encrypted_half_2 in
  let* chk := get_checksum P (PBytes encrypted_private_key) in
  let* s := encode (encrypted_private_key ++ chk) base58_alphabet in
  ensure_string s.

(** The dict returned by create_new_encrypted_wif, bip38.py:346-355 *)
Record new_wif_314 := {
  m_encrypted_wif : pystr;
  m_confirmation_code : pystr;
  m_public_key : written;
  m_seed : written;
  m_public_key_type : pystr;
  m_address : pystr
}.

(** bip38.py:227-355, BIP38.create_new_encrypted_wif.  [urandom] is the value
    that os.urandom(24) returns if it is called. *)
Definition create_new_encrypted_wif_314 (P : prims) (urandom : bytes) (self : bip38)
    (intermediate_passphrase wif_type : pystr) (seed : pyarg) (network : option pystr)
    : res new_wif_314 :=
  let* network := select_network self network in
  let* seed_b := if truthy seed then get_bytes seed true else Ok urandom in
  let* intermediate_decode :=
    match check_decode P intermediate_passphrase base58_alphabet with
    | Raise e => if is_value_error e then Raise (Lib CPassphraseError "Invalid intermediate passphrase")
                 else Raise e
    | Ok d => Ok d
    end in
  if negb (Nat.eqb (List.length intermediate_decode) 49)
  then Raise (lib_error CPassphraseError (str "Invalid intermediate passphrase length") None
                (ExpOther (str "49") true) (dec (zlen intermediate_decode)))
  else
  let magic := upto 8 intermediate_decode in
  let owner_entropy := slice 8 16 intermediate_decode in
  let pass_point := from 16 intermediate_decode in
  let* public_key_type :=
    if str_eqb wif_type (str "wif") then Ok (str "uncompressed")
    else if str_eqb wif_type (str "wif-compressed") then Ok (str "compressed")
    else Raise (lib_error CWIFError (str "Invalid wif type") None (ExpList WIF_TYPES) wif_type) in
  let* magic_ls := integer_to_bytes MAGIC_LOT_AND_SEQUENCE in
  let* magic_no := integer_to_bytes MAGIC_NO_LOT_AND_SEQUENCE in
  let* flag :=
    if bytes_eqb magic magic_ls then
      if str_eqb public_key_type (str "uncompressed")
      then integer_to_bytes MAGIC_LOT_AND_SEQUENCE_UNCOMPRESSED_FLAG
      else integer_to_bytes MAGIC_LOT_AND_SEQUENCE_COMPRESSED_FLAG
    else if bytes_eqb magic magic_no then
      if str_eqb public_key_type (str "uncompressed")
      then integer_to_bytes MAGIC_NO_LOT_AND_SEQUENCE_UNCOMPRESSED_FLAG
      else integer_to_bytes MAGIC_NO_LOT_AND_SEQUENCE_COMPRESSED_FLAG
    else raise_not_one_of_314 "Invalid magic" MAGIC_LOT_AND_SEQUENCE MAGIC_NO_LOT_AND_SEQUENCE magic in
  let* factor_b := double_sha256 P (PBytes seed_b) in
  if negb ((0 <? bytes_to_integer factor_b) && (bytes_to_integer factor_b <? N_order))
  then Raise (Lib CError "Invalid EC encrypted WIF (Wallet Import Format)")
  else
  let* ppk := PublicKey_from_bytes pass_point in
  let* public_key :=
    PublicKey_from_point (Point_mul (PublicKey_point ppk) (bytes_to_integer factor_b)) in
  let* address := address_of P self network public_key public_key_type in
  let* address_hash := address_hash_of P address in
  let salt := address_hash ++ owner_entropy in
  let scrypt_hash := h_scrypt P pass_point salt 1024 1 1 64 in
  let derived_half_1 := upto 16 scrypt_hash in
  let derived_half_2 := slice 16 32 scrypt_hash in
  let key := from 32 scrypt_hash in
  let* aes := aes_new key in
  let* m1 := xor_bytes (upto 16 seed_b) derived_half_1 in
  let* encrypted_half_1 := aes_encrypt P aes m1 in
  let* m2 := xor_bytes (from 8 encrypted_half_1 ++ from 16 seed_b) derived_half_2 in
  let* encrypted_half_2 := aes_encrypt P aes m2 in
  let* ec_prefix := integer_to_bytes EC_MULTIPLIED_PRIVATE_KEY_PREFIX in
  let* ew := check_encode P (ec_prefix ++ flag ++ address_hash ++ owner_entropy
                             ++ upto 8 encrypted_half_1 ++ encrypted_half_2) base58_alphabet in
  let* encrypted_wif := ensure_string ew in
  let* fb := PrivateKey_from_bytes factor_b in
  let* fbp := PrivateKey_public_key fb in
  let* point_b := raw_compressed fbp in
  let* point_b_prefix :=
    integer_to_bytes (Z.lxor (Z.land (bytes_to_integer (from 63 scrypt_hash)) 1)
                             (bytes_to_integer (upto 1 point_b))) in
  let* m3 := xor_bytes (slice 1 17 point_b) derived_half_1 in
  let* point_b_half_1 := aes_encrypt P aes m3 in
  let* m4 := xor_bytes (from 17 point_b) derived_half_2 in
  let* point_b_half_2 := aes_encrypt P aes m4 in
  let encrypted_point_b := point_b_prefix ++ point_b_half_1 ++ point_b_half_2 in
  let* cfrm_prefix := integer_to_bytes CONFIRMATION_CODE_PREFIX in
  let* cc := check_encode P (cfrm_prefix ++ flag ++ address_hash ++ owner_entropy
                             ++ encrypted_point_b) base58_alphabet in
  let* confirmation_code := ensure_string cc in
  let* pkr := PublicKey_raw public_key public_key_type in
  let* pks := bytes_to_string_314 (PBytes pkr) in
  let* seed_s := bytes_to_string_314 (PBytes seed_b) in
  Ok {| m_encrypted_wif := encrypted_wif;
        m_confirmation_code := confirmation_code;
        m_public_key := pks;
        m_seed := seed_s;
        m_public_key_type := public_key_type;
        m_address := address |}.

(** The result of confirm_code: the address, or the dict of bip38.py:462-468 *)
Record confirm_detail_314 := {
  cc_public_key : written;
  cc_public_key_type : pystr;
  cc_address : pystr;
  cc_lot : option Z;
  cc_sequence : option Z
}.
Inductive confirm_result_314 := CAddress_314 (address : pystr) | CDetail_314 (d : confirm_detail_314).

(** bip38.py:357-470, BIP38.confirm_code *)
Definition confirm_code_314 (P : prims) (self : bip38) (passphrase confirmation_code : pystr)
    (network : option pystr) (detail : bool) : res confirm_result_314 :=
  let* network := select_network self network in
  let* d :=
    match check_decode P confirmation_code base58_alphabet with
    | Raise e => if is_value_error e then Raise (Lib CError "Invalid confirmation code") else Raise e
    | Ok d => Ok d
    end in
  if negb (Nat.eqb (List.length d) 51) 
  then Raise (lib_error CError (str "Invalid confirmation code length") None (ExpOther (str "102") true) (dec (zlen d)))
  else
  let* prefix := integer_to_bytes CONFIRMATION_CODE_PREFIX in
  let prefix_got := upto (List.length prefix) d in
  if negb (bytes_eqb prefix prefix_got) 
  then Raise (lib_error CError (str "Invalid confirmation code prefix") None
                (ExpOther (dec (zlen prefix)) (negb (zlen prefix =? 0))) (bytes_repr prefix_got))
  else
  let flag := slice 5 6 d in
  let address_hash := slice 6 10 d in
  let owner_entropy := slice 10 18 d in
  let encrypted_point_b := from 18 d in
  let* (pass_factor, lot_and_sequence) := derive_pass_factor P passphrase flag owner_entropy in
  let* sk := PrivateKey_from_bytes pass_factor in
  let* ppk := PrivateKey_public_key sk in
  let* pass_point := raw_compressed ppk in
  let salt := address_hash ++ owner_entropy in
  let scrypt_hash := h_scrypt P pass_point salt 1024 1 1 64 in
  let derived_half_1 := slice 1 17 encrypted_point_b in
  let derived_half_2 := from 17 encrypted_point_b in
  let key := from 32 scrypt_hash in
  let* aes := aes_new key in
  let* d1 := aes_decrypt P aes derived_half_1 in
  let* point_b_half_1 := xor_bytes d1 (upto 16 scrypt_hash) in
  let* d2 := aes_decrypt P aes derived_half_2 in
  let* point_b_half_2 := xor_bytes d2 (slice 16 32 scrypt_hash) in
  let* point_b_prefix :=
    integer_to_bytes (Z.lxor (bytes_to_integer (upto 1 encrypted_point_b))
                             (Z.land (bytes_to_integer (from 63 scrypt_hash)) 1)) in
  let point_b := point_b_prefix ++ point_b_half_1 ++ point_b_half_2 in
  let* (public_key, public_key_type) :=
    match
      (let* pb := PublicKey_from_bytes point_b in
       let* pk := PublicKey_from_point (Point_mul (PublicKey_point pb) (bytes_to_integer pass_factor)) in
       Ok (pk, if int_in (bytes_to_integer flag) FLAGS_compression
               then str "compressed" else str "uncompressed"))
    with
    | Raise e => if is_secp256k1_error e then Raise (Lib CPassphraseError "Incorrect passphrase")
                 else Raise e
    | Ok r => Ok r
    end in
  let* address := address_of P self network public_key public_key_type in
  let* ah := address_hash_of P address in
  if bytes_eqb ah address_hash then
    if detail then
      let '(lot, sequence) := split_lot_sequence lot_and_sequence in
      let* pkr := PublicKey_raw public_key public_key_type in
      let* pks := bytes_to_string_314 (PBytes pkr) in
      Ok (CDetail_314 {| cc_public_key := pks;
                     cc_public_key_type := public_key_type;
                     cc_address := address;
                     cc_lot := lot;
                     cc_sequence := sequence |})
    else Ok (CAddress_314 address)
  else Raise (Lib CPassphraseError "Incorrect passphrase").

(** The result of decrypt: the WIF, or the dict of bip38.py:562-572 / 640-650 *)
Record decrypt_detail_314 := {
  dd_wif : pystr;
  dd_private_key : written;
  dd_wif_type : pystr;
  dd_public_key : written;
  dd_public_key_type : pystr;
  dd_seed : option written;
  dd_address : pystr;
  dd_lot : option Z;
  dd_sequence : option Z
}.
Inductive decrypt_result_314 := DWif_314 (wif : pystr) | DDetail_314 (d : decrypt_detail_314).

(** bip38.py:516-573, the non-EC branch of decrypt; [d] is the decoded key *)
Definition decrypt_no_ec_314 (P : prims) (self : bip38) (d : bytes) (passphrase network : pystr)
    (detail : bool) : res decrypt_result_314 :=
  let flag := slice 2 3 d in
  let address_hash := slice 3 7 d in
  let* f_u := integer_to_bytes NO_EC_MULTIPLIED_WIF_FLAG in
  let* f_c := integer_to_bytes NO_EC_MULTIPLIED_WIF_COMPRESSED_FLAG in
  let* (wif_type, public_key_type) :=
    if bytes_eqb flag f_u then Ok (str "wif", str "uncompressed")
    else if bytes_eqb flag f_c then Ok (str "wif-compressed", str "compressed")
    else raise_not_one_of_314 "Invalid flag" NO_EC_MULTIPLIED_WIF_FLAG NO_EC_MULTIPLIED_WIF_COMPRESSED_FLAG flag in
  let* key := scrypt_str P passphrase address_hash 16384 8 8 64 in
  let derived_half_1 := slice 0 32 key in
  let derived_half_2 := slice 32 64 key in
  let encrypted_half_1 := slice 7 23 d in
  let encrypted_half_2 := slice 23 39 d in
  let* aes := aes_new derived_half_2 in
  let* decrypted_half_2 := aes_decrypt P aes encrypted_half_2 in
  let* decrypted_half_1 := aes_decrypt P aes encrypted_half_1 in
  let* private_key := xor_bytes (decrypted_half_1 ++ decrypted_half_2) derived_half_1 in
  if (bytes_to_integer private_key =? 0) || (N_order <=? bytes_to_integer private_key)
  then Raise (Lib CError "Invalid Non-EC encrypted WIF (Wallet Import Format)")
  else
  let* sk := PrivateKey_from_bytes private_key in
  let* public_key := PrivateKey_public_key sk in
  let* address := address_of P self network public_key public_key_type in
  let* ah := address_hash_of P address in
  if negb (bytes_eqb ah address_hash) then Raise (Lib CPassphraseError "Incorrect passphrase")
  else
  let* wif := private_key_to_wif P (PBytes private_key) wif_type (s_cryptocurrency self) network in
  if detail then
    let* pk_s := bytes_to_string_314 (PBytes private_key) in
    let* pub_r := PublicKey_raw public_key public_key_type in
    let* pub_s := bytes_to_string_314 (PBytes pub_r) in
    Ok (DDetail_314 {| dd_wif := wif;
                   dd_private_key := pk_s;
                   dd_wif_type := wif_type;
                   dd_public_key := pub_s;
                   dd_public_key_type := public_key_type;
                   dd_seed := None;
                   dd_address := address;
                   dd_lot := None;
                   dd_sequence := None |})
  else Ok (DWif_314 wif).

(** bip38.py:575-652, the EC branch of decrypt *)
Definition decrypt_ec_314 (P : prims) (self : bip38) (d : bytes) (passphrase network : pystr)
    (detail : bool) : res decrypt_result_314 :=
  let flag := slice 2 3 d in
  let address_hash := slice 3 7 d in
  let owner_entropy := slice 7 15 d in
  let encrypted_half_1_half_1 := slice 15 23 d in
  let encrypted_half_2 := from 23 (upto_neg 4 d) in
  let* (pass_factor, lot_and_sequence) := derive_pass_factor P passphrase flag owner_entropy in
  let* psk := PrivateKey_from_bytes pass_factor in
  let* pre_public_key := PrivateKey_public_key psk in
  let salt := address_hash ++ owner_entropy in
  let* ppr := raw_compressed pre_public_key in
  let encrypted_seed_b := h_scrypt P ppr salt 1024 1 1 64 in
  let key := from 32 encrypted_seed_b in
  let* aes := aes_new key in
  let* d2 := aes_decrypt P aes encrypted_half_2 in
  let* h1h2_seed_last := xor_bytes d2 (slice 16 32 encrypted_seed_b) in
  let encrypted_half_1_half_2 := upto 8 h1h2_seed_last in
  let encrypted_half_1 := encrypted_half_1_half_1 ++ encrypted_half_1_half_2 in
  let* d1 := aes_decrypt P aes encrypted_half_1 in
  let* seed_1 := xor_bytes d1 (upto 16 encrypted_seed_b) in
  let seed_b := seed_1 ++ from 8 h1h2_seed_last in
  let* factor_b := double_sha256 P (PBytes seed_b) in
  if (bytes_to_integer factor_b =? 0) || (N_order <=? bytes_to_integer factor_b)
  then Raise (Lib CError "Invalid EC encrypted WIF (Wallet Import Format)")
  else
  let* private_key :=
    integer_to_bytes ((bytes_to_integer pass_factor * bytes_to_integer factor_b) mod N_order) in
  let* sk := PrivateKey_from_bytes private_key in
  let* public_key := PrivateKey_public_key sk in
  let '(wif_type, public_key_type) :=
    if int_in (bytes_to_integer flag) FLAGS_compression
    then (str "wif-compressed", str "compressed")
    else (str "wif", str "uncompressed") in
  let* address := address_of P self network public_key public_key_type in
  let* ah := address_hash_of P address in
  if bytes_eqb ah address_hash then
    let* wif := private_key_to_wif P (PBytes private_key) wif_type (s_cryptocurrency self) network in
    if detail then
      let '(lot, sequence) := split_lot_sequence lot_and_sequence in
      let* pk_s := bytes_to_string_314 (PBytes private_key) in
      let* pub_r := PublicKey_raw public_key public_key_type in
      let* pub_s := bytes_to_string_314 (PBytes pub_r) in
      let* seed_s := bytes_to_string_314 (PBytes seed_b) in
      Ok (DDetail_314 {| dd_wif := wif;
                     dd_private_key := pk_s;
                     dd_wif_type := wif_type;
                     dd_public_key := pub_s;
                     dd_public_key_type := public_key_type;
                     dd_seed := Some seed_s;
                     dd_address := address;
                     dd_lot := lot;
                     dd_sequence := sequence |})
    else Ok (DWif_314 wif)
  else Raise (Lib CPassphraseError "Incorrect passphrase").

(** bip38.py:472-659, BIP38.decrypt *)
Definition decrypt_314 (P : prims) (self : bip38) (encrypted_wif passphrase : pystr)
    (network : option pystr) (detail : bool) : res decrypt_result_314 :=
  let* network := select_network self network in
  let* d := decode encrypted_wif base58_alphabet in
  if negb (Nat.eqb (List.length d) 43) 
  then Raise (lib_error CWIFError (str "Invalid encrypted WIF length") None (ExpOther (str "43") true) (dec (zlen d)))
  else
  let prefix := upto 2 d in
  let* p_no := integer_to_bytes NO_EC_MULTIPLIED_PRIVATE_KEY_PREFIX in
  let* p_ec := integer_to_bytes EC_MULTIPLIED_PRIVATE_KEY_PREFIX in
  if bytes_eqb prefix p_no then decrypt_no_ec_314 P self d passphrase network detail
  else if bytes_eqb prefix p_ec then decrypt_ec_314 P self d passphrase network detail
  else raise_not_one_of_314 "Invalid prefix" NO_EC_MULTIPLIED_PRIVATE_KEY_PREFIX EC_MULTIPLIED_PRIVATE_KEY_PREFIX prefix.
