(** * AnyArgs: the methods of BIP38 with arguments of any type.

    Python checks no declared types.  [Bip38.v] models the five methods on the types
    of their signatures; this file models the same lines with every argument a
    [value]: None, a bool, an int, bytes, text, or another object.  Where the lines
    call something that refuses a type, the call raises TypeError:
    bytes(data, "ascii") on anything but text (libs/base58.py:51),
    unicodedata.normalize on anything but text (bip38.py:137, 142, 207, 415, 532,
    587), utils.get_bytes on anything true but bytes and text (utils.py:35), int on
    None and on other objects (bip38.py:131).
    Simplification: [VOther] is an object without conversion to int, not equal to any
    text, with str() given by [shown] (a list, a dict, an object of a class of the
    user); float, bytearray and subclasses of str or bytes are not modelled. *)
From Verif Require Import Py Prims Const Exceptions Utils Base58 Crypto Curve Secp256k1
  Cryptocurrencies P2PKHAddress Wif Bip38 LotText.

Inductive value :=
| VNone | VBool (b : bool) | VInt (z : Z) | VBytes (b : bytes) | VStr (s : pystr)
| VOther (truth : bool) (class shown : pystr).

(** bool(v), str(type(v)), str(v) *)
Definition truth (v : value) : bool :=
  match v with
  | VNone => false | VBool b => b | VInt z => negb (z =? 0)
  | VBytes [] => false | VBytes _ => true | VStr [] => false | VStr _ => true
  | VOther t _ _ => t
  end.
Definition type_text (v : value) : pystr :=
  match v with
  | VNone => str "<class 'NoneType'>" | VBool _ => str "<class 'bool'>" | VInt _ => str "<class 'int'>"
  | VBytes _ => str "<class 'bytes'>" | VStr _ => str_type | VOther _ c _ => c
  end.
Definition shown (v : value) : pystr :=
  match v with
  | VNone => str "None" | VBool true => str "True" | VBool false => str "False" | VInt z => dec z
  | VBytes b => bytes_repr b | VStr s => s | VOther _ _ s => s
  end.
Definition is_VNone (v : value) : bool := match v with VNone => true | _ => false end.
(** v == "text" *)
Definition equals (v : value) (s : pystr) : bool := match v with VStr t => str_eqb t s | _ => false end.
(** As an argument of get_bytes, utils.py:12-35 *)
Definition as_arg (v : value) : pyarg :=
  match v with VNone => PNone | VBytes b => PBytes b | VStr s => PStr s | _ => POther (truth v) end.
(** int(v); bytes are read as ASCII *)
Definition int_any (rewritten : pystr -> pystr) (v : value) : res Z :=
  match v with
  | VInt z => Ok z
  | VBool b => Ok (if b then 1 else 0)
  | VStr s => match int_of_str rewritten s with Some z => Ok z | None => Raise (Builtin ValueError) end
  | VBytes b => match int_of_str (fun s => s) (List.map Byte.to_N b) with Some z => Ok z | None => Raise (Builtin ValueError) end
  | VNone | VOther _ _ _ => Raise (Builtin TypeError)
  end.
(** libs/base58.py:49-66 and 69-74 on any argument *)
Definition decode_value (data : value) (alphabet : pystr) : res bytes :=
  match data with VStr s => decode s alphabet | _ => Raise (Builtin TypeError) end.
Definition check_decode_value (P : prims) (enc : value) (alphabet : pystr) : res bytes :=
  match enc with VStr s => check_decode P s alphabet | _ => Raise (Builtin TypeError) end.
(** scrypt.hash(unicodedata.normalize("NFC", passphrase), ...) *)
Definition scrypt_value (P : prims) (passphrase : value) (salt : bytes) (n r p : Z) (buflen : nat) : res bytes :=
  match passphrase with VStr s => scrypt_str P s salt n r p buflen | _ => Raise (Builtin TypeError) end.
(** wif.py:149-168 and 127-146 *)
Definition get_wif_type_value (wif : value) (cryptocurrency : coin) (network : pystr) : res pystr :=
  let* wp := wif_prefix_of cryptocurrency network in
  match wif with VStr s => let* (pk, t, c) := decode_wif s wp in Ok t | _ => Raise (Builtin TypeError) end.
Definition wif_to_private_key_value (wif : value) (cryptocurrency : coin) (network : pystr) : res pystr :=
  let* wp := wif_prefix_of cryptocurrency network in
  match wif with VStr s => let* (pk, t, c) := decode_wif s wp in bytes_to_string (PBytes pk) | _ => Raise (Builtin TypeError) end.

(** bip38.py:71-88, BIP38.__init__ *)
Definition init_any (cryptocurrency : coin_arg) (network : value) : res bip38 :=
  match cryptocurrency, network with
  | CoinClass c, VStr s => bip38_init (CoinClass c) s
  | CoinClass c, v =>
      Raise (lib_error CNetworkError (str "Wrong network type") None (ExpList (List.map fst (c_networks c))) (type_text v))
  | other, _ => bip38_init other []
  end.

(** bip38.py:180-184 = 258-262 = 386-390 = 503-507 *)
Definition select_network_any (self : bip38) (network : value) : res pystr :=
  let network := if truth network then network else VStr (s_network self) in
  match network with
  | VStr s =>
      if negb (str_in s (s_networks self))
      then Raise (lib_error CNetworkError (str "Wrong network type") None (ExpList (s_networks self)) str_type)
      else Ok s
  | v => Raise (lib_error CNetworkError (str "Wrong network type") None (ExpList (s_networks self)) (type_text v))
  end.

(** bip38.py:90-151, BIP38.intermediate_code *)
Definition intermediate_code_value (P : prims) (rewritten : pystr -> pystr) (urandom : bytes) (passphrase : value)
    (lot sequence : value) (owner_salt : value) : res pystr :=
  let* owner_salt := if truth owner_salt then get_bytes (as_arg owner_salt) true else Ok urandom in
  let n := List.length owner_salt in
  if negb (Nat.eqb n 4 || Nat.eqb n 8) then
    let* h := bytes_to_string (PBytes owner_salt) in
    Raise (lib_error CError (str "Invalid owner salt length") None (ExpList [dec 8; dec 16]) (dec (zlen h)))
  else if Nat.eqb n 4 && (is_VNone lot || is_VNone sequence)
  then
    let* h := bytes_to_string (PBytes owner_salt) in
    Raise (lib_error CError (str "Invalid owner salt length for non lot/sequence") None (ExpOther (str "16") true) (dec (zlen h)))
  else if (truth lot && is_VNone sequence) || (is_VNone lot && truth sequence)
  then Raise (lib_error CError (str "Both lot & sequence are required")
                (Some (str "got: (lot " ++ shown lot ++ str ") & (sequence " ++ shown sequence ++ str ")")) ExpNone (str "None"))
  else
    let* (pass_factor, magic, owner_entropy) :=
      if truth lot && truth sequence then
        let* lot := int_any rewritten lot in
        let* sequence := int_any rewritten sequence in
        if negb ((100000 <=? lot) && (lot <=? 999999))
        then Raise (lib_error CError (str "Invalid lot") None (ExpOther (str "100000 <= lot <= 999999") true) (dec lot))
        else if negb ((0 <=? sequence) && (sequence <=? 4095))
        then Raise (lib_error CError (str "Invalid sequence") None (ExpOther (str "0 <= sequence <= 4095") true) (dec sequence))
        else
          let* pre_factor := scrypt_value P passphrase (upto 4 owner_salt) 16384 8 8 32 in
          let* ls := integer_to_bytes_n (lot * 4096 + sequence) 4 in
          let owner_entropy := upto 4 owner_salt ++ ls in
          let* pass_factor := double_sha256 P (PBytes (pre_factor ++ owner_entropy)) in
          let* magic := integer_to_bytes MAGIC_LOT_AND_SEQUENCE in
          Ok (pass_factor, magic, owner_entropy)
      else
        let* pass_factor := scrypt_value P passphrase owner_salt 16384 8 8 32 in
        let* magic := integer_to_bytes MAGIC_NO_LOT_AND_SEQUENCE in
        Ok (pass_factor, magic, owner_salt) in
    let* sk := PrivateKey_from_bytes pass_factor in
    let* pass_point := PrivateKey_public_key sk in
    let* pp := raw_compressed pass_point in
    let* s := check_encode P (magic ++ owner_entropy ++ pp) base58_alphabet in
    ensure_string s.

(** bip38.py:153-225, BIP38.encrypt *)
Definition encrypt_any (P : prims) (self : bip38) (wif passphrase network : value)
    : res pystr :=
  let* network := select_network_any self network in
  let* wif_type := get_wif_type_value wif (s_cryptocurrency self) network in
  let* (flag, private_key, public_key_type) :=
    if str_eqb wif_type (str "wif") then
      let* flag := integer_to_bytes NO_EC_MULTIPLIED_WIF_FLAG in
      let* h := wif_to_private_key_value wif (s_cryptocurrency self) network in
      let* b := get_bytes (PStr h) true in
      let* sk := PrivateKey_from_bytes b in
      Ok (flag, sk, str "uncompressed")
    else
      let* flag := integer_to_bytes NO_EC_MULTIPLIED_WIF_COMPRESSED_FLAG in
      let* h := wif_to_private_key_value wif (s_cryptocurrency self) network in
      let* b := get_bytes (PStr h) true in
      let* sk := PrivateKey_from_bytes b in
      Ok (flag, sk, str "compressed") in
  let* public_key := PrivateKey_public_key private_key in
  let* address := address_of P self network public_key public_key_type in
  let* address_hash := address_hash_of P address in
  let* key := scrypt_value P passphrase address_hash 16384 8 8 64 in
  let derived_half_1 := slice 0 32 key in
  let derived_half_2 := slice 32 64 key in
  let* aes := aes_new derived_half_2 in
  let* m1 := xor_bytes (slice 0 16 (PrivateKey_raw private_key)) (slice 0 16 derived_half_1) in
  let* encrypted_half_1 := aes_encrypt P aes m1 in
  let* m2 := xor_bytes (slice 16 32 (PrivateKey_raw private_key)) (slice 16 32 derived_half_1) in
  let* encrypted_half_2 := aes_encrypt P aes m2 in
  let* prefix := integer_to_bytes NO_EC_MULTIPLIED_PRIVATE_KEY_PREFIX in
  let encrypted_private_key := prefix ++ flag ++ address_hash ++ encrypted_half_1 ++ encrypted_half_2 in
  let* chk := get_checksum P (PBytes encrypted_private_key) in
  let* s := encode (encrypted_private_key ++ chk) base58_alphabet in
  ensure_string s.

(** bip38.py:227-355, BIP38.create_new_encrypted_wif *)
Definition create_any (P : prims) (urandom : bytes) (self : bip38)
    (intermediate_passphrase wif_type seed network : value)
    : res new_wif :=
  let* network := select_network_any self network in
  let* seed_b := if truth seed then get_bytes (as_arg seed) true else Ok urandom in
  let* intermediate_decode :=
    match check_decode_value P intermediate_passphrase base58_alphabet with
    | Raise e => if is_value_error e then Raise (Lib CPassphraseError "Invalid intermediate passphrase")
                 else Raise e
    | Ok d => Ok d
    end in
  if negb (Nat.eqb (List.length intermediate_decode) 49)
  then Raise (lib_error CPassphraseError (str "Invalid intermediate passphrase length") None
                (ExpOther (str "49") true) (dec (zlen intermediate_decode)))
  else
  let magic := upto 8 intermediate_decode in
  let owner_entropy := slice 8 16 intermediate_decode in
  let pass_point := from 16 intermediate_decode in
  let* public_key_type :=
    if equals wif_type (str "wif") then Ok (str "uncompressed")
    else if equals wif_type (str "wif-compressed") then Ok (str "compressed")
    else Raise (lib_error CWIFError (str "Invalid wif type") None (ExpList WIF_TYPES) (shown wif_type)) in
  let* magic_ls := integer_to_bytes MAGIC_LOT_AND_SEQUENCE in
  let* magic_no := integer_to_bytes MAGIC_NO_LOT_AND_SEQUENCE in
  let* flag :=
    if bytes_eqb magic magic_ls then
      if str_eqb public_key_type (str "uncompressed")
      then integer_to_bytes MAGIC_LOT_AND_SEQUENCE_UNCOMPRESSED_FLAG
      else integer_to_bytes MAGIC_LOT_AND_SEQUENCE_COMPRESSED_FLAG
    else if bytes_eqb magic magic_no then
      if str_eqb public_key_type (str "uncompressed")
      then integer_to_bytes MAGIC_NO_LOT_AND_SEQUENCE_UNCOMPRESSED_FLAG
      else integer_to_bytes MAGIC_NO_LOT_AND_SEQUENCE_COMPRESSED_FLAG
    else raise_not_one_of "Invalid magic" MAGIC_LOT_AND_SEQUENCE MAGIC_NO_LOT_AND_SEQUENCE magic in
  let* factor_b := double_sha256 P (PBytes seed_b) in
  if negb ((0 <? bytes_to_integer factor_b) && (bytes_to_integer factor_b <? N_order))
  then Raise (Lib CError "Invalid EC encrypted WIF (Wallet Import Format)")
  else
  let* ppk := PublicKey_from_bytes pass_point in
  let* public_key :=
    PublicKey_from_point (Point_mul (PublicKey_point ppk) (bytes_to_integer factor_b)) in
  let* address := address_of P self network public_key public_key_type in
  let* address_hash := address_hash_of P address in
  let salt := address_hash ++ owner_entropy in
  let scrypt_hash := h_scrypt P pass_point salt 1024 1 1 64 in
  let derived_half_1 := upto 16 scrypt_hash in
  let derived_half_2 := slice 16 32 scrypt_hash in
  let key := from 32 scrypt_hash in
  let* aes := aes_new key in
  let* m1 := xor_bytes (upto 16 seed_b) derived_half_1 in
  let* encrypted_half_1 := aes_encrypt P aes m1 in
  let* m2 := xor_bytes (from 8 encrypted_half_1 ++ from 16 seed_b) derived_half_2 in
  let* encrypted_half_2 := aes_encrypt P aes m2 in
  let* ec_prefix := integer_to_bytes EC_MULTIPLIED_PRIVATE_KEY_PREFIX in
  let* ew := check_encode P (ec_prefix ++ flag ++ address_hash ++ owner_entropy
                             ++ upto 8 encrypted_half_1 ++ encrypted_half_2) base58_alphabet in
  let* encrypted_wif := ensure_string ew in
  let* fb := PrivateKey_from_bytes factor_b in
  let* fbp := PrivateKey_public_key fb in
  let* point_b := raw_compressed fbp in
  let* point_b_prefix :=
    integer_to_bytes (Z.lxor (Z.land (bytes_to_integer (from 63 scrypt_hash)) 1)
                             (bytes_to_integer (upto 1 point_b))) in
  let* m3 := xor_bytes (slice 1 17 point_b) derived_half_1 in
  let* point_b_half_1 := aes_encrypt P aes m3 in
  let* m4 := xor_bytes (from 17 point_b) derived_half_2 in
  let* point_b_half_2 := aes_encrypt P aes m4 in
  let encrypted_point_b := point_b_prefix ++ point_b_half_1 ++ point_b_half_2 in
  let* cfrm_prefix := integer_to_bytes CONFIRMATION_CODE_PREFIX in
  let* cc := check_encode P (cfrm_prefix ++ flag ++ address_hash ++ owner_entropy
                             ++ encrypted_point_b) base58_alphabet in
  let* confirmation_code := ensure_string cc in
  let* pkr := PublicKey_raw public_key public_key_type in
  let* pks := bytes_to_string (PBytes pkr) in
  let* seed_s := bytes_to_string (PBytes seed_b) in
  Ok {| n_encrypted_wif := encrypted_wif;
        n_confirmation_code := confirmation_code;
        n_public_key := pks;
        n_seed := seed_s;
        n_public_key_type := public_key_type;
        n_address := address |}.

(** bip38.py:408-419 = 580-591 *)
Definition derive_pass_factor_any (P : prims) (passphrase : value) (flag owner_entropy : bytes)
    : res (bytes * option bytes) :=
  let '(owner_salt, lot_and_sequence) :=
    if int_in (bytes_to_integer flag) FLAGS_lot_and_sequence
    then (upto 4 owner_entropy, Some (from 4 owner_entropy))
    else (owner_entropy, None) in
  let* pass_factor := scrypt_value P passphrase owner_salt 16384 8 8 32 in
  let* pass_factor :=
    match lot_and_sequence with
    | Some (_ :: _) => double_sha256 P (PBytes (pass_factor ++ owner_entropy))
    | _ => Ok pass_factor
    end in
  if (bytes_to_integer pass_factor =? 0) || (N_order <=? bytes_to_integer pass_factor)
  then Raise (Lib CError "Invalid EC encrypted WIF (Wallet Import Format)")
  else Ok (pass_factor, lot_and_sequence).

(** bip38.py:357-470, BIP38.confirm_code *)
Definition confirm_any (P : prims) (self : bip38) (passphrase confirmation_code network detail : value) : res confirm_result :=
  let* network := select_network_any self network in
  let* d :=
    match check_decode_value P confirmation_code base58_alphabet with
    | Raise e => if is_value_error e then Raise (Lib CError "Invalid confirmation code") else Raise e
    | Ok d => Ok d
    end in
  if negb (Nat.eqb (List.length d) 51) 
  then Raise (lib_error CError (str "Invalid confirmation code length") None (ExpOther (str "102") true) (dec (zlen d)))
  else
  let* prefix := integer_to_bytes CONFIRMATION_CODE_PREFIX in
  let prefix_got := upto (List.length prefix) d in
  if negb (bytes_eqb prefix prefix_got) 
  then Raise (lib_error CError (str "Invalid confirmation code prefix") None
                (ExpOther (dec (zlen prefix)) (negb (zlen prefix =? 0))) (bytes_repr prefix_got))
  else
  let flag := slice 5 6 d in
  let address_hash := slice 6 10 d in
  let owner_entropy := slice 10 18 d in
  let encrypted_point_b := from 18 d in
  let* (pass_factor, lot_and_sequence) := derive_pass_factor_any P passphrase flag owner_entropy in
  let* sk := PrivateKey_from_bytes pass_factor in
  let* ppk := PrivateKey_public_key sk in
  let* pass_point := raw_compressed ppk in
  let salt := address_hash ++ owner_entropy in
  let scrypt_hash := h_scrypt P pass_point salt 1024 1 1 64 in
  let derived_half_1 := slice 1 17 encrypted_point_b in
  let derived_half_2 := from 17 encrypted_point_b in
  let key := from 32 scrypt_hash in
  let* aes := aes_new key in
  let* d1 := aes_decrypt P aes derived_half_1 in
  let* point_b_half_1 := xor_bytes d1 (upto 16 scrypt_hash) in
  let* d2 := aes_decrypt P aes derived_half_2 in
  let* point_b_half_2 := xor_bytes d2 (slice 16 32 scrypt_hash) in
  let* point_b_prefix :=
    integer_to_bytes (Z.lxor (bytes_to_integer (upto 1 encrypted_point_b))
                             (Z.land (bytes_to_integer (from 63 scrypt_hash)) 1)) in
  let point_b := point_b_prefix ++ point_b_half_1 ++ point_b_half_2 in
  let* (public_key, public_key_type) :=
    match
      (let* pb := PublicKey_from_bytes point_b in
       let* pk := PublicKey_from_point (Point_mul (PublicKey_point pb) (bytes_to_integer pass_factor)) in
       Ok (pk, if int_in (bytes_to_integer flag) FLAGS_compression
               then str "compressed" else str "uncompressed"))
    with
    | Raise e => if is_secp256k1_error e then Raise (Lib CPassphraseError "Incorrect passphrase")
                 else Raise e
    | Ok r => Ok r
    end in
  let* address := address_of P self network public_key public_key_type in
  let* ah := address_hash_of P address in
  if bytes_eqb ah address_hash then
    if truth detail then
      let '(lot, sequence) := split_lot_sequence lot_and_sequence in
      let* pkr := PublicKey_raw public_key public_key_type in
      let* pks := bytes_to_string (PBytes pkr) in
      Ok (CDetail {| c_public_key := pks;
                     c_public_key_type := public_key_type;
                     c_address := address;
                     c_lot := lot;
                     c_sequence := sequence |})
    else Ok (CAddress address)
  else Raise (Lib CPassphraseError "Incorrect passphrase").

(** bip38.py:516-573, the non-EC branch of decrypt *)
Definition decrypt_no_ec_any (P : prims) (self : bip38) (d : bytes) (passphrase : value) (network : pystr)
    (detail : value) : res decrypt_result :=
  let flag := slice 2 3 d in
  let address_hash := slice 3 7 d in
  let* f_u := integer_to_bytes NO_EC_MULTIPLIED_WIF_FLAG in
  let* f_c := integer_to_bytes NO_EC_MULTIPLIED_WIF_COMPRESSED_FLAG in
  let* (wif_type, public_key_type) :=
    if bytes_eqb flag f_u then Ok (str "wif", str "uncompressed")
    else if bytes_eqb flag f_c then Ok (str "wif-compressed", str "compressed")
    else raise_not_one_of "Invalid flag" NO_EC_MULTIPLIED_WIF_FLAG NO_EC_MULTIPLIED_WIF_COMPRESSED_FLAG flag in
  let* key := scrypt_value P passphrase address_hash 16384 8 8 64 in
  let derived_half_1 := slice 0 32 key in
  let derived_half_2 := slice 32 64 key in
  let encrypted_half_1 := slice 7 23 d in
  let encrypted_half_2 := slice 23 39 d in
  let* aes := aes_new derived_half_2 in
  let* decrypted_half_2 := aes_decrypt P aes encrypted_half_2 in
  let* decrypted_half_1 := aes_decrypt P aes encrypted_half_1 in
  let* private_key := xor_bytes (decrypted_half_1 ++ decrypted_half_2) derived_half_1 in
  if (bytes_to_integer private_key =? 0) || (N_order <=? bytes_to_integer private_key)
  then Raise (Lib CError "Invalid Non-EC encrypted WIF (Wallet Import Format)")
  else
  let* sk := PrivateKey_from_bytes private_key in
  let* public_key := PrivateKey_public_key sk in
  let* address := address_of P self network public_key public_key_type in
  let* ah := address_hash_of P address in
  if negb (bytes_eqb ah address_hash) then Raise (Lib CPassphraseError "Incorrect passphrase")
  else
  let* wif := private_key_to_wif P (PBytes private_key) wif_type (s_cryptocurrency self) network in
  if truth detail then
    let* pk_s := bytes_to_string (PBytes private_key) in
    let* pub_r := PublicKey_raw public_key public_key_type in
    let* pub_s := bytes_to_string (PBytes pub_r) in
    Ok (DDetail {| d_wif := wif;
                   d_private_key := pk_s;
                   d_wif_type := wif_type;
                   d_public_key := pub_s;
                   d_public_key_type := public_key_type;
                   d_seed := None;
                   d_address := address;
                   d_lot := None;
                   d_sequence := None |})
  else Ok (DWif wif).

(** bip38.py:575-652, the EC branch of decrypt *)
Definition decrypt_ec_any (P : prims) (self : bip38) (d : bytes) (passphrase : value) (network : pystr)
    (detail : value) : res decrypt_result :=
  let flag := slice 2 3 d in
  let address_hash := slice 3 7 d in
  let owner_entropy := slice 7 15 d in
  let encrypted_half_1_half_1 := slice 15 23 d in
  let encrypted_half_2 := from 23 (upto_neg 4 d) in
  let* (pass_factor, lot_and_sequence) := derive_pass_factor_any P passphrase flag owner_entropy in
  let* psk := PrivateKey_from_bytes pass_factor in
  let* pre_public_key := PrivateKey_public_key psk in
  let salt := address_hash ++ owner_entropy in
  let* ppr := raw_compressed pre_public_key in
  let encrypted_seed_b := h_scrypt P ppr salt 1024 1 1 64 in
  let key := from 32 encrypted_seed_b in
  let* aes := aes_new key in
  let* d2 := aes_decrypt P aes encrypted_half_2 in
  let* h1h2_seed_last := xor_bytes d2 (slice 16 32 encrypted_seed_b) in
  let encrypted_half_1_half_2 := upto 8 h1h2_seed_last in
  let encrypted_half_1 := encrypted_half_1_half_1 ++ encrypted_half_1_half_2 in
  let* d1 := aes_decrypt P aes encrypted_half_1 in
  let* seed_1 := xor_bytes d1 (upto 16 encrypted_seed_b) in
  let seed_b := seed_1 ++ from 8 h1h2_seed_last in
  let* factor_b := double_sha256 P (PBytes seed_b) in
  if (bytes_to_integer factor_b =? 0) || (N_order <=? bytes_to_integer factor_b)
  then Raise (Lib CError "Invalid EC encrypted WIF (Wallet Import Format)")
  else
  let* private_key :=
    integer_to_bytes ((bytes_to_integer pass_factor * bytes_to_integer factor_b) mod N_order) in
  let* sk := PrivateKey_from_bytes private_key in
  let* public_key := PrivateKey_public_key sk in
  let '(wif_type, public_key_type) :=
    if int_in (bytes_to_integer flag) FLAGS_compression
    then (str "wif-compressed", str "compressed")
    else (str "wif", str "uncompressed") in
  let* address := address_of P self network public_key public_key_type in
  let* ah := address_hash_of P address in
  if bytes_eqb ah address_hash then
    let* wif := private_key_to_wif P (PBytes private_key) wif_type (s_cryptocurrency self) network in
    if truth detail then
      let '(lot, sequence) := split_lot_sequence lot_and_sequence in
      let* pk_s := bytes_to_string (PBytes private_key) in
      let* pub_r := PublicKey_raw public_key public_key_type in
      let* pub_s := bytes_to_string (PBytes pub_r) in
      let* seed_s := bytes_to_string (PBytes seed_b) in
      Ok (DDetail {| d_wif := wif;
                     d_private_key := pk_s;
                     d_wif_type := wif_type;
                     d_public_key := pub_s;
                     d_public_key_type := public_key_type;
                     d_seed := Some seed_s;
                     d_address := address;
                     d_lot := lot;
                     d_sequence := sequence |})
    else Ok (DWif wif)
  else Raise (Lib CPassphraseError "Incorrect passphrase").

(** bip38.py:472-659, BIP38.decrypt *)
Definition decrypt_any (P : prims) (self : bip38) (encrypted_wif passphrase network detail : value) : res decrypt_result :=
  let* network := select_network_any self network in
  let* d := decode_value encrypted_wif base58_alphabet in
  if negb (Nat.eqb (List.length d) 43) 
  then Raise (lib_error CWIFError (str "Invalid encrypted WIF length") None (ExpOther (str "43") true) (dec (zlen d)))
  else
  let prefix := upto 2 d in
  let* p_no := integer_to_bytes NO_EC_MULTIPLIED_PRIVATE_KEY_PREFIX in
  let* p_ec := integer_to_bytes EC_MULTIPLIED_PRIVATE_KEY_PREFIX in
  if bytes_eqb prefix p_no then decrypt_no_ec_any P self d passphrase network detail
  else if bytes_eqb prefix p_ec then decrypt_ec_any P self d passphrase network detail
  else raise_not_one_of "Invalid prefix" NO_EC_MULTIPLIED_PRIVATE_KEY_PREFIX EC_MULTIPLIED_PRIVATE_KEY_PREFIX prefix.
