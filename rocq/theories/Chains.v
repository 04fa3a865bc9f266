(** * Chains: what a traceback shows.

    An exception raised while another one is handled keeps that one as its context
    (or, with "raise ... from", as its cause), and a traceback prints the whole chain.
    An exception of str.encode has a text that says where the characters are that
    could not be encoded, and keeps the whole text in its attribute [object].
    The other files leave both out.  This file models once more, line by line as in
    [Base58.v], [Secp256k1.v], [Wif.v], [P2PKHAddress.v] and [Bip38.v], every function on
    the way of a call of a method of BIP38 in which an exception is caught or text is
    encoded; a call to another function is taken over as it is. *)
From Verif Require Import Py Prims Const Exceptions Utils Base58 Crypto Curve Secp256k1
  Cryptocurrencies P2PKHAddress Wif Bip38.

(** One exception as a traceback shows it.  Simplification: of the exceptions of
    the ecdsa package the model says only that they are there ([Malformed], whatever that
    package raised on the way to its MalformedPointError), and it leaves out the texts of
    ValueError, OverflowError and other exceptions of Python and of pyaes. *)
Inductive raised :=
  | Shown (e : exn)
  | Unencodable (codec reason : string) (object : pystr) (start stop : nat)
  | Malformed.
(** What a call does: it returns, or raises an exception; [before] are the exceptions
    the traceback prints above it, the nearest first *)
Inductive tres (A : Type) := Fine (a : A) | Fails (e : raised) (before : list raised).
Arguments Fine {A}. Arguments Fails {A}.
Definition Fail {A} (e : exn) : tres A := Fails (Shown e) [].
Definition tbind {A B} (m : tres A) (f : A -> tres B) : tres B :=
  match m with Fine a => f a | Fails e b => Fails e b end.
Notation "'let!' x ':=' e 'in' k" := (tbind e (fun x => k))
  (at level 200, x pattern, e at level 100, k at level 200, right associativity).
(** a call of a function without exceptions of interest *)
Definition plain {A} (x : res A) : tres A := match x with Ok a => Fine a | Raise e => Fail e end.
Coercion plain : res >-> tres.

(** except ValueError, except Secp256k1Error *)
Definition t_is_value_error (e : raised) : bool :=
  match e with Shown x => is_value_error x | Unencodable _ _ _ _ _ => true | Malformed => false end.
Definition t_is_secp256k1_error (e : raised) : bool :=
  match e with Shown x => is_secp256k1_error x | _ => false end.

(** How many characters at the start of a text satisfy [p] *)
Fixpoint count_while (p : N -> bool) (s : pystr) : nat :=
  match s with c :: r => if p c then S (count_while p r) else O | [] => O end.
(** The exception of an encoder that cannot encode the characters [bad]: it names the
    first of them and those that follow without a gap *)
Definition cannot_encode (codec reason : string) (bad : N -> bool) (s : pystr) : raised :=
  let start := count_while (fun c => negb (bad c)) s in
  Unencodable codec reason s start (start + count_while bad (skipn start s)).
(** bytes(s, "ascii") *)
Definition t_ascii_encode (s : pystr) : tres bytes :=
  match ascii_encode s with
  | Ok b => Fine b
  | Raise _ => Fails (cannot_encode "ascii" "ordinal not in range(128)" (fun c => 128 <=? c)%N s) []
  end.
(** bytes(s, "utf-8") *)
Definition t_utf8_encode (s : pystr) : tres bytes :=
  match utf8_encode s with
  | Ok b => Fine b
  | Raise _ => Fails (cannot_encode "utf-8" "surrogates not allowed"
                        (fun c => match utf8_char c with Some _ => false | None => true end) s) []
  end.

(** The text of the exception, UnicodeEncodeError.__str__: \xNN, \uNNNN or \UNNNNNNNN
    for a single character *)
Fixpoint hex_digits (n : nat) (c : N) : pystr :=
  match n with O => [] | S m => hex_digits m (c / 16) ++ [hexdigit (c mod 16)]%N end.
Definition escaped (c : N) : pystr :=
  (if c <? 256 then str "\x" ++ hex_digits 2 c
   else if c <? 65536 then str "\u" ++ hex_digits 4 c
   else str "\U" ++ hex_digits 8 c)%N%list.
Definition unencodable_text (codec reason : string) (object : pystr) (start stop : nat) : pystr :=
  match nth_error object start, Nat.eqb stop (S start) with
  | Some c, true => (str "'" ++ str codec ++ str "' codec can't encode character '" ++ escaped c ++ str "' in position "
                       ++ dec (Z.of_nat start) ++ str ": " ++ str reason)%list
  | _, _ => (str "'" ++ str codec ++ str "' codec can't encode characters in position "
               ++ dec (Z.of_nat start) ++ str "-" ++ dec (Z.of_nat stop - 1) ++ str ": " ++ str reason)%list
  end.

(** base58.py:47-65, decode *)
Definition t_decode (data : pystr) (alphabet : pystr) : tres bytes :=
  let! data := t_ascii_encode data in
  let! (val, prefix) := decode_loop alphabet data 0 O in
  let! dec := bytes_loop (S (Z.to_nat (Z.log2 val))) val [] in
  Fine (rev (dec ++ repeat x00 prefix)).

(** base58.py:68-74, check_decode *)
Definition t_check_decode (P : prims) (enc : pystr) (alphabet : pystr) : tres bytes :=
  let! dec := t_decode enc alphabet in
  let raw := upto_neg 4 dec in
  let chk := from_neg 4 dec in
  if negb (bytes_eqb chk (upto 4 (h_sha256 P (h_sha256 P raw))))
  then Fail (Builtin ValueError)
  else Fine raw.

(** scrypt.hash on a str password, as in [Bip38.v] *)
Definition t_scrypt_str (P : prims) (passphrase : pystr) (salt : bytes) (n r p : Z) (buflen : nat)
    : tres bytes :=
  let! pw := t_utf8_encode (h_nfc P passphrase) in
  Fine (h_scrypt P pw salt n r p buflen).

(** public_key.py:35-54, PublicKey.from_bytes *)
Definition t_PublicKey_from_bytes (public_key : bytes) : tres pubkey :=
  match point_coords public_key with
  | Some (x, y) =>
      if valid_public_point x y then Fine {| pk_x := x; pk_y := y |}
      else Fails (Shown (Lib CSecp256k1Error "Invalid public key bytes")) [Malformed]
  | None => Fails (Shown (Lib CSecp256k1Error "Invalid public key bytes")) [Malformed]
  end.

(** public_key.py:56-78, PublicKey.from_point.  For the point at infinity
    contains_point(None, None) is a TypeError; off-curve coordinates fail the
    assertion in ellipticcurve.Point; out-of-range ones are rejected by
    ecdsa.Public_key. *)
Definition t_PublicKey_from_point (point : pt) : tres pubkey :=
  match point with
  | Inf => Fail (Builtin TypeError)
  | Aff x y =>
      if negb (contains_point x y) then Fail (Builtin AssertionError)
      else if valid_public_point x y then Fine {| pk_x := x; pk_y := y |}
      else Fails (Shown (Lib CSecp256k1Error "Invalid public key point")) [Malformed]
  end.

(** private_key.py:32-51, PrivateKey.from_bytes.  SigningKey.from_string raises
    MalformedPointError for a wrong length or an exponent outside 1..n-1. *)
Definition t_PrivateKey_from_bytes (private_key : bytes) : tres privkey :=
  if negb (Nat.eqb (List.length private_key) 32)
  then Fails (Shown (Lib CSecp256k1Error "Invalid private key bytes")) [Malformed]
  else
    let e := string_to_number private_key in
    if (1 <=? e) && (e <? G_order) then Fine {| secexp := e |}
    else Fails (Shown (Lib CSecp256k1Error "Invalid private key bytes")) [Malformed].

(** wif.py:59-94, decode_wif: (private_key, wif_type, checksum) *)
Definition t_decode_wif (wif : pystr) (wif_prefix : Z) : tres (bytes * pystr * bytes) :=
  let! raw := t_decode wif base58_alphabet in
  let! prefix := integer_to_bytes wif_prefix in
  if negb (startswith prefix raw)
  then Fail (Lib CWIFError "Invalid Wallet Import Format (WIF)")
  else
    let prefix_length := List.length prefix in
    let prefix_got := upto prefix_length raw in
    if negb (bytes_eqb prefix prefix_got) then 
    Fail (lib_error CWIFError (str "Invalid WIF prefix") None
             (ExpOther (dec (Z.of_nat prefix_length)) (negb (Nat.eqb prefix_length 0))) (bytes_repr prefix_got))
    else
      let raw_without_prefix := from prefix_length raw in
      let checksum := from_neg 4 raw_without_prefix in
      let private_key := upto_neg 4 raw_without_prefix in
      let n := List.length private_key in
      if negb (Nat.eqb n 33 || Nat.eqb n 32)
      then Fail (Lib CWIFError "Invalid Wallet Import Format (WIF)")
      else if Nat.eqb n 33 then
        let! suffix := integer_to_bytes COMPRESSED_PRIVATE_KEY_PREFIX in
        Fine (upto_neg (List.length suffix) private_key, str "wif-compressed", checksum)
      else Fine (private_key, str "wif", checksum).

(** wif.py:127-146, wif_to_private_key *)
Definition t_wif_to_private_key (wif : pystr) (cryptocurrency : coin) (network : pystr) : tres pystr :=
  let! wp := wif_prefix_of cryptocurrency network in
  let! (pk, t, c) := t_decode_wif wif wp in
  bytes_to_string (PBytes pk).

(** wif.py:149-168, get_wif_type *)
Definition t_get_wif_type (wif : pystr) (cryptocurrency : coin) (network : pystr) : tres pystr :=
  let! wp := wif_prefix_of cryptocurrency network in
  let! (pk, t, c) := t_decode_wif wif wp in
  Fine t.

(** wif.py:171-190, get_wif_checksum *)
Definition t_get_wif_checksum (wif : pystr) (cryptocurrency : coin) (network : pystr) : tres pystr :=
  let! wp := wif_prefix_of cryptocurrency network in
  let! (pk, t, c) := t_decode_wif wif wp in
  bytes_to_string (PBytes c).

(** p2pkh_address.py:64-97, P2PKHAddress.decode *)
Definition t_P2PKH_decode (P : prims) (address : pystr)
    (address_prefix : option Z) (alphabet : option pystr) : tres pystr :=
  let! prefix := integer_to_bytes (default default_address_prefix address_prefix) in
  let! d := t_check_decode P address (default Bitcoin_ALPHABET alphabet) in
  let expected_length := (20 + List.length prefix)%nat in
  if negb (Nat.eqb (List.length d) expected_length)
  then Fail (Lib CAddressError
    (str "Invalid length (expected: " ++ dec (Z.of_nat expected_length) ++ str ", got: " ++ dec (zlen d) ++ str ")")%list)
  else
    let prefix_got := upto (List.length prefix) d in
    if negb (bytes_eqb prefix prefix_got)
    then Fail (Lib CAddressError
      (str "Invalid prefix (expected: " ++ bytes_repr prefix ++ str ", got: " ++ bytes_repr prefix_got ++ str ")")%list)
    else bytes_to_string (PBytes (from (List.length prefix) d)).

(** bip38.py:90-151, BIP38.intermediate_code.  [urandom] is the value that
    os.urandom(8) returns if it is called. *)
Definition t_intermediate_code (P : prims) (urandom : bytes) (passphrase : pystr)
    (lot sequence : option Z) (owner_salt : pyarg) : tres pystr :=
  let! owner_salt := if truthy owner_salt then get_bytes owner_salt true else Fine urandom in
  let n := List.length owner_salt in
  if negb (Nat.eqb n 4 || Nat.eqb n 8) then
    let! h := bytes_to_string (PBytes owner_salt) in
    Fail (lib_error CError (str "Invalid owner salt length") None (ExpList [dec 8; dec 16]) (dec (zlen h)))
  else if Nat.eqb n 4 && (is_none lot || is_none sequence)
  then
    let! h := bytes_to_string (PBytes owner_salt) in
    Fail (lib_error CError (str "Invalid owner salt length for non lot/sequence") None (ExpOther (str "16") true) (dec (zlen h)))
  else if (truthy_int lot && is_none sequence) || (is_none lot && truthy_int sequence)
  then Fail (lib_error CError (str "Both lot & sequence are required")
                (Some (str "got: (lot " ++ opt_dec lot ++ str ") & (sequence " ++ opt_dec sequence ++ str ")")) ExpNone (str "None"))
  else
    let! (pass_factor, magic, owner_entropy) :=
      match truthy_int lot && truthy_int sequence, lot, sequence with
      | true, Some lot, Some sequence =>
          if negb ((100000 <=? lot) && (lot <=? 999999))
          then Fail (lib_error CError (str "Invalid lot") None (ExpOther (str "100000 <= lot <= 999999") true) (dec lot))
          else if negb ((0 <=? sequence) && (sequence <=? 4095))
          then Fail (lib_error CError (str "Invalid sequence") None (ExpOther (str "0 <= sequence <= 4095") true) (dec sequence))
          else
            let! pre_factor := t_scrypt_str P passphrase (upto 4 owner_salt) 16384 8 8 32 in
            let! ls := integer_to_bytes_n (lot * 4096 + sequence) 4 in
            let owner_entropy := upto 4 owner_salt ++ ls in
            let! pass_factor := double_sha256 P (PBytes (pre_factor ++ owner_entropy)) in
            let! magic := integer_to_bytes MAGIC_LOT_AND_SEQUENCE in
            Fine (pass_factor, magic, owner_entropy)
      | _, _, _ =>
          let! pass_factor := t_scrypt_str P passphrase owner_salt 16384 8 8 32 in
          let! magic := integer_to_bytes MAGIC_NO_LOT_AND_SEQUENCE in
          Fine (pass_factor, magic, owner_salt)
      end in
    let! sk := t_PrivateKey_from_bytes pass_factor in
    let! pass_point := PrivateKey_public_key sk in
    let! pp := raw_compressed pass_point in
    let! s := check_encode P (magic ++ owner_entropy ++ pp) base58_alphabet in
    ensure_string s.

(** bip38.py:153-225, BIP38.encrypt *)
Definition t_encrypt (P : prims) (self : bip38) (wif passphrase : pystr) (network : option pystr)
    : tres pystr :=
  let! network := select_network self network in
  let! wif_type := t_get_wif_type wif (s_cryptocurrency self) network in
  let! (flag, private_key, public_key_type) :=
    if str_eqb wif_type (str "wif") then
      let! flag := integer_to_bytes NO_EC_MULTIPLIED_WIF_FLAG in
      let! h := t_wif_to_private_key wif (s_cryptocurrency self) network in
      let! b := get_bytes (PStr h) true in
      let! sk := t_PrivateKey_from_bytes b in
      Fine (flag, sk, str "uncompressed")
    else
      let! flag := integer_to_bytes NO_EC_MULTIPLIED_WIF_COMPRESSED_FLAG in
      let! h := t_wif_to_private_key wif (s_cryptocurrency self) network in
      let! b := get_bytes (PStr h) true in
      let! sk := t_PrivateKey_from_bytes b in
      Fine (flag, sk, str "compressed") in
  let! public_key := PrivateKey_public_key private_key in
  let! address := address_of P self network public_key public_key_type in
  let! address_hash := address_hash_of P address in
  let! key := t_scrypt_str P passphrase address_hash 16384 8 8 64 in
  let derived_half_1 := slice 0 32 key in
  let derived_half_2 := slice 32 64 key in
  let! aes := aes_new derived_half_2 in
  let! m1 := xor_bytes (slice 0 16 (PrivateKey_raw private_key)) (slice 0 16 derived_half_1) in
  let! encrypted_half_1 := aes_encrypt P aes m1 in
  let! m2 := xor_bytes (slice 16 32 (PrivateKey_raw private_key)) (slice 16 32 derived_half_1) in
  let! encrypted_half_2 := aes_encrypt P aes m2 in
  let! prefix := integer_to_bytes NO_EC_MULTIPLIED_PRIVATE_KEY_PREFIX in
  let encrypted_private_key := prefix ++ flag ++ address_hash ++ encrypted_half_1 ++ encrypted_half_2 in
  let! chk := get_checksum P (PBytes encrypted_private_key) in
  let! s := encode (encrypted_private_key ++ chk) base58_alphabet in
  ensure_string s.

(** bip38.py:227-355, BIP38.create_new_encrypted_wif.  [urandom] is the value
    that os.urandom(24) returns if it is called. *)
Definition t_create_new_encrypted_wif (P : prims) (urandom : bytes) (self : bip38)
    (intermediate_passphrase wif_type : pystr) (seed : pyarg) (network : option pystr)
    : tres new_wif :=
  let! network := select_network self network in
  let! seed_b := if truthy seed then get_bytes seed true else Fine urandom in
  let! intermediate_decode :=
    match t_check_decode P intermediate_passphrase base58_alphabet with
    | Fails e b => if t_is_value_error e then Fails (Shown (Lib CPassphraseError "Invalid intermediate passphrase")) (e :: b)
                   else Fails e b
    | Fine d => Fine d
    end in
  if negb (Nat.eqb (List.length intermediate_decode) 49)
  then Fail (lib_error CPassphraseError (str "Invalid intermediate passphrase length") None
                (ExpOther (str "49") true) (dec (zlen intermediate_decode)))
  else
  let magic := upto 8 intermediate_decode in
  let owner_entropy := slice 8 16 intermediate_decode in
  let pass_point := from 16 intermediate_decode in
  let! public_key_type :=
    if str_eqb wif_type (str "wif") then Fine (str "uncompressed")
    else if str_eqb wif_type (str "wif-compressed") then Fine (str "compressed")
    else Fail (lib_error CWIFError (str "Invalid wif type") None (ExpList WIF_TYPES) wif_type) in
  let! magic_ls := integer_to_bytes MAGIC_LOT_AND_SEQUENCE in
  let! magic_no := integer_to_bytes MAGIC_NO_LOT_AND_SEQUENCE in
  let! flag :=
    if bytes_eqb magic magic_ls then
      if str_eqb public_key_type (str "uncompressed")
      then integer_to_bytes MAGIC_LOT_AND_SEQUENCE_UNCOMPRESSED_FLAG
      else integer_to_bytes MAGIC_LOT_AND_SEQUENCE_COMPRESSED_FLAG
    else if bytes_eqb magic magic_no then
      if str_eqb public_key_type (str "uncompressed")
      then integer_to_bytes MAGIC_NO_LOT_AND_SEQUENCE_UNCOMPRESSED_FLAG
      else integer_to_bytes MAGIC_NO_LOT_AND_SEQUENCE_COMPRESSED_FLAG
    else raise_not_one_of "Invalid magic" MAGIC_LOT_AND_SEQUENCE MAGIC_NO_LOT_AND_SEQUENCE magic in
  let! factor_b := double_sha256 P (PBytes seed_b) in
  if negb ((0 <? bytes_to_integer factor_b) && (bytes_to_integer factor_b <? N_order))
  then Fail (Lib CError "Invalid EC encrypted WIF (Wallet Import Format)")
  else
  let! ppk := t_PublicKey_from_bytes pass_point in
  let! public_key :=
    t_PublicKey_from_point (Point_mul (PublicKey_point ppk) (bytes_to_integer factor_b)) in
  let! address := address_of P self network public_key public_key_type in
  let! address_hash := address_hash_of P address in
  let salt := address_hash ++ owner_entropy in
  let scrypt_hash := h_scrypt P pass_point salt 1024 1 1 64 in
  let derived_half_1 := upto 16 scrypt_hash in
  let derived_half_2 := slice 16 32 scrypt_hash in
  let key := from 32 scrypt_hash in
  let! aes := aes_new key in
  let! m1 := xor_bytes (upto 16 seed_b) derived_half_1 in
  let! encrypted_half_1 := aes_encrypt P aes m1 in
  let! m2 := xor_bytes (from 8 encrypted_half_1 ++ from 16 seed_b) derived_half_2 in
  let! encrypted_half_2 := aes_encrypt P aes m2 in
  let! ec_prefix := integer_to_bytes EC_MULTIPLIED_PRIVATE_KEY_PREFIX in
  let! ew := check_encode P (ec_prefix ++ flag ++ address_hash ++ owner_entropy
                             ++ upto 8 encrypted_half_1 ++ encrypted_half_2) base58_alphabet in
  let! encrypted_wif := ensure_string ew in
  let! fb := t_PrivateKey_from_bytes factor_b in
  let! fbp := PrivateKey_public_key fb in
  let! point_b := raw_compressed fbp in
  let! point_b_prefix :=
    integer_to_bytes (Z.lxor (Z.land (bytes_to_integer (from 63 scrypt_hash)) 1)
                             (bytes_to_integer (upto 1 point_b))) in
  let! m3 := xor_bytes (slice 1 17 point_b) derived_half_1 in
  let! point_b_half_1 := aes_encrypt P aes m3 in
  let! m4 := xor_bytes (from 17 point_b) derived_half_2 in
  let! point_b_half_2 := aes_encrypt P aes m4 in
  let encrypted_point_b := point_b_prefix ++ point_b_half_1 ++ point_b_half_2 in
  let! cfrm_prefix := integer_to_bytes CONFIRMATION_CODE_PREFIX in
  let! cc := check_encode P (cfrm_prefix ++ flag ++ address_hash ++ owner_entropy
                             ++ encrypted_point_b) base58_alphabet in
  let! confirmation_code := ensure_string cc in
  let! pkr := PublicKey_raw public_key public_key_type in
  let! pks := bytes_to_string (PBytes pkr) in
  let! seed_s := bytes_to_string (PBytes seed_b) in
  Fine {| n_encrypted_wif := encrypted_wif;
        n_confirmation_code := confirmation_code;
        n_public_key := pks;
        n_seed := seed_s;
        n_public_key_type := public_key_type;
        n_address := address |}.

(** bip38.py:408-419 = 580-591: pass factor from the passphrase and the entropy *)
Definition t_derive_pass_factor (P : prims) (passphrase : pystr) (flag owner_entropy : bytes)
    : tres (bytes * option bytes) :=
  let '(owner_salt, lot_and_sequence) :=
    if int_in (bytes_to_integer flag) FLAGS_lot_and_sequence
    then (upto 4 owner_entropy, Some (from 4 owner_entropy))
    else (owner_entropy, None) in
  let! pass_factor := t_scrypt_str P passphrase owner_salt 16384 8 8 32 in
  let! pass_factor :=
    match lot_and_sequence with
    | Some (_ :: _) => double_sha256 P (PBytes (pass_factor ++ owner_entropy))
    | _ => Fine pass_factor
    end in
  if (bytes_to_integer pass_factor =? 0) || (N_order <=? bytes_to_integer pass_factor)
  then Fail (Lib CError "Invalid EC encrypted WIF (Wallet Import Format)")
  else Fine (pass_factor, lot_and_sequence).

(** bip38.py:357-470, BIP38.confirm_code *)
Definition t_confirm_code (P : prims) (self : bip38) (passphrase confirmation_code : pystr)
    (network : option pystr) (detail : bool) : tres confirm_result :=
  let! network := select_network self network in
  let! d :=
    match t_check_decode P confirmation_code base58_alphabet with
    | Fails e b => if t_is_value_error e then Fails (Shown (Lib CError "Invalid confirmation code")) (e :: b) else Fails e b
    | Fine d => Fine d
    end in
  if negb (Nat.eqb (List.length d) 51) 
  then Fail (lib_error CError (str "Invalid confirmation code length") None (ExpOther (str "102") true) (dec (zlen d)))
  else
  let! prefix := integer_to_bytes CONFIRMATION_CODE_PREFIX in
  let prefix_got := upto (List.length prefix) d in
  if negb (bytes_eqb prefix prefix_got) 
  then Fail (lib_error CError (str "Invalid confirmation code prefix") None
                (ExpOther (dec (zlen prefix)) (negb (zlen prefix =? 0))) (bytes_repr prefix_got))
  else
  let flag := slice 5 6 d in
  let address_hash := slice 6 10 d in
  let owner_entropy := slice 10 18 d in
  let encrypted_point_b := from 18 d in
  let! (pass_factor, lot_and_sequence) := t_derive_pass_factor P passphrase flag owner_entropy in
  let! sk := t_PrivateKey_from_bytes pass_factor in
  let! ppk := PrivateKey_public_key sk in
  let! pass_point := raw_compressed ppk in
  let salt := address_hash ++ owner_entropy in
  let scrypt_hash := h_scrypt P pass_point salt 1024 1 1 64 in
  let derived_half_1 := slice 1 17 encrypted_point_b in
  let derived_half_2 := from 17 encrypted_point_b in
  let key := from 32 scrypt_hash in
  let! aes := aes_new key in
  let! d1 := aes_decrypt P aes derived_half_1 in
  let! point_b_half_1 := xor_bytes d1 (upto 16 scrypt_hash) in
  let! d2 := aes_decrypt P aes derived_half_2 in
  let! point_b_half_2 := xor_bytes d2 (slice 16 32 scrypt_hash) in
  let! point_b_prefix :=
    integer_to_bytes (Z.lxor (bytes_to_integer (upto 1 encrypted_point_b))
                             (Z.land (bytes_to_integer (from 63 scrypt_hash)) 1)) in
  let point_b := point_b_prefix ++ point_b_half_1 ++ point_b_half_2 in
  let! (public_key, public_key_type) :=
    match
      (let! pb := t_PublicKey_from_bytes point_b in
       let! pk := t_PublicKey_from_point (Point_mul (PublicKey_point pb) (bytes_to_integer pass_factor)) in
       Fine (pk, if int_in (bytes_to_integer flag) FLAGS_compression
               then str "compressed" else str "uncompressed"))
    with
    | Fails e b => if t_is_secp256k1_error e then Fails (Shown (Lib CPassphraseError "Incorrect passphrase")) (e :: b)
                   else Fails e b
    | Fine r => Fine r
    end in
  let! address := address_of P self network public_key public_key_type in
  let! ah := address_hash_of P address in
  if bytes_eqb ah address_hash then
    if detail then
      let '(lot, sequence) := split_lot_sequence lot_and_sequence in
      let! pkr := PublicKey_raw public_key public_key_type in
      let! pks := bytes_to_string (PBytes pkr) in
      Fine (CDetail {| c_public_key := pks;
                     c_public_key_type := public_key_type;
                     c_address := address;
                     c_lot := lot;
                     c_sequence := sequence |})
    else Fine (CAddress address)
  else Fail (Lib CPassphraseError "Incorrect passphrase").

(** bip38.py:516-573, the non-EC branch of decrypt; [d] is the decoded key *)
Definition t_decrypt_no_ec (P : prims) (self : bip38) (d : bytes) (passphrase network : pystr)
    (detail : bool) : tres decrypt_result :=
  let flag := slice 2 3 d in
  let address_hash := slice 3 7 d in
  let! f_u := integer_to_bytes NO_EC_MULTIPLIED_WIF_FLAG in
  let! f_c := integer_to_bytes NO_EC_MULTIPLIED_WIF_COMPRESSED_FLAG in
  let! (wif_type, public_key_type) :=
    if bytes_eqb flag f_u then Fine (str "wif", str "uncompressed")
    else if bytes_eqb flag f_c then Fine (str "wif-compressed", str "compressed")
    else raise_not_one_of "Invalid flag" NO_EC_MULTIPLIED_WIF_FLAG NO_EC_MULTIPLIED_WIF_COMPRESSED_FLAG flag in
  let! key := t_scrypt_str P passphrase address_hash 16384 8 8 64 in
  let derived_half_1 := slice 0 32 key in
  let derived_half_2 := slice 32 64 key in
  let encrypted_half_1 := slice 7 23 d in
  let encrypted_half_2 := slice 23 39 d in
  let! aes := aes_new derived_half_2 in
  let! decrypted_half_2 := aes_decrypt P aes encrypted_half_2 in
  let! decrypted_half_1 := aes_decrypt P aes encrypted_half_1 in
  let! private_key := xor_bytes (decrypted_half_1 ++ decrypted_half_2) derived_half_1 in
  if (bytes_to_integer private_key =? 0) || (N_order <=? bytes_to_integer private_key)
  then Fail (Lib CError "Invalid Non-EC encrypted WIF (Wallet Import Format)")
  else
  let! sk := t_PrivateKey_from_bytes private_key in
  let! public_key := PrivateKey_public_key sk in
  let! address := address_of P self network public_key public_key_type in
  let! ah := address_hash_of P address in
  if negb (bytes_eqb ah address_hash) then Fail (Lib CPassphraseError "Incorrect passphrase")
  else
  let! wif := private_key_to_wif P (PBytes private_key) wif_type (s_cryptocurrency self) network in
  if detail then
    let! pk_s := bytes_to_string (PBytes private_key) in
    let! pub_r := PublicKey_raw public_key public_key_type in
    let! pub_s := bytes_to_string (PBytes pub_r) in
    Fine (DDetail {| d_wif := wif;
                   d_private_key := pk_s;
                   d_wif_type := wif_type;
                   d_public_key := pub_s;
                   d_public_key_type := public_key_type;
                   d_seed := None;
                   d_address := address;
                   d_lot := None;
                   d_sequence := None |})
  else Fine (DWif wif).

(** bip38.py:575-652, the EC branch of decrypt *)
Definition t_decrypt_ec (P : prims) (self : bip38) (d : bytes) (passphrase network : pystr)
    (detail : bool) : tres decrypt_result :=
  let flag := slice 2 3 d in
  let address_hash := slice 3 7 d in
  let owner_entropy := slice 7 15 d in
  let encrypted_half_1_half_1 := slice 15 23 d in
  let encrypted_half_2 := from 23 (upto_neg 4 d) in
  let! (pass_factor, lot_and_sequence) := t_derive_pass_factor P passphrase flag owner_entropy in
  let! psk := t_PrivateKey_from_bytes pass_factor in
  let! pre_public_key := PrivateKey_public_key psk in
  let salt := address_hash ++ owner_entropy in
  let! ppr := raw_compressed pre_public_key in
  let encrypted_seed_b := h_scrypt P ppr salt 1024 1 1 64 in
  let key := from 32 encrypted_seed_b in
  let! aes := aes_new key in
  let! d2 := aes_decrypt P aes encrypted_half_2 in
  let! h1h2_seed_last := xor_bytes d2 (slice 16 32 encrypted_seed_b) in
  let encrypted_half_1_half_2 := upto 8 h1h2_seed_last in
  let encrypted_half_1 := encrypted_half_1_half_1 ++ encrypted_half_1_half_2 in
  let! d1 := aes_decrypt P aes encrypted_half_1 in
  let! seed_1 := xor_bytes d1 (upto 16 encrypted_seed_b) in
  let seed_b := seed_1 ++ from 8 h1h2_seed_last in
  let! factor_b := double_sha256 P (PBytes seed_b) in
  if (bytes_to_integer factor_b =? 0) || (N_order <=? bytes_to_integer factor_b)
  then Fail (Lib CError "Invalid EC encrypted WIF (Wallet Import Format)")
  else
  let! private_key :=
    integer_to_bytes ((bytes_to_integer pass_factor * bytes_to_integer factor_b) mod N_order) in
  let! sk := t_PrivateKey_from_bytes private_key in
  let! public_key := PrivateKey_public_key sk in
  let '(wif_type, public_key_type) :=
    if int_in (bytes_to_integer flag) FLAGS_compression
    then (str "wif-compressed", str "compressed")
    else (str "wif", str "uncompressed") in
  let! address := address_of P self network public_key public_key_type in
  let! ah := address_hash_of P address in
  if bytes_eqb ah address_hash then
    let! wif := private_key_to_wif P (PBytes private_key) wif_type (s_cryptocurrency self) network in
    if detail then
      let '(lot, sequence) := split_lot_sequence lot_and_sequence in
      let! pk_s := bytes_to_string (PBytes private_key) in
      let! pub_r := PublicKey_raw public_key public_key_type in
      let! pub_s := bytes_to_string (PBytes pub_r) in
      let! seed_s := bytes_to_string (PBytes seed_b) in
      Fine (DDetail {| d_wif := wif;
                     d_private_key := pk_s;
                     d_wif_type := wif_type;
                     d_public_key := pub_s;
                     d_public_key_type := public_key_type;
                     d_seed := Some seed_s;
                     d_address := address;
                     d_lot := lot;
                     d_sequence := sequence |})
    else Fine (DWif wif)
  else Fail (Lib CPassphraseError "Incorrect passphrase").

(** bip38.py:472-659, BIP38.decrypt *)
Definition t_decrypt (P : prims) (self : bip38) (encrypted_wif passphrase : pystr)
    (network : option pystr) (detail : bool) : tres decrypt_result :=
  let! network := select_network self network in
  let! d := t_decode encrypted_wif base58_alphabet in
  if negb (Nat.eqb (List.length d) 43) 
  then Fail (lib_error CWIFError (str "Invalid encrypted WIF length") None (ExpOther (str "43") true) (dec (zlen d)))
  else
  let prefix := upto 2 d in
  let! p_no := integer_to_bytes NO_EC_MULTIPLIED_PRIVATE_KEY_PREFIX in
  let! p_ec := integer_to_bytes EC_MULTIPLIED_PRIVATE_KEY_PREFIX in
  if bytes_eqb prefix p_no then t_decrypt_no_ec P self d passphrase network detail
  else if bytes_eqb prefix p_ec then t_decrypt_ec P self d passphrase network detail
  else raise_not_one_of "Invalid prefix" NO_EC_MULTIPLIED_PRIVATE_KEY_PREFIX EC_MULTIPLIED_PRIVATE_KEY_PREFIX prefix.

