(** * ExampleScripts: the programs in /repo/examples

    Six scripts: two encrypt a WIF and decrypt it again, four make an intermediate
    code, a new encrypted WIF, confirm it and decrypt it.  They differ only in the
    constants at their beginning, which are arguments here.  A run is the list of the
    texts printed and the exception that ended it, if any.

    json.dumps (of CPython, ensure_ascii=True, indent=4) is modelled for dictionaries
    from texts to texts, integers and None, and for texts. *)
From Verif Require Import Py Prims Cryptocurrencies Wif Bip38 SpecJson.

(** ** json.dumps *)
Definition hex_digit (n : N) : N := if (n <? 10)%N then (48 + n)%N else (87 + n)%N.
(** '\\u{0:04x}' *)
Definition u_escape (n : N) : pystr :=
  [92; 117; hex_digit (n / 4096 mod 16); hex_digit (n / 256 mod 16); hex_digit (n / 16 mod 16); hex_digit (n mod 16)]%N.
(** json.encoder.py_encode_basestring_ascii, for one character *)
Definition escape (c : N) : pystr :=
  (if c =? 34 then [92; 34] else if c =? 92 then [92; 92] else if c =? 10 then [92; 110] else if c =? 13 then [92; 114]
   else if c =? 9 then [92; 116] else if c =? 12 then [92; 102] else if c =? 8 then [92; 98]
   else if (32 <=? c) && (c <=? 126) then [c]
   else if c <? 0x10000 then u_escape c
   else let n := c - 0x10000 in u_escape (0xD800 + n / 1024 mod 1024) ++ u_escape (0xDC00 + n mod 1024))%N.
Definition dumps_text (s : pystr) : pystr := (34%N :: List.concat (List.map escape s) ++ [34%N])%list.
Definition dumps_scalar (v : jscalar) : pystr :=
  match v with JText s => dumps_text s | JInt z => dec z | JNull => str "null" end.
(** a member on a line of its own, indented by four *)
Definition dumps_member (m : pystr * jscalar) : pystr :=
  (10%N :: str "    " ++ dumps_text (fst m) ++ str ": " ++ dumps_scalar (snd m))%list.
Fixpoint dumps_members (l : list (pystr * jscalar)) : pystr :=
  match l with
  | [] => []
  | m :: [] => dumps_member m
  | m :: r => (dumps_member m ++ 44%N :: dumps_members r)%list
  end.
Definition dumps (j : json) : pystr :=
  match j with
  | JScalar v => dumps_scalar v
  | JObject [] => str "{}"
  | JObject l => (123%N :: dumps_members l ++ [10; 125]%N)%list
  end.

(** ** The dictionaries the methods return *)
Definition optional_int (o : option Z) : jscalar := match o with Some z => JInt z | None => JNull end.
Definition optional_text (o : option pystr) : jscalar := match o with Some s => JText s | None => JNull end.
(** bip38.py:346-355 *)
Definition new_wif_json (r : new_wif) : json := JObject
  [(str "encrypted_wif", JText (n_encrypted_wif r)); (str "confirmation_code", JText (n_confirmation_code r));
   (str "public_key", JText (n_public_key r)); (str "seed", JText (n_seed r));
   (str "public_key_type", JText (n_public_key_type r)); (str "address", JText (n_address r))].
(** bip38.py:462-468, 469 *)
Definition confirm_json (r : confirm_result) : json :=
  match r with
  | CAddress a => JScalar (JText a)
  | CDetail d => JObject
      [(str "public_key", JText (c_public_key d)); (str "public_key_type", JText (c_public_key_type d));
       (str "address", JText (c_address d)); (str "lot", optional_int (c_lot d)); (str "sequence", optional_int (c_sequence d))]
  end.
(** bip38.py:562-572, 573; 640-650, 651 *)
Definition decrypt_json (r : decrypt_result) : json :=
  match r with
  | DWif w => JScalar (JText w)
  | DDetail d => JObject
      [(str "wif", JText (d_wif d)); (str "private_key", JText (d_private_key d)); (str "wif_type", JText (d_wif_type d));
       (str "public_key", JText (d_public_key d)); (str "public_key_type", JText (d_public_key_type d));
       (str "seed", optional_text (d_seed d)); (str "address", JText (d_address d));
       (str "lot", optional_int (d_lot d)); (str "sequence", optional_int (d_sequence d))]
  end.

(** ** The scripts *)
(** print(label, text) *)
Definition line (label : string) (text : pystr) : pystr := (str label ++ [32%N] ++ text ++ [10%N])%list.
(** a statement that may end the script; [out] is what was printed before *)
Definition attempt {A} (out : list pystr) (r : res A) (k : A -> list pystr * option exn) : list pystr * option exn :=
  match r with Ok x => k x | Raise e => (out, Some e) end.

(** examples/no-ec-multiply, compression.py:18-30 and
    examples/no-ec-multiply, no-compression.py:18-30 *)
Definition no_ec_example (P : prims) (coin : coin) (network passphrase wif : pystr) (detail : bool) : list pystr * option exn :=
  attempt [] (bip38_init (CoinClass coin) network) (fun bip38 =>
  attempt [] (encrypt P bip38 wif passphrase None) (fun encrypted_wif =>
  let out := [line "BIP38 Encrypted WIF:" encrypted_wif] in
  attempt out (decrypt P bip38 encrypted_wif passphrase None detail) (fun d =>
  ((out ++ [line "BIP38 Decrypted:" (dumps (decrypt_json d))])%list, None)))).

(** examples/ec-multiply, (no-)compression, (no-)lot-&-sequence.py:32-53.  [random_salt]
    and [random_seed] are what os.urandom returns to the library if it is asked. *)
Definition ec_example (P : prims) (random_salt random_seed : bytes) (coin : coin) (network passphrase : pystr)
    (owner_salt seed : pyarg) (wif_type : pystr) (lot sequence : option Z) (detail : bool) : list pystr * option exn :=
  attempt [] (bip38_init (CoinClass coin) network) (fun bip38 =>
  attempt [] (intermediate_code P random_salt passphrase lot sequence owner_salt) (fun code =>
  let out := [line "Intermediate Passphrase:" code] in
  attempt out (create_new_encrypted_wif P random_seed bip38 code wif_type seed None) (fun r =>
  let out := (out ++ [line "Encrypted WIF:" (dumps (new_wif_json r))])%list in
  attempt out (confirm_code P bip38 passphrase (n_confirmation_code r) None detail) (fun c =>
  let out := (out ++ [line "Confirm Code:" (dumps (confirm_json c))])%list in
  attempt out (decrypt P bip38 (n_encrypted_wif r) passphrase None detail) (fun d =>
  ((out ++ [line "BIP38 Decrypted:" (dumps (decrypt_json d))])%list, None)))))).
