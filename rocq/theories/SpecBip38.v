(** * SpecBip38: addresses, WIFs and the BIP38 records, as text formats.
    Stated over the external primitives [P] (Prims.v) and the base-58 and curve
    vocabulary (Spec.v, SpecCurve.v, SpecRipemd.v); independent of the model. *)
From Verif Require Import Py Prims Spec Curve SpecCurve SpecRipemd.

(** ** Hashes *)
Definition sha256d (P : prims) (b : bytes) : bytes := h_sha256 P (h_sha256 P b).
(** first four bytes of the double SHA-256 *)
Definition checksum4 (P : prims) (b : bytes) : bytes := firstn 4 (sha256d P b).
(** RIPEMD-160: the one of hashlib if there is one, else the published function *)
Definition ripemd (P : prims) (b : bytes) : bytes :=
  match h_ripemd160 P with
  | Some f => match f b with Ok d => d | Raise _ => [] end
  | None => rmd160 b
  end.
Definition sha_ripemd (P : prims) (b : bytes) : bytes := ripemd P (h_sha256 P b).

(** ** Text formats *)
(** Base58Check over an alphabet *)
Definition base58check_text (P : prims) (A : pystr) (d : bytes) (s : pystr) : Prop :=
  base_text A (d ++ checksum4 P d) s.
(** [l] is the shortest non-empty big-endian form of [z] *)
Definition minimal_bytes (z : Z) (l : bytes) : Prop := be_value l = z /\ shortest l = l.

(** SEC 1 serialisation in either form *)
Definition serialised (compressed : bool) (x y : Z) (l : bytes) : Prop :=
  if compressed then sec1_compressed x y l else sec1_uncompressed x y l.
(** P2PKH address of the point (x, y) for an address prefix and an alphabet *)
Definition address_text (P : prims) (A : pystr) (prefix : Z) (compressed : bool) (x y : Z) (s : pystr) : Prop :=
  exists pre ser, minimal_bytes prefix pre /\ serialised compressed x y ser /\
    base58check_text P A (pre ++ sha_ripemd P ser) s.
(** WIF of a 32-byte key *)
Definition wif_text (P : prims) (prefix : Z) (compressed : bool) (k : bytes) (s : pystr) : Prop :=
  exists pre, minimal_bytes prefix pre /\
    base58check_text P bitcoin_alphabet (pre ++ k ++ (if compressed then [x01] else [])) s.

(** ASCII bytes of a text *)
Definition ascii_bytes (s : pystr) : bytes := List.map n2b s.
(** BIP38's address hash *)
Definition address_hash (P : prims) (address : pystr) : bytes := checksum4 P (ascii_bytes address).

(** The bytes of a passphrase: UTF-8 of its NFC form. *)
Definition passphrase_bytes (P : prims) (passphrase : pystr) (b : bytes) : Prop :=
  utf8_encode (h_nfc P passphrase) = Ok b.

(** Hexadecimal text, and names of the two key forms *)
Definition hex (b : bytes) : pystr := tohex b.
Definition wif_name (compressed : bool) : pystr := if compressed then str "wif-compressed" else str "wif".
Definition key_name (compressed : bool) : pystr := if compressed then str "compressed" else str "uncompressed".

(** ** The public point of a private key *)
(** [(x, y)] is e times the generator. *)
Definition public_point (e : Z) (x y : Z) : Prop := ec_multiple (Z.to_N e) secp_G (Aff x y).
(** The address of a private key given as 32 bytes *)
Definition key_address (P : prims) (prefix : Z) (compressed : bool) (k : bytes) (s : pystr) : Prop :=
  exists e x y, scalar k e /\ public_point e x y /\ address_text P bitcoin_alphabet prefix compressed x y s.
