(** * SpecRecords: the byte layouts of BIP38, as in the BIP text.
    [slice i j l] is l[i:j] (Py.v); [xor] is bytewise (Spec.v).  Nothing here
    refers to the model of the code. *)
From Verif Require Import Py Prims Spec Curve SpecCurve SpecRipemd SpecBip38.

(** ** Encryption without EC multiplication *)
(** scrypt(passphrase, addresshash, 16384, 8, 8, 64) *)
Definition strong_kdf (P : prims) (pwb ah : bytes) : bytes := h_scrypt P pwb ah 16384 8 8 64.
(** 0xC0 uncompressed, 0xE0 compressed *)
Definition plain_flag (compressed : bool) : byte := if compressed then xe0 else xc0.
(** 0x0142, flag, address hash, the two encrypted halves of the key *)
Definition plain_record (P : prims) (compressed : bool) (ah k pwb : bytes) : bytes :=
  let S := strong_kdf P pwb ah in
  let aes := h_aes_enc P (slice 32 64 S) in
  [x01; x42] ++ [plain_flag compressed] ++ ah ++
  aes (xor (slice 0 16 k) (slice 0 16 S)) ++ aes (xor (slice 16 32 k) (slice 16 32 S)).
(** [e] is the encrypted key of the 32-byte key [k] under the passphrase, on a
    network with address prefix [a] *)
Definition plain_encrypted (P : prims) (a : Z) (compressed : bool) (k : bytes) (pw : pystr) (e : pystr) : Prop :=
  exists address pwb, key_address P a compressed k address /\ passphrase_bytes P pw pwb /\
    base58check_text P bitcoin_alphabet (plain_record P compressed (address_hash P address) k pwb) e.

(** ** EC multiplication *)
(** magic bytes of intermediate codes, with and without lot and sequence numbers *)
Definition code_magic (lot : bool) : bytes :=
  [x2c; xe9; xb3; xe1; xff; x39; xe2; if lot then x51 else x53].
(** lot * 4096 + sequence in four bytes *)
Definition lot_entropy (salt4 : bytes) (lot sequence : Z) (ent : bytes) : Prop :=
  exists ls, fixed_bytes 4 (lot * 4096 + sequence) ls /\ ent = salt4 ++ ls.
(** the owner's factor: scrypt of the passphrase with the 4- or 8-byte salt,
    hashed together with the entropy when there is a lot number *)
Definition owner_factor (P : prims) (lot : bool) (pwb ent : bytes) : bytes :=
  if lot then sha256d P (h_scrypt P pwb (firstn 4 ent) 16384 8 8 32 ++ ent)
  else h_scrypt P pwb ent 16384 8 8 32.
(** the intermediate code: magic, entropy, compressed point *)
Definition code_text (P : prims) (lot : bool) (ent : bytes) (x y : Z) (s : pystr) : Prop :=
  exists pp, sec1_compressed x y pp /\ base58check_text P bitcoin_alphabet (code_magic lot ++ ent ++ pp) s.
(** the intermediate code of a passphrase *)
Definition passphrase_code (P : prims) (lot : bool) (ent : bytes) (pw s : pystr) : Prop :=
  exists pwb e x y, passphrase_bytes P pw pwb /\ scalar (owner_factor P lot pwb ent) e /\
    public_point e x y /\ code_text P lot ent x y s.

(** flag byte: 0x20 compressed, 0x04 lot and sequence *)
Definition ec_flag (lot compressed : bool) : byte :=
  match lot, compressed with
  | false, false => x00 | true, false => x04 | false, true => x20 | true, true => x24
  end.
(** scrypt(passpoint, addresshash || entropy, 1024, 1, 1, 64) *)
Definition light_kdf (P : prims) (pp ah ent : bytes) : bytes := h_scrypt P pp (ah ++ ent) 1024 1 1 64.
(** the two blocks hiding the 24-byte seed *)
Definition seed_block_1 (P : prims) (S seed : bytes) : bytes :=
  h_aes_enc P (slice 32 64 S) (xor (slice 0 16 seed) (slice 0 16 S)).
Definition seed_block_2 (P : prims) (S seed : bytes) : bytes :=
  h_aes_enc P (slice 32 64 S) (xor (slice 8 16 (seed_block_1 P S seed) ++ slice 16 24 seed) (slice 16 32 S)).
(** 0x0143, flag, address hash, entropy, half of block 1, block 2 *)
Definition ec_record (P : prims) (flag : byte) (ah ent pp seed : bytes) : bytes :=
  let S := light_kdf P pp ah ent in
  [x01; x43] ++ [flag] ++ ah ++ ent ++ slice 0 8 (seed_block_1 P S seed) ++ seed_block_2 P S seed.
(** low bit of a byte *)
Definition bit0 (b : byte) : byte := if Z.odd (byte_value b) then x01 else x00.
(** 0x643BF6A89A, flag, address hash, entropy, the encrypted compressed point B *)
Definition confirmation_record (P : prims) (flag : byte) (ah ent pp B : bytes) : bytes :=
  let S := light_kdf P pp ah ent in
  let aes := h_aes_enc P (slice 32 64 S) in
  [x64; x3b; xf6; xa8; x9a] ++ [flag] ++ ah ++ ent ++
  [byte_xor (nth 0 B x00) (bit0 (nth 63 S x00))] ++
  aes (xor (slice 1 17 B) (slice 0 16 S)) ++ aes (xor (slice 17 33 B) (slice 16 32 S)).
(** Bytes of a point B fit for the confirmation code, etc.: no block to be
    encrypted starts with a zero byte *)
Definition no_zero_block (P : prims) (ah ent pp seed B : bytes) : Prop :=
  let S := light_kdf P pp ah ent in
  first_byte (xor (slice 0 16 seed) (slice 0 16 S)) <> x00 /\
  first_byte (xor (slice 8 16 (seed_block_1 P S seed)) (slice 16 24 S)) <> x00 /\
  first_byte (xor (slice 1 17 B) (slice 0 16 S)) <> x00 /\
  first_byte (xor (slice 17 33 B) (slice 16 32 S)) <> x00.
(** ** Keys made from an intermediate code and a seed *)
(** the private key: product of the owner's factor and the hash of the seed *)
Definition ec_private_key (P : prims) (lot : bool) (pwb ent seed k : bytes) : Prop :=
  exists e1 e2, scalar (owner_factor P lot pwb ent) e1 /\ scalar (sha256d P seed) e2 /\
    fixed_bytes 32 ((e1 * e2) mod secp_n) k.
(** the scrypt output used to hide the seed, from the owner's passphrase *)
Definition seed_mask (P : prims) (lot : bool) (pwb ent ah S : bytes) : Prop :=
  exists e x y pp, scalar (owner_factor P lot pwb ent) e /\ public_point e x y /\ sec1_compressed x y pp /\
    S = light_kdf P pp ah ent.
(** what is reported as lot and sequence number *)
Definition lot_report (lot : bool) (ent : bytes) (l q : option Z) : Prop :=
  if lot then exists l' q', l = Some l' /\ q = Some q' /\ be_value (slice 4 8 ent) = l' * 4096 + q' /\ 0 <= l' /\ 0 <= q' <= 4095
  else l = None /\ q = None.
(** ** Flag bytes of EC-multiplied keys *)
(** Bits 0, 1, 6 and 7 are clear: the sixteen flags 0x00, 0x04, ..., 0x3C. *)
Definition legal_ec_flag (f : byte) : Prop := Z.land (byte_value f) 0xC3 = 0.
(** What the library reads from any flag byte: from the legal ones bit 2 (lot and
    sequence numbers) and bit 5 (compressed); all others count as without lot,
    and only 0xE0, 0xE8, 0xF0, 0xF8 among them as compressed. *)
Definition flag_meaning (f : byte) (lot compressed : bool) : Prop :=
  (legal_ec_flag f /\ lot = Z.testbit (byte_value f) 2 /\ compressed = Z.testbit (byte_value f) 5) \/
  (~ legal_ec_flag f /\ lot = false /\ (compressed = true <-> In f [xe0; xe8; xf0; xf8])).
