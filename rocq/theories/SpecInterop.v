(** * SpecInterop: encrypted keys and confirmation codes made by any conforming
    implementation of BIP38, and what the bytes of any key decipher to.
    Nothing here refers to the model of the code. *)
From Verif Require Import Py Prims Spec Curve SpecCurve SpecBip38 SpecRecords.

(** ** Conforming texts *)
(** An EC-multiplied key: [k] is the private key behind the 24-byte [seed] and the
    owner's passphrase; [flag] is any flag byte with the given meaning. *)
Definition ec_encrypted (P : prims) (a : Z) (flag : byte) (lot compressed : bool) (ent : bytes) (pw : pystr)
    (seed k S : bytes) (s : pystr) : Prop :=
  exists pwb e x y pp address,
    passphrase_bytes P pw pwb /\ scalar (owner_factor P lot pwb ent) e /\ public_point e x y /\ sec1_compressed x y pp /\
    ec_private_key P lot pwb ent seed k /\ key_address P a compressed k address /\
    S = light_kdf P pp (address_hash P address) ent /\
    base58check_text P bitcoin_alphabet (ec_record P flag (address_hash P address) ent pp seed) s.
(** A confirmation code for the compressed point [B] = SHA256d(seed) G, and the
    address of the key it confirms. *)
Definition confirmation_text (P : prims) (a : Z) (flag : byte) (lot compressed : bool) (ent : bytes) (pw : pystr)
    (seed B : bytes) (address s : pystr) : Prop :=
  exists pwb e x y pp eb bx by_ k,
    passphrase_bytes P pw pwb /\ scalar (owner_factor P lot pwb ent) e /\ public_point e x y /\ sec1_compressed x y pp /\
    scalar (sha256d P seed) eb /\ public_point eb bx by_ /\ sec1_compressed bx by_ B /\
    ec_private_key P lot pwb ent seed k /\ key_address P a compressed k address /\
    base58check_text P bitcoin_alphabet (confirmation_record P flag (address_hash P address) ent pp B) s.

(** ** What arbitrary bytes decipher to *)
(** The 32 bytes hidden in the two halves of a key without EC multiplication *)
Definition plain_unmask (P : prims) (pwb ah h1 h2 : bytes) : bytes :=
  let S := strong_kdf P pwb ah in
  let aes := h_aes_dec P (slice 32 64 S) in
  xor (aes h1 ++ aes h2) (slice 0 32 S).
(** The 16 bytes hidden in the second block of an EC-multiplied key: the second
    half of the first block, and the last eight bytes of the seed *)
Definition ec_block_2 (P : prims) (S e2 : bytes) : bytes :=
  xor (h_aes_dec P (slice 32 64 S) e2) (slice 16 32 S).
(** The first 16 bytes of the seed, from the two halves of the first block *)
Definition ec_block_1 (P : prims) (S h1 h2 : bytes) : bytes :=
  xor (h_aes_dec P (slice 32 64 S) (h1 ++ h2)) (slice 0 16 S).
(** The seed that decrypt works with: leading zero bytes of either block are
    dropped before the block is cut or joined. *)
Definition ec_unmask (P : prims) (S h e2 : bytes) : bytes :=
  let t := shortest (ec_block_2 P S e2) in
  shortest (ec_block_1 P S h (slice 0 8 t)) ++ skipn 8 t.
(** The point bytes that confirm_code works with, likewise *)
Definition point_unmask (P : prims) (S : bytes) (b0 : byte) (q1 q2 : bytes) : bytes :=
  let aes := h_aes_dec P (slice 32 64 S) in
  [byte_xor b0 (bit0 (nth 63 S x00))] ++ shortest (xor (aes q1) (slice 0 16 S)) ++ shortest (xor (aes q2) (slice 16 32 S)).
