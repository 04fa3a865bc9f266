(** * SpecReader: decryption and confirmation as the BIP38 text describes them.

    A strict reader: the text must be the Base58Check text of a record with the
    right magic bytes, lengths and flag; every block is taken as a fixed number
    of bytes (no leading zero byte is ever dropped); the result counts only if
    the address of the key found has the address hash of the record.  Nothing
    here refers to the model of the code. *)
From Verif Require Import Py Prims Spec Curve SpecCurve SpecBip38 SpecRecords SpecInterop.

(** Without EC multiplication: the text [s] with the passphrase [pw] gives the
    32-byte key [k], used in the form [compressed]. *)
Definition standard_reads_plain (P : prims) (a : Z) (s pw : pystr) (compressed : bool) (k : bytes) : Prop :=
  exists pwb ah h1 h2 address,
    List.length ah = 4%nat /\ List.length h1 = 16%nat /\ List.length h2 = 16%nat /\
    base58check_text P bitcoin_alphabet ([x01; x42] ++ [plain_flag compressed] ++ ah ++ h1 ++ h2) s /\
    passphrase_bytes P pw pwb /\ k = plain_unmask P pwb ah h1 h2 /\
    key_address P a compressed k address /\ address_hash P address = ah.

(** The 24 bytes hidden in 8 + 16 bytes of an EC-multiplied key *)
Definition standard_seed (P : prims) (S h e2 : bytes) : bytes :=
  ec_block_1 P S h (slice 0 8 (ec_block_2 P S e2)) ++ slice 8 16 (ec_block_2 P S e2).
(** With EC multiplication: [s] with [pw] gives the entropy [ent], the 24-byte
    [seed] and the key [k]. *)
Definition standard_reads_ec (P : prims) (a : Z) (s pw : pystr) (lot compressed : bool) (ent seed k : bytes) : Prop :=
  exists pwb ah h e2 S address,
    List.length ah = 4%nat /\ List.length ent = 8%nat /\ List.length h = 8%nat /\ List.length e2 = 16%nat /\
    base58check_text P bitcoin_alphabet ([x01; x43] ++ [ec_flag lot compressed] ++ ah ++ ent ++ h ++ e2) s /\
    passphrase_bytes P pw pwb /\ seed_mask P lot pwb ent ah S /\ seed = standard_seed P S h e2 /\
    ec_private_key P lot pwb ent seed k /\ key_address P a compressed k address /\ address_hash P address = ah.

(** The 33 bytes of the point hidden in a confirmation code *)
Definition standard_point (P : prims) (S : bytes) (b0 : byte) (q1 q2 : bytes) : bytes :=
  let aes := h_aes_dec P (slice 32 64 S) in
  [byte_xor b0 (bit0 (nth 63 S x00))] ++ xor (aes q1) (slice 0 16 S) ++ xor (aes q2) (slice 16 32 S).
(** A confirmation code: [s] with [pw] confirms [address], the address of the
    owner's factor times the hidden point. *)
Definition standard_confirms (P : prims) (a : Z) (s pw : pystr) (lot compressed : bool) (ent : bytes) (address : pystr) : Prop :=
  exists pwb ah b0 q1 q2 e S bx by_ x y,
    List.length ah = 4%nat /\ List.length ent = 8%nat /\ List.length q1 = 16%nat /\ List.length q2 = 16%nat /\
    base58check_text P bitcoin_alphabet ([x64; x3b; xf6; xa8; x9a] ++ [ec_flag lot compressed] ++ ah ++ ent ++ [b0] ++ q1 ++ q2) s /\
    passphrase_bytes P pw pwb /\ scalar (owner_factor P lot pwb ent) e /\ seed_mask P lot pwb ent ah S /\
    on_curve (Aff bx by_) /\ sec1_compressed bx by_ (standard_point P S b0 q1 q2) /\
    ec_multiple (Z.to_N e) (Aff bx by_) (Aff x y) /\
    address_text P bitcoin_alphabet a compressed x y address /\ address_hash P address = ah.
