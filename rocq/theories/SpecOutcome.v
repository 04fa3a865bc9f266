(** * SpecOutcome: which bytes encrypt takes for a WIF, and what is handed to AES when
    a key is made from a seed of any length.  Nothing here refers to the model of the code. *)
From Verif Require Import Py Prims Spec Curve SpecCurve SpecBip38 SpecRecords.

(** The bytes of a WIF for prefix [w]: prefix, key, one marker byte of any value if
    compressed, and four bytes of any value. *)
Definition wif_payload (w : Z) (compressed : bool) (k raw : bytes) : Prop :=
  exists pre marker ck, minimal_bytes w pre /\ List.length k = 32%nat /\ List.length ck = 4%nat /\
    List.length marker = (if compressed then 1 else 0)%nat /\ raw = pre ++ k ++ marker ++ ck.

(** The two strings are combined as numbers; AES takes 16 bytes, so the shortest
    form of the result must have exactly that length. *)
Definition masked_block (P : prims) (key m mask E : bytes) : Prop :=
  exists b, minimal_bytes (Z.lxor (be_value m) (be_value mask)) b /\ List.length b = 16%nat /\ E = h_aes_enc P key b.
(** The two blocks of the encrypted key and the two of the confirmation code *)
Definition seed_blocks (P : prims) (S seed B E1 E2 Q1 Q2 : bytes) : Prop :=
  let key := slice 32 64 S in
  masked_block P key (slice 0 16 seed) (slice 0 16 S) E1 /\
  masked_block P key (slice 8 16 E1 ++ skipn 16 seed) (slice 16 32 S) E2 /\
  masked_block P key (slice 1 17 B) (slice 0 16 S) Q1 /\
  masked_block P key (slice 17 33 B) (slice 16 32 S) Q2.
