(** * Examples2: concrete cases that meet the hypotheses of the rejection theorems
    (C03, C09, C22, C27, C29), of C17, C42 and C45, with the toy functions of Toy.v. *)
From Coq Require Import Lia ZifyBool ZifyNat ZifyN.
From Verif Require Import Py Prims Const Spec PyFacts Utils UtilsFacts Base58 Base58Facts
  Curve SpecCurve CurveFacts Secp256k1 SecpFacts Cryptocurrencies Wif Bip38 SpecBip38 SpecRecords SpecSession
  CodecFacts CodecFacts2 Bip38Facts Bip38Facts2 Sessions RecordFacts ECFacts Toy
  PropBase58 PropUtils PropCodec PropEncrypt PropIntermediate PropDecrypt PropCreate PropEC SpecReads ReadFacts Examples.

(** ** C29 *)
Lemma toy_reads d : base58check_reads toy (b58c toy d) d.
Proof. apply reads_b58c, toy_ok. Qed.
Lemma toy_cd d : check_decode toy (b58c toy d) base58_alphabet = Ok d. Proof. apply check_decode_b58c, toy_ok. Qed.
Lemma toy_seed : argument_bytes [] (PBytes seed11) seed11. Proof. exact seed11_arg. Qed.
Lemma no_point_all_zero x y : on_curve (Aff x y) -> ~ sec1_compressed x y (repeat x00 33).
Proof. intros _ (xs & _ & E). destruct (Z.even y); discriminate. Qed.
Lemma toy_scalar : scalar (sha256d toy seed11) 1.
Proof. split; [split; reflexivity|]. vm_compute. split; congruence. Qed.
Example C29_examples :
  create_new_encrypted_wif toy [] btc (str "abc") (wif_name true) (PBytes seed11) None = Raise (Lib CPassphraseError "Invalid intermediate passphrase") /\
  create_new_encrypted_wif toy [] btc (b58c toy (repeat x01 48)) (wif_name true) (PBytes seed11) None = Raise (Lib CPassphraseError "Invalid intermediate passphrase length, (expected: 49 | got: '48')") /\
  create_new_encrypted_wif toy [] btc (b58c toy (repeat x01 49)) (str "WIF") (PBytes seed11) None = Raise (Lib CWIFError "Invalid wif type, (expected: 'wif', 'wif-compressed' | got: 'WIF')") /\
  create_new_encrypted_wif toy [] btc (b58c toy (repeat x01 49)) (wif_name true) (PBytes seed11) None = Raise (Lib CError "Invalid magic, (expected: '2ce9b3e1ff39e251', '2ce9b3e1ff39e253' | got: '0101010101010101')") /\
  create_new_encrypted_wif toy [] btc (b58c toy (code_magic true ++ repeat x01 8 ++ repeat x00 33)) (wif_name true) (PBytes seed11) None = Raise (Lib CSecp256k1Error "Invalid public key bytes") /\
  create_new_encrypted_wif toy [] btc (str "abc") (wif_name true) (PStr (str "0x")) None = Raise (Builtin ValueError).
Proof.
  split; [|split; [|split; [|split; [|split]]]].
  - apply (C29_not_base58check toy [] btc None 0x80 0 _ _ _ seed11 toy_ok btc_session toy_seed). intros d R. apply (reads58check toy toy_ok) in R. revert R. vm_compute. congruence.
  - etransitivity; [apply (C29_wrong_length toy [] btc None 0x80 0 _ _ _ seed11 (repeat x01 48) toy_ok btc_session toy_seed); [apply toy_reads|discriminate]|vm_compute; reflexivity].
  - etransitivity; [apply (C29_wrong_wif_type toy [] btc None 0x80 0 _ _ _ seed11 (repeat x01 49) toy_ok btc_session toy_seed); [apply toy_reads|reflexivity|vm_compute; congruence|vm_compute; congruence]|vm_compute; reflexivity].
  - etransitivity; [apply (C29_wrong_magic toy [] btc None 0x80 0 _ true _ seed11 (repeat x01 8) (repeat x01 41) toy_ok btc_session toy_seed); [apply (toy_reads (repeat x01 49))|reflexivity|reflexivity|discriminate|discriminate]|vm_compute; reflexivity].
  - apply (C29_bad_point toy [] btc None 0x80 0 true true _ _ seed11 1 (repeat x01 8) (repeat x00 33) toy_ok btc_session toy_seed); [apply toy_reads|reflexivity|reflexivity|exact toy_scalar|exact no_point_all_zero].
  - apply (C29_seed_not_hex toy [] btc None 0x80 0 _ _ _ toy_ok btc_session); [discriminate|reflexivity].
Qed.
(** a seed whose hash is zero *)
Definition toy0 : prims := toy2 (repeat x00 32) (repeat x00 32).
Lemma toy0_ok : prims_ok toy0. Proof. apply toy2_ok; reflexivity. Qed.
Example C29_bad_seed_hash_example :
  create_new_encrypted_wif toy0 [] btc (b58c toy0 (code_magic false ++ repeat x01 8 ++ repeat x00 33)) (wif_name true) (PBytes seed11) None
  = Raise (Lib CError "Invalid EC encrypted WIF (Wallet Import Format)").
Proof.
  apply (C29_bad_seed_hash toy0 [] btc None 0x80 0 false true _ _ seed11 (repeat x01 8) (repeat x00 33) toy0_ok btc_session toy_seed);
    [apply reads_b58c, toy0_ok|reflexivity|reflexivity|].
  intros e [[_ V] R]. vm_compute in V. lia.
Qed.

(** ** C27 *)
Example C27_examples :
  confirm_code toy btc pwS (str "abc") None true = Raise (Lib CError "Invalid confirmation code") /\
  confirm_code toy btc pwS (b58c toy (repeat x01 50)) None true = Raise (Lib CError "Invalid confirmation code length, (expected: 102 | got: '50')") /\
  confirm_code toy btc pwS (b58c toy (repeat x01 51)) None true = Raise (Lib CError "Invalid confirmation code prefix, (expected: 5 | got: 'b'\x01\x01\x01\x01\x01'')").
Proof.
  split; [|split].
  - apply (C27_not_base58check toy btc None 0x80 0 _ _ _ toy_ok btc_session). intros d R. apply (reads58check toy toy_ok) in R. revert R. vm_compute. congruence.
  - etransitivity; [apply (C27_wrong_length toy btc None 0x80 0 _ _ _ (repeat x01 50) toy_ok btc_session); [apply toy_reads|discriminate]|vm_compute; reflexivity].
  - etransitivity; [apply (C27_wrong_prefix toy btc None 0x80 0 _ _ _ (repeat x01 51) toy_ok btc_session); [apply toy_reads|reflexivity|discriminate]|vm_compute; reflexivity].
Qed.

(** ** C42: 0xE0 counts as 0x20, 0xFF as 0x00, 0x3C as 0x24 *)
Example C42_flags : flag_meaning xe0 false true /\ flag_meaning xff false false /\ flag_meaning x3c true true.
Proof.
  split; [|split].
  - right. split; [vm_compute; congruence|]. split; [reflexivity|]. cbn. split; [tauto|reflexivity].
  - right. split; [vm_compute; congruence|]. split; [reflexivity|]. cbn. split; [discriminate|]. intuition congruence.
  - left. split; [vm_compute; reflexivity|]. split; reflexivity.
Qed.
Example C42_example : exists s s', s <> s' /\
  decode s bitcoin_alphabet = Ok ([x01; x43] ++ [xff] ++ repeat x01 40) /\
  decrypt toy btc s pwS None true = decrypt toy btc s' pwS None true.
Proof.
  exists (b58 ([x01; x43] ++ [xff] ++ repeat x01 40)), (b58 ([x01; x43] ++ [x00] ++ repeat x01 40)).
  split; [vm_compute; congruence|]. split; [apply decode_b58|].
  apply (C42_decrypt_flag toy btc None 0x80 0 xff false false (repeat x01 40) _ _ pwS true toy_ok btc_session); [reflexivity|apply C42_flags|apply reads_b58|apply reads_b58].
Qed.

(** ** C22 *)
Example C22_examples : forall P,
  intermediate_code P [] pwS None None (PBytes (repeat x01 5)) = Raise (Lib CError "Invalid owner salt length, (expected: '8', '16' | got: '10')") /\
  intermediate_code P [] pwS (Some 100000) None (PBytes (repeat x01 4)) = Raise (Lib CError "Invalid owner salt length for non lot/sequence, (expected: 16 | got: '8')") /\
  intermediate_code P (repeat x01 8) pwS (Some 100000) None PNone = Raise (Lib CError "Both lot & sequence are required got: (lot 100000) & (sequence None)") /\
  intermediate_code P (repeat x01 8) pwS (Some 99999) (Some 1) PNone = Raise (Lib CError "Invalid lot, (expected: 100000 <= lot <= 999999 | got: '99999')") /\
  intermediate_code P (repeat x01 8) pwS (Some 1000000) (Some 1) PNone = Raise (Lib CError "Invalid lot, (expected: 100000 <= lot <= 999999 | got: '1000000')") /\
  intermediate_code P (repeat x01 8) pwS (Some 100000) (Some 4096) PNone = Raise (Lib CError "Invalid sequence, (expected: 0 <= sequence <= 4095 | got: '4096')") /\
  intermediate_code P (repeat x01 8) pwS (Some 100000) (Some (-1)) PNone = Raise (Lib CError "Invalid sequence, (expected: 0 <= sequence <= 4095 | got: '-1')").
Proof.
  intros P. assert (R : argument_bytes (repeat x01 8) PNone (repeat x01 8)) by (left; auto).
  split; [|split; [|split; [|split; [|split; [|split]]]]].
  - etransitivity; [apply (C22_salt_length P [] _ (repeat x01 5)); [right; left; split; [reflexivity|discriminate]|discriminate|discriminate]|vm_compute; reflexivity].
  - etransitivity; [apply (C22_short_salt_needs_both P [] _ (repeat x01 4)); [right; left; split; [reflexivity|discriminate]|reflexivity|auto]|vm_compute; reflexivity].
  - etransitivity; [apply (C22_one_missing P _ _ _ pwS (Some 100000) None 100000 R eq_refl); [lia|auto]|vm_compute; reflexivity].
  - etransitivity; [apply (C22_lot_range P _ _ _ pwS 99999 1 R (or_intror eq_refl)); lia|vm_compute; reflexivity].
  - etransitivity; [apply (C22_lot_range P _ _ _ pwS 1000000 1 R (or_intror eq_refl)); lia|vm_compute; reflexivity].
  - etransitivity; [apply (C22_sequence_range P _ _ _ pwS 100000 4096 R (or_intror eq_refl)); lia|vm_compute; reflexivity].
  - etransitivity; [apply (C22_sequence_range P _ _ _ pwS 100000 (-1) R (or_intror eq_refl)); lia|vm_compute; reflexivity].
Qed.

(** ** C03, C09, C45 *)
Example C03_example : exists s, check_encode toy [x00; x01; x02] bitcoin_alphabet = Ok s /\ check_decode toy s bitcoin_alphabet = Ok [x00; x01; x02] /\
  check_decode toy (str "1") bitcoin_alphabet = Raise (Builtin ValueError).
Proof. eexists. split; [vm_compute; reflexivity|]. split; vm_compute; reflexivity. Qed.
Example C09_example : exists s, wif_text toy 0x80 true (repeat x11 32) s /\ decode_wif s 0xef = Raise (Lib CWIFError "Invalid Wallet Import Format (WIF)").
Proof.
  assert (M1 : minimal_bytes 0x80 [x80]) by (split; reflexivity). assert (M2 : minimal_bytes 0xef [xef]) by (split; reflexivity).
  assert (T : wif_text toy 0x80 true (repeat x11 32) (b58c toy ([x80] ++ repeat x11 32 ++ [x01]))) by (exists [x80]; split; [exact M1|apply b58c_text]).
  eexists. split; [exact T|]. apply (C09_other_prefix toy 0x80 0xef [x80] [xef] true (repeat x11 32) _ toy_ok eq_refl M1 M2 eq_refl); [lia|exact T].
Qed.
Example C45_example : bytes_reverse [x01; x02; x03] = [x03; x02; x01]. Proof. reflexivity. Qed.
