(** * Concrete cases for C82, with the toy functions of Toy.v *)
From Coq Require Import Lia ZifyBool ZifyNat ZifyN.
From Verif Require Import Py Prims Const Spec PyFacts Utils UtilsFacts Base58 Base58Facts
  Curve SpecCurve CurveFacts CurveFacts2 Secp256k1 SecpFacts Cryptocurrencies Wif Bip38 SpecBip38 SpecRecords SpecSession SpecInterop SpecReader
  CodecFacts CodecFacts2 Bip38Facts Bip38Facts2 Sessions RecordFacts ECFacts Toy PropEncrypt PropIntermediate PropDecrypt PropCreate PropEC SpecReads ReadFacts
  PropInterop PropUnique PropErrors PropRecreate PropReader Examples.

(** Key 1: encrypt returns a text that decrypt refuses; any other program reads it. *)
Example C82_met_encrypt : exists s e, wif_text toy 0x80 false (z2be 32 1) s /\ encrypt toy btc s (str "Satoshi") None = Ok e /\
  decrypt toy btc e (str "Satoshi") None false = Raise (Lib CSecp256k1Error "Invalid private key bytes") /\
  standard_reads_plain toy 0 e (str "Satoshi") false (z2be 32 1).
Proof.
  destruct C12_zero_example as (s & e & T & E & D). exists s, e. split; [exact T|]. split; [exact E|]. split; [exact D|].
  apply (C82_encrypt toy btc None 0x80 0 false (z2be 32 1) s (str "Satoshi") e toy_ok btc_session (z2be_length _ _) T E).
Qed.
(** An EC-multiplied key that decrypt refuses and any other program reads *)
Example C82_met_create : exists f code r, create_new_encrypted_wif (world f) [] btc code (wif_name false) (PBytes seed11) None = Ok r /\
  decrypt (world f) btc (n_encrypted_wif r) pwS None false = Raise (Lib CSecp256k1Error "Invalid private key bytes") /\
  standard_reads_ec (world f) 0 (n_encrypted_wif r) pwS true false entL seed11 (z2be 32 1) /\
  standard_confirms (world f) 0 (n_confirmation_code r) pwS true false entL (n_address r).
Proof.
  set (f := z2be 32 1). assert (Lf : List.length f = 32%nat) by apply z2be_length. exists f.
  destruct (lot_creates f seed11 x02 gx Lf key1_ok ser_f1) as (code & r & I & T & E); [reflexivity|discriminate|discriminate|discriminate|vm_compute; reflexivity|].
  exists code, r. split; [exact E|].
  destruct (C24_key_exists (world f) [] btc None 0x80 0 true false entL pwS pwSb code (PBytes seed11) seed11 r (world_ok f Lf) btc_session seed11_arg eq_refl (pwS_bytes _ _) T E)
    as (k & S & PK & _ & SM).
  pose proof (world_key f true entL seed11 k ltac:(auto) Lf key1_ok ltac:(discriminate) ltac:(discriminate) PK) as Ek. cbv iota in Ek. subst k.
  destruct (mask_of f true entL r S Lf SM) as (t' & TT & -> & Ht' & LT). split.
  { apply (C25_zero_key (world f) [] btc None 0x80 0 true false entL pwS pwSb code (PBytes seed11) seed11 r f _ false
      (world_ok f Lf) btc_session seed11_arg eq_refl eq_refl (pwS_bytes _ _) T E PK SM).
    - discriminate.
    - destruct Ht' as [-> | ->]; vm_compute; congruence.
    - reflexivity. }
  split.
  - destruct (C82_create (world f) [] btc None 0x80 0 true false entL pwS code (PBytes seed11) seed11 r (world_ok f Lf) btc_session seed11_arg eq_refl eq_refl T E) as (k & _ & R & _).
    pose proof R as (pwb & ah & h & e2 & S' & ad & _ & _ & _ & _ & _ & B & _ & _ & PK' & _). rewrite (passphrase_unique _ _ _ _ B (pwS_bytes _ _)) in PK'.
    rewrite (ec_key_unique _ _ _ _ _ _ _ PK' PK) in R. exact R.
  - apply (C82_confirmation (world f) [] btc None 0x80 0 true false entL pwS code (PBytes seed11) seed11 r (world_ok f Lf) btc_session seed11_arg eq_refl eq_refl T E).
Qed.
(** A one-byte seed is accepted, but no other program finds it, and none finds
    the library's key either unless two seeds collide. *)
Example C82_met_odd_seed : exists f code r k, create_new_encrypted_wif (world f) [] btc code (wif_name true) (PBytes [x11]) None = Ok r /\
  key_address (world f) 0 true k (n_address r) /\
  forall lot c ent seed' k', standard_reads_ec (world f) 0 (n_encrypted_wif r) pwS lot c ent seed' k' ->
    seed' <> [x11] /\ (k' = k -> sha256d (world f) seed' = sha256d (world f) [x11]).
Proof.
  set (f := repeat x22 32). assert (Lf : List.length f = 32%nat) by reflexivity. exists f.
  destruct (plain_creates f [x11] Lf) as (code & r & I & T & E); [discriminate|discriminate|discriminate|vm_compute; reflexivity|vm_compute; reflexivity|].
  assert (A0 : argument_bytes [] (PBytes [x11]) [x11]) by (apply given_seed; discriminate).
  destruct (C24_key_exists (world f) [] btc None 0x80 0 false true salt8 pwS pwSb code (PBytes [x11]) [x11] r (world_ok f Lf) btc_session A0 eq_refl (pwS_bytes _ _) T E)
    as (k & S & PK & KA & SM).
  exists code, r, k. split; [exact E|]. split; [exact KA|]. intros lot c ent seed' k' R.
  destruct (C82_odd_seed (world f) [] btc None 0x80 0 false true salt8 pwS pwSb code (PBytes [x11]) [x11] r k (world_ok f Lf) btc_session A0 ltac:(discriminate) eq_refl (pwS_bytes _ _) T E PK _ _ _ _ _ R)
    as (_ & _ & _ & H). exact H.
Qed.
