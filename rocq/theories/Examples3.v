(** * Examples3: concrete cases that meet the hypotheses of the theorems of
    PropInterop.v, with the toy functions of Toy.v. *)
From Coq Require Import Lia ZifyBool ZifyNat ZifyN.
From Verif Require Import Py Prims Const Spec PyFacts Utils UtilsFacts Base58 Base58Facts
  Curve SpecCurve CurveFacts CurveFacts2 Secp256k1 SecpFacts Cryptocurrencies Wif Bip38 SpecBip38 SpecRecords SpecSession SpecInterop
  CodecFacts CodecFacts2 Bip38Facts Bip38Facts2 Sessions RecordFacts ECFacts Toy PropEncrypt PropIntermediate PropDecrypt PropCreate PropEC
  PropShape PropInterop Examples Examples2 SpecReads ReadFacts.

(** ** C48: a key that encrypt can produce, and one that starts with a zero byte *)
Lemma pwS_toy : passphrase_bytes toy pwS pwSb. Proof. vm_compute. reflexivity. Qed.
Lemma toy_plain c k : key_okb k = true -> exists e s, plain_encrypted toy 0 c k pwS e /\ wif_text toy 0x80 c k s.
Proof.
  intros K. exists (b58c toy (body_no_ec toy c (ahash toy 0 c (pubof (be2z k))) k pwSb)), (b58c toy ([x80] ++ k ++ if c then [x01] else [])).
  split; [apply plain_encrypted_iff; [lia|]; split; [exact K|]; exists pwSb; split; [exact pwS_toy|reflexivity]|].
  exists [x80]. split; [split; reflexivity|apply b58c_text].
Qed.
Example C48_example : exists e s, decrypt toy btc e pwS None false = Ok (DWif s) /\ wif_text toy 0x80 true (repeat x11 32) s.
Proof.
  destruct (toy_plain true (repeat x11 32) ltac:(vm_compute; reflexivity)) as (e & s & R & T). exists e, s. split; [|exact T].
  apply (C48_conforming_key toy btc None 0x80 0 true _ s pwS e toy_ok btc_session R T). discriminate.
Qed.
Example C48_zero_example : exists e, plain_encrypted toy 0 false (x00 :: repeat x11 31) pwS e /\
  decrypt toy btc e pwS None false = Raise (Lib CSecp256k1Error "Invalid private key bytes").
Proof.
  destruct (toy_plain false (x00 :: repeat x11 31) ltac:(vm_compute; reflexivity)) as (e & s & R & T). exists e. split; [exact R|].
  apply (C48_conforming_key toy btc None 0x80 0 false _ s pwS e toy_ok btc_session R T). reflexivity.
Qed.

(** ** C49: seed 0x11..11, the unusual flag 0x38, no lot *)
Definition fx : bytes := repeat x22 32.
Lemma fx_length : List.length fx = 32%nat. Proof. reflexivity. Qed.
Lemma flag38 : flag_meaning x38 false true.
Proof. left. split; [vm_compute; reflexivity|]. split; reflexivity. Qed.
Lemma owner_point : exists x y pp t xs, scalar (repeat x22 32) (be2z (repeat x22 32)) /\ public_point (be2z (repeat x22 32)) x y /\
  sec1_compressed x y pp /\ pp = t :: xs /\ (t = x02 \/ t = x03) /\ List.length xs = 32%nat.
Proof.
  destruct (key_okb_range _ owner22_ok) as [_ R]. destruct (pubof_ok _ R) as (_ & _ & O). destruct (tag_of _ O) as (t & xs & EP & Ht & Lx).
  exists (pk_x (pubof (be2z (repeat x22 32)))), (pk_y (pubof (be2z (repeat x22 32)))), (ser true (pubof (be2z (repeat x22 32)))), t, xs.
  split; [apply key_okb_spec, owner22_ok|]. split; [apply public_point_iff; [exact R|apply pk_eta]|]. split; [exact (ser_serialised true _ O)|]. auto.
Qed.
Example C49_example : exists S k s d, ec_encrypted (world fx) 0 x38 false true salt8 pwS seed11 k S s /\
  decrypt (world fx) btc s pwS None true = Ok (DDetail d) /\ d_seed d = Some (hex seed11) /\ describes (world fx) 0x80 0 true k d.
Proof.
  destruct owner_point as (x & y & pp & t & xs & Sc & Q & SC & EP & Ht & Lx).
  set (P := world fx). set (k := repeat x22 32). 
  assert (PK : ec_private_key P false pwSb salt8 seed11 k).
  { exists (be2z (repeat x22 32)), 1. split; [unfold P, world; rewrite (plain_factor fx (z2be 32 1)); exact Sc|]. split; [|vm_compute; split; reflexivity].
    unfold P, world. rewrite (hash_is fx 1 one_not44) by discriminate. vm_compute. split; [split; reflexivity|split; congruence]. }
  assert (KA : key_address P 0 true k (addr P 0 true (pubof (be2z k)))).
  { apply key_address_iff; [lia|]. split; [exact owner22_ok|reflexivity]. }
  set (address := addr P 0 true (pubof (be2z k))) in *. clearbody address.
  set (S := light_kdf P pp (address_hash P address) salt8).
  assert (E : ec_encrypted P 0 x38 false true salt8 pwS seed11 k S (b58c P (ec_record P x38 (address_hash P address) salt8 pp seed11))).
  { exists pwSb, (be2z (repeat x22 32)), x, y, pp, address. split; [apply pwS_bytes|]. split; [unfold P, world; rewrite (plain_factor fx (z2be 32 1)); exact Sc|].
    split; [exact Q|]. split; [exact SC|]. split; [exact PK|]. split; [exact KA|]. split; [reflexivity|apply b58c_text]. }
  destruct (toy_mask P t xs (address_hash P address) salt8 eq_refl Lx) as (T & EM & LT).
  assert (NZ : nth 8 (seed_block_1 P S seed11) x00 <> x00).
  { unfold seed_block_1, S. rewrite EP, EM. unfold P. cbn [world toy2 h_aes_enc]. change (slice 32 64 (repeat x22 32 ++ t :: T)) with (firstn 32 (t :: T)). change (firstn 32 (t :: T)) with (t :: firstn 31 T).
    rewrite toy_enc_tag. destruct Ht as [-> | ->]; vm_compute; congruence. }
  destruct (proj1 (C49_conforming_key P btc None 0x80 0 x38 false true salt8 pwS seed11 k S _ (world_ok fx fx_length) btc_session flag38 eq_refl eq_refl E ltac:(discriminate) NZ) ltac:(discriminate))
    as (d & D & _ & G & Sd & _).
  exists S, k, (b58c P (ec_record P x38 (address_hash P address) salt8 pp seed11)), d. auto.
Qed.

(** ** C50 *)
Definition toy_key (h1 ah : bytes) : pystr := b58 ([x01; x42] ++ [plain_flag true] ++ ah ++ h1 ++ repeat x60 16 ++ repeat x00 4).
Example C50_plain_examples :
  decrypt toy btc (b58 ([x01; x42] ++ [plain_flag true] ++ repeat x00 4 ++ repeat x71 16 ++ repeat x71 16 ++ repeat x00 4)) pwS None true
    = Raise (Lib CError "Invalid Non-EC encrypted WIF (Wallet Import Format)") /\
  decrypt toy btc (toy_key (repeat x8e 16) (repeat x00 4)) pwS None true = Raise (Lib CError "Invalid Non-EC encrypted WIF (Wallet Import Format)") /\
  decrypt toy btc (toy_key (repeat x60 15 ++ [x71]) (repeat x00 4)) pwS None true = Raise (Lib CSecp256k1Error "Invalid private key bytes") /\
  decrypt toy btc (toy_key (repeat x60 16) (repeat x01 4)) pwS None true = Raise (Lib CPassphraseError "Incorrect passphrase") /\
  exists d, decrypt toy btc (toy_key (repeat x60 16) (repeat x00 4)) pwS None true = Ok (DDetail d) /\ describes toy 0x80 0 true (repeat x11 32) d.
Proof.
  pose proof (fun ah h1 h2 => C50_plain_outcome toy btc None 0x80 0 true ah h1 h2 (repeat x00 4) _ pwS pwSb true toy_ok btc_session (reads_b58 _)) as H.
  assert (Z4 : forall s, address_hash toy s = repeat x00 4) by reflexivity.
  split; [|split; [|split; [|split]]].
  - apply (H (repeat x00 4) (repeat x71 16) (repeat x71 16) eq_refl eq_refl eq_refl eq_refl pwS_toy). left. vm_compute. reflexivity.
  - apply (H (repeat x00 4) (repeat x8e 16) (repeat x60 16) eq_refl eq_refl eq_refl eq_refl pwS_toy). right. vm_compute. congruence.
  - apply (H (repeat x00 4) (repeat x60 15 ++ [x71]) (repeat x60 16) eq_refl eq_refl eq_refl eq_refl pwS_toy); vm_compute; repeat split; congruence.
  - destruct (H (repeat x01 4) (repeat x60 16) (repeat x60 16) eq_refl eq_refl eq_refl eq_refl pwS_toy) as (_ & _ & G).
    assert (EK : plain_unmask toy pwSb (repeat x01 4) (repeat x60 16) (repeat x60 16) = repeat x11 32) by (vm_compute; reflexivity). rewrite EK in G.
    destruct G as (s & _ & G & _); [vm_compute; split; congruence|discriminate|]. apply G. rewrite Z4. discriminate.
  - destruct (H (repeat x00 4) (repeat x60 16) (repeat x60 16) eq_refl eq_refl eq_refl eq_refl pwS_toy) as (_ & _ & G).
    assert (EK : plain_unmask toy pwSb (repeat x00 4) (repeat x60 16) (repeat x60 16) = repeat x11 32) by (vm_compute; reflexivity). rewrite EK in G.
    destruct G as (s & _ & _ & G); [vm_compute; split; congruence|discriminate|]. destruct (G (Z4 s)) as (d & D & _ & _ & _ & E). exists d. auto.
Qed.
(** an EC-multiplied key whose second block deciphers to zeros: ValueError *)
Example C50_ec_short_example : exists t, (t = x02 \/ t = x03) /\
  decrypt (world fx) btc (b58 ([x01; x43] ++ [x00] ++ repeat x00 4 ++ salt8 ++ repeat x01 8 ++ repeat (byte_xor x22 t) 16 ++ repeat x00 4)) pwS None true
  = Raise (Builtin ValueError).
Proof.
  destruct owner_point as (x & y & pp & t & xs & Sc & Q & SC & EP & Ht & Lx). exists t. split; [exact Ht|].
  assert (M : flag_meaning x00 false false) by (left; split; [vm_compute; reflexivity|split; reflexivity]).
  pose proof (C50_ec_outcome (world fx) btc None 0x80 0 x00 false false (repeat x00 4) salt8 (repeat x01 8) (repeat (byte_xor x22 t) 16) (repeat x00 4) _ pwS pwSb true
    (world_ok fx fx_length) btc_session (reads_b58 _) M eq_refl eq_refl eq_refl (repeat_length _ _) eq_refl (pwS_bytes _ _)) as [_ H].
  destruct (toy_mask (world fx) t xs (repeat x00 4) salt8 eq_refl Lx) as (T & EM & LT).
  assert (SM : seed_mask (world fx) false pwSb salt8 (repeat x00 4) (repeat x22 32 ++ t :: T)).
  { exists (be2z (repeat x22 32)), x, y, pp. split; [unfold world; rewrite (plain_factor fx (z2be 32 1)); exact Sc|]. split; [exact Q|]. split; [exact SC|]. rewrite EP, EM. reflexivity. }
  destruct (H _ SM) as [H1 _]. apply H1.
  unfold ec_block_2. change (slice 32 64 (repeat x22 32 ++ t :: T)) with (t :: firstn 31 T). cbn [world toy2 h_aes_dec]. rewrite toy_dec_tag.
  change (slice 16 32 (repeat x22 32 ++ t :: T)) with m22.
  assert (EX : (List.length (shortest (xor (toy_dec [t] (repeat (byte_xor x22 t) 16)) m22)) <? 8)%nat = true) by (destruct Ht as [-> | ->]; vm_compute; reflexivity).
  apply Nat.ltb_lt in EX. exact EX.
Qed.
(** a passphrase with a lone surrogate cannot be encoded *)
Example C50_not_encodable_example :
  decrypt toy btc (b58 ([x01; x43] ++ [x00] ++ repeat x00 40)) [0xD800%N] None true = Raise (Builtin UnicodeEncodeError).
Proof.
  apply (C50_not_encodable toy btc None 0x80 0 (repeat x00 40) _ _ true toy_ok btc_session); [right; exists x00; apply reads_b58|reflexivity|].
  intros pwb. vm_compute. congruence.
Qed.

(** ** C51 *)
Lemma world_hash11 : scalar (sha256d (world fx) seed11) 1.
Proof. unfold world. rewrite (hash_is fx 1 one_not44) by discriminate. vm_compute. split; [split; reflexivity|split; congruence]. Qed.
Example C51_conforming_example : exists address s, confirmation_text (world fx) 0 x38 false true salt8 pwS seed11 (x02 :: gx) address s /\
  confirm_code (world fx) btc pwS s None false = Ok (CAddress address).
Proof.
  destruct owner_point as (x & y & pp & t & xs & Sc & Q & SC & EP & Ht & Lx).
  set (P := world fx). set (k := repeat x22 32).
  assert (F : scalar (owner_factor P false pwSb salt8) (be2z (repeat x22 32))) by (unfold P, world; rewrite (plain_factor fx (z2be 32 1)); exact Sc).
  assert (PK : ec_private_key P false pwSb salt8 seed11 k).
  { exists (be2z (repeat x22 32)), 1. split; [exact F|]. split; [exact world_hash11|vm_compute; split; reflexivity]. }
  assert (KA : key_address P 0 true k (addr P 0 true (pubof (be2z k)))).
  { apply key_address_iff; [lia|]. split; [exact owner22_ok|reflexivity]. }
  set (address := addr P 0 true (pubof (be2z k))) in *. clearbody address.
  destruct (pubof_ok 1 one_ok) as (_ & _ & O1).
  assert (T : confirmation_text P 0 x38 false true salt8 pwS seed11 (x02 :: gx) address (b58c P (confirmation_record P x38 (address_hash P address) salt8 pp (x02 :: gx)))).
  { exists pwSb, (be2z (repeat x22 32)), x, y, pp, 1, (pk_x (pubof 1)), (pk_y (pubof 1)), k. split; [apply pwS_bytes|]. split; [exact F|]. split; [exact Q|]. split; [exact SC|].
    split; [exact world_hash11|]. split; [apply public_point_iff; [exact one_ok|apply pk_eta]|]. split; [rewrite <- ser_1; exact (ser_serialised true _ O1)|].
    split; [exact PK|]. split; [exact KA|apply b58c_text]. }
  exists address, (b58c P (confirmation_record P x38 (address_hash P address) salt8 pp (x02 :: gx))). split; [exact T|].
  apply (C51_conforming_code P btc None 0x80 0 x38 false true salt8 pwS seed11 (x02 :: gx) address _ (world_ok fx fx_length) btc_session flag38 eq_refl T); vm_compute; congruence.
Qed.
(** a well-formed code whose point bytes are not those of a curve point *)
Example C51_outcome_example :
  confirm_code (world fx) btc pwS (b58c (world fx) ([x64; x3b; xf6; xa8; x9a] ++ [x38] ++ repeat x00 4 ++ salt8 ++ [x77] ++ repeat x01 16 ++ repeat x01 16)) None true
  = Raise (Lib CPassphraseError "Incorrect passphrase").
Proof.
  destruct owner_point as (x & y & pp & t & xs & Sc & Q & SC & EP & Ht & Lx).
  assert (F : scalar (owner_factor (world fx) false pwSb salt8) (be2z (repeat x22 32))) by (unfold world; rewrite (plain_factor fx (z2be 32 1)); exact Sc).
  destruct (C51_outcome (world fx) btc None 0x80 0 x38 false true (repeat x00 4) salt8 x77 (repeat x01 16) (repeat x01 16) _ pwS pwSb true
    (world_ok fx fx_length) btc_session (reads_b58c _ (world_ok fx fx_length) _) flag38 eq_refl eq_refl eq_refl eq_refl (pwS_bytes _ _)) as [_ H].
  destruct (H _ _ _ _ F Q SC) as [H1 _]. apply H1. intros bx by_ _ (xs' & _ & E). unfold point_unmask in E. cbn [app] in E.
  assert (E0 : byte_xor x77 (bit0 (nth 63 (light_kdf (world fx) pp (repeat x00 4) salt8) x00)) = if Z.even by_ then x02 else x03) by congruence.
  revert E0. unfold bit0. destruct (Z.odd _), (Z.even by_); vm_compute; congruence.
Qed.
Example C51_not_encodable_example :
  confirm_code toy btc [0xD800%N] (b58c toy ([x64; x3b; xf6; xa8; x9a] ++ repeat x00 46)) None true = Raise (Builtin UnicodeEncodeError).
Proof.
  apply (C51_not_encodable toy btc None 0x80 0 (repeat x00 46) _ _ true toy_ok btc_session); [apply toy_reads|reflexivity|].
  intros pwb. vm_compute. congruence.
Qed.
