(** * RecordFacts: the functional forms of Bip38Facts and the relations of SpecRecords. *)
From Coq Require Import Lia ZifyBool ZifyNat ZifyN.
From Verif Require Import Py Prims Const Spec PyFacts Utils UtilsFacts Base58 Base58Facts
  SpecRipemd Ripemd160 RipemdFacts Crypto Curve SpecCurve CurveFacts CurveFacts2 Secp256k1 SecpFacts
  Cryptocurrencies P2PKHAddress Wif Bip38 SpecBip38 SpecRecords SpecSession CodecFacts CodecFacts2 Bip38Facts Bip38Facts2 Sessions.

Lemma byte_xor_cancel a b : byte_xor (byte_xor a b) b = a.
Proof. pose proof (xor_cancel [a] [b] eq_refl) as H. cbn [xor] in H. congruence. Qed.
Lemma byte_xor_0 a b : byte_xor a b = x00 <-> a = b.
Proof.
  split.
  - intros E. pose proof (byte_xor_cancel a b) as H. rewrite E in H. rewrite <- H. destruct b; reflexivity.
  - intros ->. destruct b; reflexivity.
Qed.
Lemma byte_xor_comm a b : byte_xor a b = byte_xor b a.
Proof. unfold byte_xor. rewrite N.lxor_comm. reflexivity. Qed.
Lemma first_xor a b : a <> [] -> b <> [] -> first_byte (xor a b) = byte_xor (first_byte a) (first_byte b).
Proof. destruct a, b; try congruence. reflexivity. Qed.
Lemma first_slice i j (l : bytes) : (i < j)%nat -> (i < List.length l)%nat -> first_byte (slice i j l) = nth i l x00 /\ slice i j l <> [].
Proof.
  intros Hj Hl. unfold slice. destruct (cut i l ltac:(lia)) as (u & v & -> & Lu). rewrite app_length, Lu in Hl.
  rewrite skipn_app, Lu, Nat.sub_diag, skipn_all2 by lia. cbn [skipn app]. rewrite app_nth2, Lu, Nat.sub_diag by lia.
  destruct v as [|x v]; [cbn in Hl; lia|]. destruct (j - i)%nat eqn:E; [lia|]. cbn. split; [reflexivity|discriminate].
Qed.
(** masked blocks start with zero exactly when the two bytes agree *)
Lemma first_mask i j k l (a b : bytes) : (i < j)%nat -> (k < l)%nat -> (i < List.length a)%nat -> (k < List.length b)%nat ->
  (first_byte (xor (slice i j a) (slice k l b)) = x00 <-> nth i a x00 = nth k b x00).
Proof.
  intros H1 H2 H3 H4. destruct (first_slice i j a H1 H3) as [E N]. destruct (first_slice k l b H2 H4) as [E' N'].
  rewrite first_xor by assumption. rewrite E, E'. apply byte_xor_0.
Qed.

Section Facts.
Variable P : prims.
Hypothesis HP : prims_ok P.

Lemma public_point_iff e x y : 1 <= e < secp_n -> (public_point e x y <-> pubof e = {| pk_x := x; pk_y := y |}).
Proof.
  intros He. unfold public_point. rewrite (ec_multiple_iff _ _ _ G_on). rewrite Z2N.id by lia.
  destruct (pubof_ok e He) as (_ & Q & _). change secp_G with G. rewrite <- Q. destruct (pubof e) as [x' y']. unfold PublicKey_point. cbn [pk_x pk_y].
  split; intros H; inversion H; reflexivity.
Qed.
Lemma pubof_public e : 1 <= e < secp_n -> public_point e (pk_x (pubof e)) (pk_y (pubof e)).
Proof. intros He. apply public_point_iff; [exact He|]. destruct (pubof e); reflexivity. Qed.
Lemma key_address_iff a c k s : 0 <= a -> (key_address P a c k s <-> key_okb k = true /\ s = addr P a c (pubof (be2z k))).
Proof.
  intros Ha. split.
  - intros (e & x & y & S & Q & T). destruct (scalar_be2z _ _ S) as [-> K]. split; [exact K|].
    destruct (key_okb_range _ K) as [_ R]. apply public_point_iff in Q; [|exact R]. destruct (pubof_ok _ R) as (_ & _ & O).
    rewrite Q in *. apply (address_text_unique P a c {| pk_x := x; pk_y := y |}); assumption.
  - intros [K ->]. destruct (key_okb_range _ K) as [_ R]. destruct (pubof_ok _ R) as (_ & _ & O).
    exists (be2z k), (pk_x (pubof (be2z k))), (pk_y (pubof (be2z k))).
    split; [apply key_okb_spec, K|]. split; [apply pubof_public, R|apply addr_text; assumption].
Qed.
Lemma plain_encrypted_iff a c k pw e : 0 <= a -> (plain_encrypted P a c k pw e <->
  key_okb k = true /\ exists pwb, passphrase_bytes P pw pwb /\ e = b58c P (body_no_ec P c (ahash P a c (pubof (be2z k))) k pwb)).
Proof.
  intros Ha. split.
  - intros (s & pwb & A & B & T). apply key_address_iff in A; [|exact Ha]. destruct A as [K ->]. split; [exact K|].
    exists pwb. split; [exact B|]. apply b58c_unique in T. exact T.
  - intros (K & pwb & B & ->). exists (addr P a c (pubof (be2z k))), pwb. split; [apply key_address_iff; auto|]. split; [exact B|apply b58c_text].
Qed.
Lemma body_no_ec_split c ah k pwb : List.length ah = 4%nat -> List.length k = 32%nat ->
  exists e1 e2, body_no_ec P c ah k pwb = [x01; x42] ++ [flag_no_ec c] ++ ah ++ e1 ++ e2 /\
    List.length e1 = 16%nat /\ List.length e2 = 16%nat /\
    xor (h_aes_dec P (slice 32 64 (kdf P pwb ah)) e1 ++ h_aes_dec P (slice 32 64 (kdf P pwb ah)) e2) (slice 0 32 (kdf P pwb ah)) = k.
Proof.
  intros La Lk. destruct (kdf_parts P HP pwb ah) as (K1 & K2 & K3 & K4).
  assert (L1 : List.length (slice 0 16 k) = 16%nat) by (rewrite slice_length; lia).
  assert (L2 : List.length (slice 16 32 k) = 16%nat) by (rewrite slice_length; lia).
  assert (M1 : List.length (mask1 P k pwb ah) = 16%nat) by (unfold mask1; rewrite xor_length; congruence).
  assert (M2 : List.length (mask2 P k pwb ah) = 16%nat) by (unfold mask2; rewrite xor_length; congruence).
  exists (h_aes_enc P (slice 32 64 (kdf P pwb ah)) (mask1 P k pwb ah)), (h_aes_enc P (slice 32 64 (kdf P pwb ah)) (mask2 P k pwb ah)).
  split; [reflexivity|]. split; [apply (aes_enc_len P HP); assumption|]. split; [apply (aes_enc_len P HP); assumption|].
  rewrite !(aes_dec_enc P HP) by assumption. rewrite <- (slice_app2 (kdf P pwb ah)).
  rewrite xor_app by congruence. unfold mask1, mask2. rewrite !xor_cancel by congruence.
  rewrite slice_app2. apply slice_full, Lk.
Qed.
(** decrypting an encrypted record *)
Lemma decrypt_plain self network n w a c k pw pwb detail : net_sel self network n w a -> key_okb k = true ->
  passphrase_bytes P pw pwb ->
  decrypt P self (b58c P (body_no_ec P c (ahash P a c (pubof (be2z k))) k pwb)) pw network detail =
  if zero_first k then Raise (Lib CSecp256k1Error "Invalid private key bytes")
  else Ok (decrypt_value P w a c k None None None detail).
Proof.
  intros N K B. destruct (key_okb_range _ K) as [Lk Rk]. set (ah := ahash P a c (pubof (be2z k))).
  assert (La : List.length ah = 4%nat) by apply (ahash_length P HP).
  destruct (body_no_ec_split c ah k pwb La Lk) as (e1 & e2 & E & L1 & L2 & X).
  set (body := body_no_ec P c ah k pwb) in *.
  assert (D : decode (b58c P body) base58_alphabet = Ok ([x01; x42] ++ [flag_no_ec c] ++ ah ++ e1 ++ e2 ++ checksum4 P body)).
  { unfold b58c. rewrite decode_b58. rewrite E at 1. rewrite <- !app_assoc. reflexivity. }
  rewrite (decrypt_eq P HP _ _ _ _ _ _ _ _ _ _ _ _ pw detail N D) by (trivial; try reflexivity; apply checksum4_length, HP).
  replace (bytes_eqb [x01; x42] [x01; x42]) with true by reflexivity.
  unfold decrypt_no_ec_result. replace (Byte.eqb (flag_no_ec c) xc0 || Byte.eqb (flag_no_ec c) xe0) with true by (destruct c; reflexivity).
  cbv zeta. replace (Byte.eqb (flag_no_ec c) xe0) with c by (destruct c; reflexivity).
  unfold passphrase_bytes in B. rewrite B, X. change N_order with G_order.
  destruct (Z.eqb_spec (be2z k) 0); [lia|]. destruct (Z.leb_spec G_order (be2z k)); [lia|]. cbn [orb].
  destruct (zero_first k); [reflexivity|]. fold ah.
  replace (bytes_eqb ah ah) with true by (symmetry; apply bytes_eqb_spec; reflexivity). reflexivity.
Qed.
Lemma owner_factor_eq lot pwb ent : owner_factor P lot pwb ent = pass_factor P lot pwb ent.
Proof. destruct lot; reflexivity. Qed.
End Facts.
