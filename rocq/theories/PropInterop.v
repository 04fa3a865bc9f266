(** * C48-C51: keys and codes made by other implementations, and the exact
    outcome of decrypt and confirm_code on every input (bip38.py) *)
From Coq Require Import Lia ZifyBool ZifyNat ZifyN.
From Verif Require Import Py Prims Const Spec PyFacts Utils UtilsFacts Base58 Base58Facts
  Curve SpecCurve CurveFacts CurveFacts2 Secp256k1 SecpFacts Cryptocurrencies Wif Bip38 SpecBip38 SpecRecords SpecSession SpecInterop
  CodecFacts CodecFacts2 Bip38Facts Bip38Facts2 Sessions RecordFacts ECFacts Toy PropEncrypt PropIntermediate PropDecrypt PropCreate PropEC SpecReads ReadFacts.

(** ** C48: every conforming key without EC multiplication *)
Theorem C48_conforming_key : forall P self network w a c k s pw e, prims_ok P -> session self network w a ->
  plain_encrypted P a c k pw e -> wif_text P w c k s ->
  (first_byte k <> x00 ->
   decrypt P self e pw network false = Ok (DWif s) /\
   exists d, decrypt P self e pw network true = Ok (DDetail d) /\ d_wif d = s /\ describes P w a c k d /\
     d_seed d = None /\ d_lot d = None /\ d_sequence d = None) /\
  (first_byte k = x00 -> forall detail,
   decrypt P self e pw network detail = Raise (Lib CSecp256k1Error "Invalid private key bytes")).
Proof.
  intros P self network w a c k s pw e HP HS R T. destruct (session_net_sel _ _ _ _ HS) as (n & N).
  pose proof (ns_w _ _ _ _ _ N) as Hw. pose proof (ns_a _ _ _ _ _ N) as Ha.
  apply plain_encrypted_iff in R; [|exact Ha]. destruct R as (K & pwb & B & ->). split.
  - intros Z. apply zero_first_false in Z. rewrite !(decrypt_plain P HP _ _ _ _ _ _ _ _ _ _ N K B), Z.
    destruct (decrypt_value_describes P w a c k None None None Hw Ha K) as (d & E1 & D & S1 & S2 & S3 & E2).
    rewrite E1, E2. assert (Ed : d_wif d = s) by (pose proof D as (W & _); rewrite (wif_text_unique _ _ _ _ _ W), (wif_text_unique _ _ _ _ _ T); reflexivity).
    rewrite Ed. split; [reflexivity|]. exists d. auto 10.
  - intros Z detail. apply zero_first_spec in Z. rewrite (decrypt_plain P HP _ _ _ _ _ _ _ _ _ _ N K B), Z. reflexivity.
Qed.

(** ** C50: the outcome of decrypt on every key *)
(** Without EC multiplication: [k] is what the two halves decipher to. *)
Theorem C50_plain_outcome : forall P self network w a c ah h1 h2 ck s pw pwb detail, prims_ok P -> session self network w a ->
  base58_reads s ([x01; x42] ++ [plain_flag c] ++ ah ++ h1 ++ h2 ++ ck) ->
  List.length ah = 4%nat -> List.length h1 = 16%nat -> List.length h2 = 16%nat -> List.length ck = 4%nat ->
  passphrase_bytes P pw pwb ->
  let k := plain_unmask P pwb ah h1 h2 in
  ((be_value k = 0 \/ secp_n <= be_value k) ->
   decrypt P self s pw network detail = Raise (Lib CError "Invalid Non-EC encrypted WIF (Wallet Import Format)")) /\
  (1 <= be_value k < secp_n -> first_byte k = x00 ->
   decrypt P self s pw network detail = Raise (Lib CSecp256k1Error "Invalid private key bytes")) /\
  (1 <= be_value k < secp_n -> first_byte k <> x00 ->
   exists address, key_address P a c k address /\
     (address_hash P address <> ah -> decrypt P self s pw network detail = Raise (Lib CPassphraseError "Incorrect passphrase")) /\
     (address_hash P address = ah -> exists d, describes P w a c k d /\ d_seed d = None /\ d_lot d = None /\ d_sequence d = None /\
       decrypt P self s pw network detail = Ok (if detail then DDetail d else DWif (d_wif d)))).
Proof.
  intros P self network w a c ah h1 h2 ck s pw pwb detail HP HS D La L1 L2 Lc B k. to_code. destruct (session_net_sel _ _ _ _ HS) as (n & N).
  pose proof (ns_w _ _ _ _ _ N) as Hw. pose proof (ns_a _ _ _ _ _ N) as Ha.
  rewrite (decrypt_eq P HP _ _ _ _ _ _ _ _ _ _ _ _ pw detail N D) by (trivial; reflexivity).
  replace (bytes_eqb [x01; x42] [x01; x42]) with true by reflexivity. unfold decrypt_no_ec_result.
  replace (Byte.eqb (plain_flag c) xc0 || Byte.eqb (plain_flag c) xe0) with true by (destruct c; reflexivity).
  replace (Byte.eqb (plain_flag c) xe0) with c by (destruct c; reflexivity).
  unfold passphrase_bytes in B. rewrite B. cbv zeta.
  change (xor (h_aes_dec P (slice 32 64 (kdf P pwb ah)) h1 ++ h_aes_dec P (slice 32 64 (kdf P pwb ah)) h2) (slice 0 32 (kdf P pwb ah))) with k.
  assert (Lk : List.length k = 32%nat).
  { destruct (kdf_parts P HP pwb ah) as (K1 & K2 & _). unfold k, plain_unmask. cbv zeta. change (strong_kdf P pwb ah) with (kdf P pwb ah). rewrite xor_length; rewrite app_length, !(aes_dec_len P HP) by assumption; [reflexivity|].
    rewrite K1. reflexivity. }
  clearbody k. rewrite be_value_be2z. change N_order with secp_n. pose proof (be2z_bound k).
  split; [|split].
  - intros H1. replace ((be2z k =? 0) || (secp_n <=? be2z k)) with true by lia. reflexivity.
  - intros R Z. replace ((be2z k =? 0) || (secp_n <=? be2z k)) with false by lia. apply zero_first_spec in Z. rewrite Z. reflexivity.
  - intros R Z. replace ((be2z k =? 0) || (secp_n <=? be2z k)) with false by lia. apply zero_first_false in Z. rewrite Z.
    assert (K : key_okb k = true) by (unfold key_okb; rewrite Lk; change (32 =? 32)%nat with true; lia).
    exists (addr P a c (pubof (be2z k))). split; [apply key_address_iff; auto|]. split.
    + intros NE. rewrite bytes_eqb_neq by exact NE. reflexivity.
    + intros EQ. replace (bytes_eqb (ahash P a c (pubof (be2z k))) ah) with true by (symmetry; apply bytes_eqb_spec; exact EQ).
      destruct (decrypt_value_describes P w a c k None None None Hw Ha K) as (d & E1 & G & S1 & S2 & S3 & E2).
      exists d. do 4 (split; [assumption|]). destruct detail; congruence.
Qed.

(** With EC multiplication.  [S]: the mask, from the owner's passphrase; [seed]:
    what the blocks decipher to, see SpecInterop.v. *)
Theorem C50_ec_outcome : forall P self network w a f lot c ah ent h e2 ck s pw pwb detail, prims_ok P -> session self network w a ->
  base58_reads s ([x01; x43] ++ [f] ++ ah ++ ent ++ h ++ e2 ++ ck) -> flag_meaning f lot c ->
  List.length ah = 4%nat -> List.length ent = 8%nat -> List.length h = 8%nat -> List.length e2 = 16%nat -> List.length ck = 4%nat ->
  passphrase_bytes P pw pwb ->
  ((forall e, ~ scalar (owner_factor P lot pwb ent) e) ->
   decrypt P self s pw network detail = Raise (Lib CError "Invalid EC encrypted WIF (Wallet Import Format)")) /\
  (forall S, seed_mask P lot pwb ent ah S ->
   ((List.length (shortest (ec_block_2 P S e2)) < 8)%nat -> decrypt P self s pw network detail = Raise (Builtin ValueError)) /\
   ((8 <= List.length (shortest (ec_block_2 P S e2)))%nat ->
    let seed := ec_unmask P S h e2 in
    ((forall k, ~ ec_private_key P lot pwb ent seed k) ->
     decrypt P self s pw network detail = Raise (Lib CError "Invalid EC encrypted WIF (Wallet Import Format)")) /\
    (forall k, ec_private_key P lot pwb ent seed k ->
     (first_byte k = x00 -> decrypt P self s pw network detail = Raise (Lib CSecp256k1Error "Invalid private key bytes")) /\
     (first_byte k <> x00 ->
      exists address, key_address P a c k address /\
       (address_hash P address <> ah -> decrypt P self s pw network detail = Raise (Lib CPassphraseError "Incorrect passphrase")) /\
       (address_hash P address = ah -> exists d, describes P w a c k d /\ d_seed d = Some (hex seed) /\ lot_report lot ent (d_lot d) (d_sequence d) /\
         decrypt P self s pw network detail = Ok (if detail then DDetail d else DWif (d_wif d))))))).
Proof.
  intros P self network w a f lot c ah ent h e2 ck s pw pwb detail HP HS D M La Le Lh L2 Lc B. to_code. destruct (session_net_sel _ _ _ _ HS) as (n & N).
  pose proof (ns_w _ _ _ _ _ N) as Hw. pose proof (ns_a _ _ _ _ _ N) as Ha.
  destruct (flag_meaning_eq _ _ _ M) as [M1 M2].
  replace (ah ++ ent ++ h ++ e2 ++ ck) with (ah ++ (ent ++ h) ++ e2 ++ ck) in D by (rewrite <- !app_assoc; reflexivity).
  rewrite (decrypt_eq P HP _ _ _ _ _ _ _ _ _ _ _ _ pw detail N D) by (trivial; try reflexivity; rewrite app_length; lia).
  replace (bytes_eqb [x01; x43] [x01; x42]) with false by reflexivity. replace (bytes_eqb [x01; x43] [x01; x43]) with true by reflexivity.
  rewrite upto_app, from_app by exact Le. unfold decrypt_ec_result. unfold passphrase_bytes in B. rewrite B, M1, M2. cbv zeta.
  split.
  - intros NS. destruct (key_okb (pass_factor P lot pwb ent)) eqn:K; [|reflexivity]. apply key_okb_spec in K. rewrite owner_factor_eq in NS. destruct (NS _ K).
  - intros S SM. apply seed_mask_iff in SM. destruct SM as [K ES]. rewrite K, <- ES.
    assert (LS : List.length S = 64%nat) by (rewrite ES; apply (kdf2_length P HP)). clear ES.
    assert (U1 : slice 32 64 S = from 32 S) by (unfold slice, from; apply firstn_all2; rewrite skipn_length; lia).
    assert (U2 : shortest (ec_block_2 P S e2) = ec_tail P S e2) by (unfold ec_block_2; rewrite U1; reflexivity).
    assert (U3 : ec_unmask P S h e2 = ec_seed P S h e2) by (unfold ec_unmask, ec_block_1; rewrite U1, U2; reflexivity).
    rewrite U2, U3. set (seed := ec_seed P S h e2). clearbody seed. split.
    + intros L. destruct (Nat.leb_spec 8 (List.length (ec_tail P S e2))); [lia|reflexivity].
    + intros L. destruct (Nat.leb_spec 8 (List.length (ec_tail P S e2))); [|lia]. split.
      * intros NK. destruct (key_okb (sha256d P seed)) eqn:KF; [|reflexivity].
        destruct (NK (z2be 32 ((be2z (pass_factor P lot pwb ent) * be2z (sha256d P seed)) mod secp_n))). apply ec_private_key_iff. auto.
      * intros k PK. apply ec_private_key_iff in PK. destruct PK as (_ & KF & Vk). rewrite KF. change G_order with secp_n. rewrite <- Vk.
        assert (Kk : key_okb k = true).
        { rewrite Vk. apply key_okb_z2be. apply mul_mod_range; apply key_okb_range; assumption. }
        clear Vk KF. split.
        -- intros Z. apply zero_first_spec in Z. rewrite Z. reflexivity.
        -- intros Z. apply zero_first_false in Z. rewrite Z. exists (addr P a c (pubof (be2z k))). split; [apply key_address_iff; auto|]. split.
           ++ intros NE. rewrite bytes_eqb_neq by exact NE. reflexivity.
           ++ intros EQ. replace (bytes_eqb (ahash P a c (pubof (be2z k))) ah) with true by (symmetry; apply bytes_eqb_spec; exact EQ).
              destruct (decrypt_value_describes P w a c k (Some seed) (lot_of lot ent) (seq_of lot ent) Hw Ha Kk) as (d & E1 & G & S1 & S2 & S3 & E2).
              exists d. split; [exact G|]. split; [exact S1|]. split; [rewrite S2, S3; apply lot_report_of, Le|]. destruct detail; congruence.
Qed.
(** In either mode a passphrase that cannot be encoded is reported as such. *)
Theorem C50_not_encodable : forall P self network w a body s pw detail, prims_ok P -> session self network w a ->
  (exists c, base58_reads s ([x01; x42] ++ [plain_flag c] ++ body)) \/ (exists f, base58_reads s ([x01; x43] ++ [f] ++ body)) ->
  List.length body = 40%nat -> (forall pwb, ~ passphrase_bytes P pw pwb) ->
  decrypt P self s pw network detail = Raise (Builtin UnicodeEncodeError).
Proof.
  intros P self network w a body s pw detail HP HS D L NB. to_code. destruct (session_net_sel _ _ _ _ HS) as (n & N).
  assert (U : utf8_encode (h_nfc P pw) = Raise (Builtin UnicodeEncodeError)).
  { destruct (utf8_encode (h_nfc P pw)) as [pwb|x] eqn:B; [destruct (NB pwb B)|]. rewrite (utf8_encode_err _ _ B). reflexivity. }
  destruct (cut 4 body ltac:(lia)) as (ah & b1 & -> & La). rewrite app_length in L.
  destruct (cut 16 b1 ltac:(lia)) as (e1 & b2 & -> & L1). rewrite app_length in L.
  destruct (cut 16 b2 ltac:(lia)) as (e2 & ck & -> & L2). rewrite app_length in L.
  destruct D as [[c D]|[f D]]; to_code.
  - rewrite (decrypt_eq P HP _ _ _ _ _ _ _ _ _ _ _ _ pw detail N D) by (trivial; try reflexivity; lia).
    replace (bytes_eqb [x01; x42] [x01; x42]) with true by reflexivity. unfold decrypt_no_ec_result. rewrite U. destruct c; reflexivity.
  - rewrite (decrypt_eq P HP _ _ _ _ _ _ _ _ _ _ _ _ pw detail N D) by (trivial; try reflexivity; lia).
    replace (bytes_eqb [x01; x43] [x01; x42]) with false by reflexivity. replace (bytes_eqb [x01; x43] [x01; x43]) with true by reflexivity.
    unfold decrypt_ec_result. rewrite U. reflexivity.
Qed.

(** ** C49: every conforming EC-multiplied key *)
Lemma slice_to_end {A} i j (l : list A) : List.length l = j -> slice i j l = from i l.
Proof. intros L. unfold slice, from. apply firstn_all2. rewrite skipn_length. lia. Qed.
Theorem C49_conforming_key : forall P self network w a f lot c ent pw seed k S s, prims_ok P -> session self network w a ->
  flag_meaning f lot c -> List.length ent = 8%nat -> List.length seed = 24%nat ->
  ec_encrypted P a f lot c ent pw seed k S s ->
  first_byte seed <> x00 -> nth 8 (seed_block_1 P S seed) x00 <> x00 ->
  (first_byte k <> x00 ->
   exists d, decrypt P self s pw network true = Ok (DDetail d) /\ decrypt P self s pw network false = Ok (DWif (d_wif d)) /\
     describes P w a c k d /\ d_seed d = Some (hex seed) /\ lot_report lot ent (d_lot d) (d_sequence d)) /\
  (first_byte k = x00 -> forall detail,
   decrypt P self s pw network detail = Raise (Lib CSecp256k1Error "Invalid private key bytes")).
Proof.
  intros P self network w a f lot c ent pw seed k S s HP HS M Le Ls (pwb & e & x & y & pp & address & B & Sc & Q & SC & PK & KA & ES & T) Z1 Z2.
  assert (SM : seed_mask P lot pwb ent (address_hash P address) S) by (exists e, x, y, pp; auto).
  assert (LS : List.length S = 64%nat) by (rewrite ES; apply (scrypt_len P HP)).
  assert (La : List.length (address_hash P address) = 4%nat) by (apply checksum4_length, HP).
  set (ah := address_hash P address) in *.
  assert (LK : List.length (slice 32 64 S) = 32%nat) by (rewrite slice_length; lia).
  assert (LA : List.length (slice 0 16 S) = 16%nat) by (rewrite slice_length; lia).
  assert (LB : List.length (slice 16 32 S) = 16%nat) by (rewrite slice_length; lia).
  assert (Ls1 : List.length (slice 0 16 seed) = 16%nat) by (rewrite slice_length; lia).
  assert (Ls2 : List.length (slice 16 24 seed) = 8%nat) by (rewrite slice_length; lia).
  assert (LX : List.length (xor (slice 0 16 seed) (slice 0 16 S)) = 16%nat) by (rewrite xor_length; congruence).
  assert (L1 : List.length (seed_block_1 P S seed) = 16%nat) by (apply (aes_enc_len P HP); assumption).
  set (E1 := seed_block_1 P S seed) in *.
  assert (L1a : List.length (slice 0 8 E1) = 8%nat) by (rewrite slice_length; lia).
  assert (L1b : List.length (slice 8 16 E1) = 8%nat) by (rewrite slice_length; lia).
  assert (Lm : List.length (slice 8 16 E1 ++ slice 16 24 seed) = 16%nat) by (rewrite app_length; lia).
  assert (LX2 : List.length (xor (slice 8 16 E1 ++ slice 16 24 seed) (slice 16 32 S)) = 16%nat) by (rewrite xor_length; congruence).
  assert (L2 : List.length (seed_block_2 P S seed) = 16%nat) by (apply (aes_enc_len P HP); assumption).
  assert (DB2 : ec_block_2 P S (seed_block_2 P S seed) = slice 8 16 E1 ++ slice 16 24 seed).
  { unfold ec_block_2, seed_block_2. rewrite (aes_dec_enc P HP) by assumption. apply xor_cancel. congruence. }
  destruct (first_slice 8 16 E1 ltac:(lia) ltac:(lia)) as [F8 N8].
  assert (SB2 : shortest (ec_block_2 P S (seed_block_2 P S seed)) = slice 8 16 E1 ++ slice 16 24 seed).
  { rewrite DB2. apply shortest_id. rewrite first_byte_app by exact N8. congruence. }
  destruct (first_slice 0 16 seed ltac:(lia) ltac:(lia)) as [F0 _].
  assert (UM : ec_unmask P S (slice 0 8 E1) (seed_block_2 P S seed) = seed).
  { unfold ec_unmask. cbv zeta. rewrite SB2.
    replace (slice 0 8 (slice 8 16 E1 ++ slice 16 24 seed)) with (slice 8 16 E1) by (symmetry; apply (upto_app 8), L1b).
    replace (skipn 8 (slice 8 16 E1 ++ slice 16 24 seed)) with (slice 16 24 seed) by (symmetry; apply (from_app 8), L1b).
    unfold ec_block_1. replace (slice 0 8 E1 ++ slice 8 16 E1) with E1.
    2:{ rewrite (slice_to_end 8 16 E1 L1). symmetry. apply (upto_from 8). }
    unfold E1, seed_block_1. rewrite (aes_dec_enc P HP) by assumption. rewrite xor_cancel by congruence.
    rewrite shortest_id by (rewrite F0; destruct seed; [discriminate|exact Z1]).
    rewrite (slice_to_end 16 24 seed Ls). apply (upto_from 16). }
  apply b58c_unique in T.
  assert (D : decode s bitcoin_alphabet = Ok ([x01; x43] ++ [f] ++ ah ++ ent ++ slice 0 8 E1 ++ seed_block_2 P S seed ++ checksum4 P (ec_record P f ah ent pp seed))).
  { rewrite T. unfold b58c. change bitcoin_alphabet with base58_alphabet. rewrite decode_b58. unfold ec_record at 1. cbv zeta. rewrite <- ES, <- !app_assoc. reflexivity. }
  pose proof (fun detail => C50_ec_outcome P self network w a f lot c ah ent (slice 0 8 E1) (seed_block_2 P S seed) _ s pw pwb detail HP HS (proj2 (reads58 _ _) D) M La Le L1a L2 ltac:(apply checksum4_length, HP) B) as H.
  assert (H' : forall detail, (first_byte k = x00 -> decrypt P self s pw network detail = Raise (Lib CSecp256k1Error "Invalid private key bytes")) /\
     (first_byte k <> x00 ->
      exists address, key_address P a c k address /\
       (address_hash P address <> ah -> decrypt P self s pw network detail = Raise (Lib CPassphraseError "Incorrect passphrase")) /\
       (address_hash P address = ah -> exists d, describes P w a c k d /\ d_seed d = Some (hex seed) /\ lot_report lot ent (d_lot d) (d_sequence d) /\
         decrypt P self s pw network detail = Ok (if detail then DDetail d else DWif (d_wif d))))).
  { intros detail. destruct (H detail) as [_ H1]. destruct (H1 S SM) as [_ H2]. rewrite SB2 in H2. specialize (H2 ltac:(lia)). cbv zeta in H2. rewrite UM in H2.
    destruct H2 as [_ H3]. exact (H3 k PK). }
  split.
  - intros Zk. destruct (H' true) as [_ G]. destruct (G Zk) as (ad & KA' & _ & G1). destruct (session_net_sel _ _ _ _ HS) as (n & N). pose proof (ns_a _ _ _ _ _ N) as Ha.
    assert (ad = address) by (apply key_address_iff in KA, KA'; trivial; destruct KA, KA'; congruence). subst ad.
    destruct (G1 eq_refl) as (d & Dd & Ds & DL & DE). exists d. split; [exact DE|]. split; [|auto].
    pose proof (C17_decrypt_detail P self network s pw HP (session_constructed _ _ _ _ HS)) as C. rewrite DE in C. exact C.
  - intros Zk detail. apply (H' detail), Zk.
Qed.

(** ** C51: confirmation codes *)
Theorem C51_outcome : forall P self network w a f lot c ah ent b0 q1 q2 s pw pwb detail, prims_ok P -> session self network w a ->
  base58check_reads P s ([x64; x3b; xf6; xa8; x9a] ++ [f] ++ ah ++ ent ++ [b0] ++ q1 ++ q2) -> flag_meaning f lot c ->
  List.length ah = 4%nat -> List.length ent = 8%nat -> List.length q1 = 16%nat -> List.length q2 = 16%nat ->
  passphrase_bytes P pw pwb ->
  ((forall e, ~ scalar (owner_factor P lot pwb ent) e) ->
   confirm_code P self pw s network detail = Raise (Lib CError "Invalid EC encrypted WIF (Wallet Import Format)")) /\
  (forall e x y pp, scalar (owner_factor P lot pwb ent) e -> public_point e x y -> sec1_compressed x y pp ->
   let B := point_unmask P (light_kdf P pp ah ent) b0 q1 q2 in
   ((forall bx by_, on_curve (Aff bx by_) -> ~ sec1_compressed bx by_ B) ->
    confirm_code P self pw s network detail = Raise (Lib CPassphraseError "Incorrect passphrase")) /\
   (forall bx by_, on_curve (Aff bx by_) -> sec1_compressed bx by_ B ->
    exists kx ky address ser, ec_multiple (Z.to_N e) (Aff bx by_) (Aff kx ky) /\ address_text P bitcoin_alphabet a c kx ky address /\ serialised c kx ky ser /\
     (address_hash P address <> ah -> confirm_code P self pw s network detail = Raise (Lib CPassphraseError "Incorrect passphrase")) /\
     (address_hash P address = ah ->
      exists d, c_address d = address /\ c_public_key d = hex ser /\ c_public_key_type d = key_name c /\ lot_report lot ent (c_lot d) (c_sequence d) /\
       confirm_code P self pw s network detail = Ok (if detail then CDetail d else CAddress address)))).
Proof.
  intros P self network w a f lot c ah ent b0 q1 q2 s pw pwb detail HP HS D M La Le L1 L2 PB. to_code. destruct (session_net_sel _ _ _ _ HS) as (n & N).
  pose proof (ns_a _ _ _ _ _ N) as Ha. destruct (flag_meaning_eq _ _ _ M) as [M1 M2].
  rewrite (confirm_eq P HP _ _ _ _ _ _ _ _ _ _ _ _ _ pw detail N D) by trivial.
  replace (bytes_eqb [x64; x3b; xf6; xa8; x9a] [x64; x3b; xf6; xa8; x9a]) with true by reflexivity.
  unfold confirm_core. unfold passphrase_bytes in PB. rewrite PB, M1, M2. cbv zeta. rewrite owner_factor_eq. split.
  - intros NS. destruct (key_okb (pass_factor P lot pwb ent)) eqn:K; [|reflexivity]. apply key_okb_spec in K. destruct (NS _ K).
  - intros e x y pp Sc Q SC. destruct (scalar_be2z _ _ Sc) as [-> K]. rewrite K. destruct (key_okb_range _ K) as [_ R].
    apply public_point_iff in Q; [|exact R]. destruct (pubof_ok _ R) as (_ & _ & O). rewrite Q in O.
    rewrite (serialised_unique true {| pk_x := x; pk_y := y |} pp O SC). rewrite Q.
    change (light_kdf P (ser true {| pk_x := x; pk_y := y |}) ah ent) with (kdf2 P (ser true {| pk_x := x; pk_y := y |}) ah ent).
    pose proof (kdf2_length P HP (ser true {| pk_x := x; pk_y := y |}) ah ent) as LS. set (S := kdf2 P _ ah ent) in *. clearbody S.
    assert (U : point_unmask P S b0 q1 q2 = point_b_of P S b0 q1 q2) by (unfold point_unmask, point_b_of; rewrite (slice_to_end 32 64 S LS); reflexivity).
    rewrite U. set (B := point_b_of P S b0 q1 q2).
    assert (LB : (List.length B <= 33)%nat).
    { assert (LK : List.length (from 32 S) = 32%nat) by (rewrite from_length; lia).
      assert (LA : List.length (upto 16 S) = 16%nat) by (apply upto_length; lia).
      assert (LBB : List.length (slice 16 32 S) = 16%nat) by (rewrite slice_length; lia).
      unfold B, point_b_of. rewrite !app_length. cbn [List.length].
      assert (X1 : List.length (xor (h_aes_dec P (from 32 S) q1) (upto 16 S)) = 16%nat) by (rewrite xor_length; rewrite (aes_dec_len P HP); trivial; congruence).
      assert (X2 : List.length (xor (h_aes_dec P (from 32 S) q2) (slice 16 32 S)) = 16%nat) by (rewrite xor_length; rewrite (aes_dec_len P HP); trivial; congruence).
      pose proof (shortest_length_le _ ltac:(rewrite X1; lia)). pose proof (shortest_length_le _ ltac:(rewrite X2; lia)). lia. }
    clearbody B. clear U. split.
    + intros NB. destruct (PublicKey_from_bytes B) as [k|] eqn:EB; [|reflexivity].
      destruct (Nat.lt_ge_cases (List.length B) 33) as [LT|GE]; [rewrite from_bytes_short in EB by exact LT; discriminate|].
      destruct (from_bytes_33 B k ltac:(lia) EB) as [OB VB]. destruct (NB (pk_x k) (pk_y k) OB). rewrite VB. apply (ser_serialised true k OB).
    + intros bx by_ OB SB. set (k := {| pk_x := bx; pk_y := by_ |}). assert (Okk : pk_ok k) by exact OB.
      rewrite (serialised_unique true k B Okk SB), (from_bytes_ser k Okk).
      set (KK := mulk k (be2z (pass_factor P lot pwb ent))). destruct (mulk_ok k _ Okk R) as (_ & OK & _). fold KK in OK.
      exists (pk_x KK), (pk_y KK), (addr P a c KK), (ser c KK).
      split; [apply (mulk_multiple k _ _ _ Okk R); fold KK; destruct KK; reflexivity|]. split; [apply addr_text; assumption|]. split; [apply ser_serialised, OK|]. split.
      * intros NE. rewrite bytes_eqb_neq by exact NE. reflexivity.
      * intros EQ. replace (bytes_eqb (ahash P a c KK) ah) with true by (symmetry; apply bytes_eqb_spec; exact EQ).
        exists {| c_public_key := tohex (ser c KK); c_public_key_type := key_name c; c_address := addr P a c KK; c_lot := lot_of lot ent; c_sequence := seq_of lot ent |}.
        cbn [c_address c_public_key c_public_key_type c_lot c_sequence]. split; [reflexivity|]. split; [reflexivity|]. split; [reflexivity|].
        split; [apply lot_report_of, Le|]. unfold confirm_value. destruct detail; reflexivity.
Qed.
Theorem C51_not_encodable : forall P self network w a rest s pw detail, prims_ok P -> session self network w a ->
  base58check_reads P s ([x64; x3b; xf6; xa8; x9a] ++ rest) -> List.length rest = 46%nat ->
  (forall pwb, ~ passphrase_bytes P pw pwb) ->
  confirm_code P self pw s network detail = Raise (Builtin UnicodeEncodeError).
Proof.
  intros P self network w a rest s pw detail HP HS D L NB. to_code. destruct (session_net_sel _ _ _ _ HS) as (n & N).
  assert (U : utf8_encode (h_nfc P pw) = Raise (Builtin UnicodeEncodeError)).
  { destruct (utf8_encode (h_nfc P pw)) as [pwb|x] eqn:B; [destruct (NB pwb B)|]. rewrite (utf8_encode_err _ _ B). reflexivity. }
  destruct (cut51 ([x64; x3b; xf6; xa8; x9a] ++ rest) ltac:(cbn [app List.length]; lia)) as (p & f' & ah & ent & b0 & q1 & q2 & E & Lp & La & Le & L1 & L2).
  rewrite E in D. rewrite (confirm_eq P HP _ _ _ _ _ _ _ _ _ _ _ _ _ pw detail N D) by trivial.
  replace (bytes_eqb [x64; x3b; xf6; xa8; x9a] p) with true.
  2:{ symmetry. apply bytes_eqb_spec. destruct p as [|p0 [|p1 [|p2 [|p3 [|p4 [|]]]]]]; try discriminate. cbn [app] in E. inversion E. reflexivity. }
  unfold confirm_core. rewrite U. reflexivity.
Qed.
(** Every conforming confirmation code is confirmed, unless one of the two halves
    of the point's x coordinate starts with a zero byte. *)
Theorem C51_conforming_code : forall P self network w a f lot c ent pw seed B address s, prims_ok P -> session self network w a ->
  flag_meaning f lot c -> List.length ent = 8%nat ->
  confirmation_text P a f lot c ent pw seed B address s ->
  (nth 1 B x00 <> x00 -> nth 17 B x00 <> x00 ->
   confirm_code P self pw s network false = Ok (CAddress address) /\
   exists d, confirm_code P self pw s network true = Ok (CDetail d) /\ c_address d = address /\ c_public_key_type d = key_name c /\
     lot_report lot ent (c_lot d) (c_sequence d)) /\
  (nth 1 B x00 = x00 \/ nth 17 B x00 = x00 -> forall detail,
   confirm_code P self pw s network detail = Raise (Lib CPassphraseError "Incorrect passphrase")).
Proof.
  intros P self network w a f lot c ent pw seed B address s HP HS M Le
    (pwb & e & x & y & pp & eb & bx & by_ & k & PB & Sc & Q & SC & Sb & QB & SB & PK & KA & T).
  destruct (session_net_sel _ _ _ _ HS) as (n & N). pose proof (ns_a _ _ _ _ _ N) as Ha. destruct (flag_meaning_eq _ _ _ M) as [M1 M2].
  assert (La : List.length (address_hash P address) = 4%nat) by (apply checksum4_length, HP). set (ah := address_hash P address) in *.
  rewrite owner_factor_eq in Sc. destruct (scalar_be2z _ _ Sc) as [-> K]. destruct (key_okb_range _ K) as [_ R].
  destruct (scalar_be2z _ _ Sb) as [-> Kb]. destruct (key_okb_range _ Kb) as [_ Rb].
  apply public_point_iff in Q; [|exact R]. apply public_point_iff in QB; [|exact Rb].
  destruct (pubof_ok _ R) as (_ & _ & O). destruct (pubof_ok _ Rb) as (_ & _ & OB). rewrite Q in O. rewrite QB in OB.
  pose proof (serialised_unique true {| pk_x := x; pk_y := y |} pp O SC) as EP. pose proof (serialised_unique true {| pk_x := bx; pk_y := by_ |} B OB SB) as EB.
  rewrite <- Q in EP, O. rewrite <- QB in EB, OB. clear SC SB Q QB x y bx by_.
  apply ec_private_key_iff in PK. destruct PK as (_ & _ & Vk). apply key_address_iff in KA; [|exact Ha]. destruct KA as [Kk EAd].
  assert (Ek : be2z k = (be2z (pass_factor P lot pwb ent) * be2z (sha256d P seed)) mod G_order) by (rewrite Vk; apply range_256, mul_mod_range; assumption).
  set (S := light_kdf P pp ah ent). assert (LS : List.length S = 64%nat) by apply (scrypt_len P HP).
  assert (LK : List.length (slice 32 64 S) = 32%nat) by (rewrite slice_length; lia).
  assert (LA : List.length (slice 0 16 S) = 16%nat) by (rewrite slice_length; lia).
  assert (LBB : List.length (slice 16 32 S) = 16%nat) by (rewrite slice_length; lia).
  assert (LB : List.length B = 33%nat) by (rewrite EB; apply ser_true_length).
  assert (X1 : List.length (slice 1 17 B) = 16%nat) by (rewrite slice_length; lia).
  assert (X2 : List.length (slice 17 33 B) = 16%nat) by (rewrite slice_length; lia).
  set (q1 := h_aes_enc P (slice 32 64 S) (xor (slice 1 17 B) (slice 0 16 S))).
  set (q2 := h_aes_enc P (slice 32 64 S) (xor (slice 17 33 B) (slice 16 32 S))).
  assert (Y1 : List.length (xor (slice 1 17 B) (slice 0 16 S)) = 16%nat) by (rewrite xor_length; congruence).
  assert (Y2 : List.length (xor (slice 17 33 B) (slice 16 32 S)) = 16%nat) by (rewrite xor_length; congruence).
  assert (L1 : List.length q1 = 16%nat) by (apply (aes_enc_len P HP); assumption).
  assert (L2 : List.length q2 = 16%nat) by (apply (aes_enc_len P HP); assumption).
  apply b58c_unique in T.
  assert (D : check_decode P s base58_alphabet = Ok ([x64; x3b; xf6; xa8; x9a] ++ [f] ++ ah ++ ent ++ [byte_xor (nth 0 B x00) (bit0 (nth 63 S x00))] ++ q1 ++ q2)) by (rewrite T; apply check_decode_b58c, HP).
  assert (EU : point_b_of P S (byte_xor (nth 0 B x00) (bit0 (nth 63 S x00))) q1 q2 = [first_byte B] ++ shortest (slice 1 17 B) ++ shortest (slice 17 33 B)).
  { unfold point_b_of. rewrite <- (slice_to_end 32 64 S LS). change (upto 16 S) with (slice 0 16 S). unfold q1, q2. rewrite !(aes_dec_enc P HP) by assumption.
    rewrite !xor_cancel by congruence. change (low_bit (last64 S)) with (bit0 (nth 63 S x00)). rewrite byte_xor_cancel. destruct B; reflexivity. }
  assert (H : forall detail, confirm_code P self pw s network detail =
    match PublicKey_from_bytes ([first_byte B] ++ shortest (slice 1 17 B) ++ shortest (slice 17 33 B)) with
    | Raise _ => Raise (Lib CPassphraseError "Incorrect passphrase")
    | Ok B => let KK := mulk B (be2z (pass_factor P lot pwb ent)) in
            if bytes_eqb (ahash P a c KK) ah
            then Ok (confirm_value P a c KK (lot_of lot ent) (seq_of lot ent) detail)
            else Raise (Lib CPassphraseError "Incorrect passphrase") end).
  { intros detail. rewrite (confirm_eq P HP _ _ _ _ _ _ _ _ _ _ _ _ _ pw detail N D) by trivial.
    replace (bytes_eqb [x64; x3b; xf6; xa8; x9a] [x64; x3b; xf6; xa8; x9a]) with true by reflexivity.
    unfold confirm_core. unfold passphrase_bytes in PB. rewrite PB, M1, M2. cbv zeta. rewrite K, <- EP. change (kdf2 P pp ah ent) with S. rewrite EU. reflexivity. }
  destruct (first_slice 1 17 B ltac:(lia) ltac:(lia)) as [F1 _]. destruct (first_slice 17 33 B ltac:(lia) ltac:(lia)) as [F2 _].
  split.
  - intros Z1 Z2. rewrite !shortest_id in H by congruence. rewrite (slice_to_end 17 33 B LB) in H. rewrite <- (point_split B LB), EB, (from_bytes_ser _ OB) in H. cbv zeta in H.
    assert (EM : mulk (pubof (be2z (sha256d P seed))) (be2z (pass_factor P lot pwb ent)) = pubof (be2z k)).
    { rewrite (mulk_pubof _ _ Rb R), Ek, Z.mul_comm. reflexivity. }
    rewrite EM in H. replace (bytes_eqb (ahash P a c (pubof (be2z k))) ah) with true in H.
    2:{ symmetry. apply bytes_eqb_spec. unfold ah. rewrite EAd. reflexivity. }
    rewrite !H. unfold confirm_value. rewrite EAd. split; [reflexivity|]. eexists. split; [reflexivity|]. cbn [c_address c_public_key_type c_lot c_sequence].
    split; [reflexivity|]. split; [reflexivity|]. apply lot_report_of, Le.
  - intros Z detail. rewrite H. rewrite from_bytes_short; [reflexivity|]. rewrite !app_length. cbn [List.length].
    pose proof (shortest_length_le (slice 1 17 B) ltac:(lia)). pose proof (shortest_length_le (slice 17 33 B) ltac:(lia)).
    destruct Z as [Z|Z].
    + pose proof (shortest_length_lt (slice 1 17 B) ltac:(lia) ltac:(congruence)). lia.
    + pose proof (shortest_length_lt (slice 17 33 B) ltac:(lia) ltac:(congruence)). lia.
Qed.
