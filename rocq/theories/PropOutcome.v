(** * C76, C77, C78: the exact outcomes of encrypt, create_new_encrypted_wif and
    intermediate_code (bip38.py) *)
From Coq Require Import Lia ZifyBool ZifyNat ZifyN.
From Verif Require Import Py Prims Const Spec PyFacts Utils UtilsFacts Base58 Base58Facts
  Curve SpecCurve CurveFacts CurveFacts2 Secp256k1 SecpFacts Cryptocurrencies Wif Bip38 SpecBip38 SpecRecords SpecSession SpecInterop
  CodecFacts CodecFacts2 Bip38Facts Bip38Facts2 Sessions RecordFacts ECFacts Toy PropEncrypt PropIntermediate PropDecrypt PropCreate PropEC SpecReads ReadFacts
  PropCodec PropInterop SpecOutcome.

(** ** C76: encrypt *)
Lemma encrypt_payload P self network n w a c k raw s pw : prims_ok P -> net_sel self network n w a ->
  base58_reads s raw -> wif_payload w c k raw -> encrypt P self s pw network = encrypt_result P a c k pw.
Proof.
  intros HP N D (p & m & ck & M & Lk & Lc & Lm & R). pose proof (ns_w _ _ _ _ _ N) as Hw.
  assert (E : decode_wif s w = Ok (k, wif_name c, ck)).
  { apply C09_decode_wif_exact; [exact Hw|]. exists raw, c. split; [exact D|]. split; [reflexivity|]. exists p, m. auto. }
  rewrite (encrypt_eq P HP _ _ _ _ _ _ _ N), E, str_wif. reflexivity.
Qed.
Theorem C76_outcome : forall P self network w a s pw, prims_ok P -> session self network w a ->
  (~ is_ascii s -> encrypt P self s pw network = Raise (Builtin UnicodeEncodeError)) /\
  (is_ascii s -> exists raw, base58_reads s raw /\
   ((forall c k, ~ wif_payload w c k raw) -> encrypt P self s pw network = Raise (Lib CWIFError "Invalid Wallet Import Format (WIF)")) /\
   (forall c k, wif_payload w c k raw ->
    ((forall e, ~ scalar k e) -> encrypt P self s pw network = Raise (Lib CSecp256k1Error "Invalid private key bytes")) /\
    (forall e address, scalar k e -> key_address P a c k address ->
     ((forall pwb, ~ passphrase_bytes P pw pwb) -> encrypt P self s pw network = Raise (Builtin UnicodeEncodeError)) /\
     (forall pwb, passphrase_bytes P pw pwb ->
      let S := strong_kdf P pwb (address_hash P address) in
      (nth 0 k x00 = nth 0 S x00 \/ nth 16 k x00 = nth 16 S x00 -> encrypt P self s pw network = Raise (Builtin ValueError)) /\
      (nth 0 k x00 <> nth 0 S x00 -> nth 16 k x00 <> nth 16 S x00 ->
       exists t, base58check_text P bitcoin_alphabet (plain_record P c (address_hash P address) k pwb) t /\
         encrypt P self s pw network = Ok t))))).
Proof.
  intros P self network w a s pw HP HS. destruct (session_net_sel _ _ _ _ HS) as (n & N). pose proof (ns_w _ _ _ _ _ N) as Hw. pose proof (ns_a _ _ _ _ _ N) as Ha. split.
  - intros A. rewrite (encrypt_eq P HP _ _ _ _ _ _ _ N), (decode_wif_non_ascii s w A). reflexivity.
  - intros A. destruct (decode_ascii58 s A) as [raw D]. apply reads_code in D. exists raw. split; [exact D|]. split.
    + intros H. rewrite (encrypt_eq P HP _ _ _ _ _ _ _ N). destruct (C09_decode_wif_otherwise s w Hw) as [E _]; [|rewrite (E A); reflexivity].
      intros k t ck E. apply C09_decode_wif_exact in E; [|exact Hw]. destruct E as (raw' & c & D' & _ & p & m & M & Lk & Lc & Lm & R).
      apply reads_code in D. apply reads_code in D'. rewrite D in D'. apply Ok_inj in D'. subst raw'. apply (H c k). exists p, m, ck. auto.
    + intros c k W. rewrite (encrypt_payload P self network n w a c k raw s pw HP N D W). unfold encrypt_result. split.
      * intros NS. destruct (key_okb k) eqn:K; [|reflexivity]. apply key_okb_spec in K. destruct (NS _ K).
      * intros e address Sc KA. destruct (scalar_be2z _ _ Sc) as [_ K]. rewrite K. destruct (key_okb_range _ K) as [Lk Rk].
        apply key_address_iff in KA; [|exact Ha]. destruct KA as [_ ->].
        change (address_hash P (addr P a c (pubof (be2z k)))) with (ahash P a c (pubof (be2z k))). split.
        -- intros NB. destruct (utf8_encode (h_nfc P pw)) as [pwb|x] eqn:B; [destruct (NB pwb B)|]. rewrite (utf8_encode_err _ _ B). reflexivity.
        -- intros pwb B. unfold passphrase_bytes in B. rewrite B. cbv zeta. set (ah := ahash P a c (pubof (be2z k))). set (S := strong_kdf P pwb ah).
           assert (LS : List.length S = 64%nat) by apply (scrypt_len P HP).
           assert (Z1 : zero_first (mask1 P k pwb ah) = true <-> nth 0 k x00 = nth 0 S x00) by (rewrite zero_first_spec; apply first_mask; lia).
           assert (Z2 : zero_first (mask2 P k pwb ah) = true <-> nth 16 k x00 = nth 16 S x00) by (rewrite zero_first_spec; apply first_mask; lia).
           split.
           ++ intros [H|H]; [apply Z1 in H|apply Z2 in H]; rewrite H, ?orb_true_r; reflexivity.
           ++ intros H1 H2. exists (b58c P (body_no_ec P c ah k pwb)). split; [apply b58c_text|].
              destruct (zero_first (mask1 P k pwb ah)); [destruct H1; apply Z1; reflexivity|]. destruct (zero_first (mask2 P k pwb ah)); [destruct H2; apply Z2; reflexivity|]. reflexivity.
Qed.
(** Exactly one key and form: the payload determines them. *)
Theorem C76_payload_unique : forall w c k c' k' raw, wif_payload w c k raw -> wif_payload w c' k' raw -> c' = c /\ k' = k.
Proof.
  intros w c k c' k' raw (p & m & ck & M & Lk & Lc & Lm & R) (p' & m' & ck' & M' & Lk' & Lc' & Lm' & R').
  rewrite (minimal_unique _ _ M) in R. rewrite (minimal_unique _ _ M') in R'. rewrite R in R'. apply app_inv_head in R'.
  assert (EL : List.length (k ++ m ++ ck) = List.length (k' ++ m' ++ ck')) by congruence. rewrite !app_length in EL.
  apply app_inj_l in R'; [|congruence]. destruct R' as [-> _]. split; [|reflexivity]. destruct c, c'; trivial; lia.
Qed.
(** Whatever checksum and marker byte the text had, decrypt gives the proper WIF. *)
Theorem C76_canonical : forall P self network w a s pw e c k raw wif, prims_ok P -> session self network w a ->
  base58_reads s raw -> wif_payload w c k raw -> encrypt P self s pw network = Ok e -> wif_text P w c k wif ->
  (first_byte k <> x00 -> decrypt P self e pw network false = Ok (DWif wif)) /\
  encrypt P self wif pw network = Ok e.
Proof.
  intros P self network w a s pw e c k raw wif HP HS D W E T. destruct (session_net_sel _ _ _ _ HS) as (n & N).
  assert (Lk : List.length k = 32%nat) by (destruct W as (? & ? & ? & _ & Lk & _); exact Lk).
  assert (E' : encrypt P self wif pw network = Ok e).
  { rewrite <- E, (encrypt_payload P self network n w a c k raw s pw HP N D W). apply (encrypt_wif P self network n w a c k wif pw HP N Lk T). }
  split; [|exact E']. intros Z. apply (C12_roundtrip P self network w a c k wif pw e HP HS Lk T E' Z).
Qed.

(** ** C77: create_new_encrypted_wif *)
Lemma masked_block_iff P key m mask E :
  masked_block P key m mask E <-> enc_block P key (xor_right m mask) = Ok E.
Proof.
  unfold masked_block, enc_block.
  assert (V : minimal_bytes (Z.lxor (be_value m) (be_value mask)) (shortest (xor_right m mask))).
  { assert (NN : 0 <= Z.lxor (be2z m) (be2z mask)) by (apply Z.lxor_nonneg; pose proof (be2z_bound m); pose proof (be2z_bound mask); lia).
    pose proof (pre_minimal _ NN) as M. rewrite !be_value_be2z. replace (shortest (xor_right m mask)) with (pre (Z.lxor (be2z m) (be2z mask))); [exact M|].
    assert (X : integer_to_bytes (Z.lxor (be2z m) (be2z mask)) = Ok (shortest (xor_right m mask))) by exact (xor_bytes_right m mask).
    rewrite (pre_eq _ NN) in X. apply Ok_inj in X. exact X. }
  split.
  - intros (b & M & L & ->). rewrite (minimal_unique _ _ M), <- (minimal_unique _ _ V) in *. rewrite L. reflexivity.
  - intros H. destruct (Nat.eqb_spec (List.length (shortest (xor_right m mask))) 16) as [L|L]; [|discriminate]. apply Ok_inj in H.
    exists (shortest (xor_right m mask)). auto.
Qed.
Theorem C77_outcome : forall P random self network w a lot c ent px py pp code arg seed e kx ky address bx by_ B,
  prims_ok P -> session self network w a -> argument_bytes random arg seed ->
  base58check_reads P code (code_magic lot ++ ent ++ pp) -> List.length ent = 8%nat ->
  on_curve (Aff px py) -> sec1_compressed px py pp ->
  scalar (sha256d P seed) e -> ec_multiple (Z.to_N e) (Aff px py) (Aff kx ky) -> address_text P bitcoin_alphabet a c kx ky address ->
  public_point e bx by_ -> sec1_compressed bx by_ B ->
  let ah := address_hash P address in
  let S := light_kdf P pp ah ent in
  (forall E1 E2 Q1 Q2, seed_blocks P S seed B E1 E2 Q1 Q2 ->
   exists r key, create_new_encrypted_wif P random self code (wif_name c) arg network = Ok r /\
     base58check_text P bitcoin_alphabet ([x01; x43] ++ [ec_flag lot c] ++ ah ++ ent ++ slice 0 8 E1 ++ E2) (n_encrypted_wif r) /\
     base58check_text P bitcoin_alphabet ([x64; x3b; xf6; xa8; x9a] ++ [ec_flag lot c] ++ ah ++ ent ++
       [byte_xor (nth 0 B x00) (bit0 (nth 63 S x00))] ++ Q1 ++ Q2) (n_confirmation_code r) /\
     serialised c kx ky key /\ n_public_key r = hex key /\ n_public_key_type r = key_name c /\
     n_address r = address /\ n_seed r = hex seed) /\
  ((forall E1 E2 Q1 Q2, ~ seed_blocks P S seed B E1 E2 Q1 Q2) ->
   create_new_encrypted_wif P random self code (wif_name c) arg network = Raise (Builtin ValueError)).
Proof.
  intros P random self network w a lot c ent px py pp code arg seed e kx ky address bx by_ B HP HS A D Le O SC Sc QK AT Q SB ah S.
  destruct (session_net_sel _ _ _ _ HS) as (n & N). apply argument_entropy in A. pose proof (ns_a _ _ _ _ _ N) as Ha.
  set (k := {| pk_x := px; pk_y := py |}). assert (Ok_ : pk_ok k) by exact O.
  assert (EP : pp = ser true k) by exact (serialised_unique true k pp Ok_ SC).
  destruct (scalar_be2z _ _ Sc) as [-> K]. destruct (key_okb_range _ K) as [_ R].
  apply public_point_iff in Q; [|exact R]. destruct (pubof_ok _ R) as (_ & _ & OB). rewrite Q in OB.
  assert (EB : B = ser true (pubof (be2z (sha256d P seed)))) by (rewrite (serialised_unique true {| pk_x := bx; pk_y := by_ |} B OB SB), Q; reflexivity).
  apply (mulk_multiple k _ _ _ Ok_ R) in QK. destruct (mulk_ok k _ Ok_ R) as (_ & OK & _). rewrite QK in OK.
  apply (address_text_unique P a c {| pk_x := kx; pk_y := ky |}) in AT; [|assumption..].
  assert (EA : ahash P a c {| pk_x := kx; pk_y := ky |} = ah) by (unfold ah; rewrite AT; reflexivity).
  assert (LBB : List.length B = 33%nat) by (rewrite EB; apply ser_true_length).
  assert (LS : List.length S = 64%nat) by apply (scrypt_len P HP).
  assert (LK : List.length (from 32 S) = 32%nat) by (rewrite from_length; lia).
  assert (Sl : slice 32 64 S = from 32 S) by (unfold slice, from; apply firstn_all2; rewrite skipn_length; lia).
  assert (U3 : slice 17 33 B = from 17 B) by (unfold slice, from; apply firstn_all2; rewrite skipn_length; lia).
  apply (reads58check P HP) in D. change bitcoin_alphabet with base58_alphabet in D. rewrite EP in D. change (code_magic lot) with (magic_bytes lot) in D.
  rewrite (create_valid P random self network n w a lot c ent k code arg seed HP N A D Le).
  unfold create_core. cbv zeta. rewrite K, (from_bytes_ser k Ok_). cbn [bind]. rewrite QK, EA, <- EP, <- EB.
  change (kdf2 P pp ah ent) with S.
  assert (X3 : xor_right (slice 1 17 B) (upto 16 S) = xor (slice 1 17 B) (upto 16 S)).
  { apply xor_right_eq. rewrite slice_length by lia. rewrite upto_length by lia. reflexivity. }
  assert (X4 : xor_right (from 17 B) (slice 16 32 S) = xor (from 17 B) (slice 16 32 S)).
  { apply xor_right_eq. rewrite from_length, slice_length by lia. lia. }
  unfold seed_blocks. cbv zeta. rewrite Sl, U3. change (slice 0 16 seed) with (upto 16 seed). change (slice 0 16 S) with (upto 16 S). 
  split.
  - intros E1 E2 Q1 Q2 (H1 & H2 & H3 & H4). apply masked_block_iff in H1, H2, H3, H4. rewrite X3 in H3. rewrite X4 in H4.
    assert (L1 : List.length E1 = 16%nat) by (apply enc_block_inv in H1; destruct H1 as [-> L]; apply (aes_enc_len P HP); assumption).
    assert (U1 : slice 8 16 E1 = from 8 E1) by (unfold slice, from; apply firstn_all2; rewrite skipn_length; lia).
    change (skipn 16 seed) with (from 16 seed) in H2. rewrite U1 in H2. rewrite H1. cbn [bind]. rewrite H2. cbn [bind]. rewrite H3. cbn [bind]. rewrite H4. cbn [bind].
    eexists. exists (ser c {| pk_x := kx; pk_y := ky |}). split; [reflexivity|]. unfold new_wif_of. cbv zeta.
    cbn [n_encrypted_wif n_confirmation_code n_public_key n_public_key_type n_address n_seed cr_key cr_ah cr_S cr_E1 cr_E2 cr_Q1 cr_Q2].
    split; [apply b58c_text|]. split.
    { rewrite <- EB. change (bit0 (nth 63 S x00)) with (low_bit (last64 S)). rewrite (byte_xor_comm (nth 0 B x00)).
      replace (nth 0 B x00) with (first_byte B) by (destruct B; reflexivity). apply b58c_text. }
    split; [apply (ser_serialised c {| pk_x := kx; pk_y := ky |}), OK|]. split; [reflexivity|]. split; [reflexivity|]. split; [symmetry; exact AT|reflexivity].
  - intros H.
    destruct (enc_block P (from 32 S) (xor_right (upto 16 seed) (upto 16 S))) as [E1|x] eqn:H1; cbn [bind]; [|f_equal; unfold enc_block in H1; destruct (Nat.eqb _ _); congruence].
    assert (L1 : List.length E1 = 16%nat) by (apply enc_block_inv in H1; destruct H1 as [-> L]; apply (aes_enc_len P HP); assumption).
    assert (U1 : slice 8 16 E1 = from 8 E1) by (unfold slice, from; apply firstn_all2; rewrite skipn_length; lia).
    destruct (enc_block P (from 32 S) (xor_right (from 8 E1 ++ from 16 seed) (slice 16 32 S))) as [E2|x] eqn:H2; cbn [bind]; [|f_equal; unfold enc_block in H2; destruct (Nat.eqb _ _); congruence].
    destruct (enc_block P (from 32 S) (xor (slice 1 17 B) (upto 16 S))) as [Q1|x] eqn:H3; cbn [bind]; [|f_equal; unfold enc_block in H3; destruct (Nat.eqb _ _); congruence].
    destruct (enc_block P (from 32 S) (xor (from 17 B) (slice 16 32 S))) as [Q2|x] eqn:H4; cbn [bind]; [|f_equal; unfold enc_block in H4; destruct (Nat.eqb _ _); congruence].
    exfalso. apply (H E1 E2 Q1 Q2). rewrite <- X3 in H3. rewrite <- X4 in H4. rewrite !masked_block_iff, U1. auto.
Qed.

(** ** C78: intermediate_code *)
(** What it does for a passphrase once the arguments are accepted and the entropy is fixed *)
Definition code_outcome (P : prims) (lot : bool) (ent : bytes) (pw : pystr) (r : res pystr) : Prop :=
  ((forall pwb, ~ passphrase_bytes P pw pwb) -> r = Raise (Builtin UnicodeEncodeError)) /\
  (forall pwb, passphrase_bytes P pw pwb ->
    ((forall e, ~ scalar (owner_factor P lot pwb ent) e) -> r = Raise (Lib CSecp256k1Error "Invalid private key bytes")) /\
    (forall e x y, scalar (owner_factor P lot pwb ent) e -> public_point e x y -> exists s, code_text P lot ent x y s /\ r = Ok s)).
Lemma code_outcome_result P lot ent pw : prims_ok P -> code_outcome P lot ent pw (intermediate_result P lot pw ent).
Proof.
  intros HP. split.
  - intros NB. unfold intermediate_result. destruct (utf8_encode (h_nfc P pw)) as [pwb|x] eqn:B; [destruct (NB pwb B)|]. rewrite (utf8_encode_err _ _ B). reflexivity.
  - intros pwb B. split.
    + intros NS. unfold intermediate_result. unfold passphrase_bytes in B. rewrite B. cbv zeta. rewrite <- owner_factor_eq.
      destruct (key_okb _) eqn:K; [|reflexivity]. apply key_okb_spec in K. destruct (NS _ K).
    + intros e x y Sc Q. destruct (scalar_be2z _ _ Sc) as [Ee K]. destruct (key_okb_range _ K) as [_ R].
      assert (R' : 1 <= e < G_order) by (rewrite Ee; exact R).
      pose proof Q as Q'. apply public_point_iff in Q'; [|exact R']. destruct (pubof_ok _ R') as (_ & _ & O). rewrite Q' in O.
      exists (b58c P (code_magic lot ++ ent ++ ser true {| pk_x := x; pk_y := y |})).
      assert (CT : code_text P lot ent x y (b58c P (code_magic lot ++ ent ++ ser true {| pk_x := x; pk_y := y |}))).
      { exists (ser true {| pk_x := x; pk_y := y |}). split; [apply (ser_serialised true {| pk_x := x; pk_y := y |}), O|apply b58c_text]. }
      split; [exact CT|]. apply (passphrase_code_iff P lot ent pw _ HP). exists pwb, e, x, y. auto.
Qed.
Theorem C78_outcome : forall P random arg salt pw lot sequence, prims_ok P -> argument_bytes random arg salt ->
  let r := intermediate_code P random pw lot sequence arg in
  (List.length salt <> 4%nat -> List.length salt <> 8%nat ->
   r = Raise (Lib CError (error_text "Invalid owner salt length" (str "'8', '16'") (dec (2 * zlen salt))))) /\
  (List.length salt = 4%nat -> lot = None \/ sequence = None ->
   r = Raise (Lib CError (error_text "Invalid owner salt length for non lot/sequence" (str "16") (str "8")))) /\
  (List.length salt = 8%nat -> forall n, n <> 0 ->
   (lot = Some n -> sequence = None -> r = Raise (Lib CError (str "Both lot & sequence are required got: (lot " ++ dec n ++ str ") & (sequence None)")%list)) /\
   (lot = None -> sequence = Some n -> r = Raise (Lib CError (str "Both lot & sequence are required got: (lot None) & (sequence " ++ dec n ++ str ")")%list))) /\
  (List.length salt = 4%nat \/ List.length salt = 8%nat -> forall l q, lot = Some l -> sequence = Some q -> l <> 0 -> q <> 0 ->
   (~ 100000 <= l <= 999999 -> r = Raise (Lib CError (error_text "Invalid lot" (str "100000 <= lot <= 999999") (dec l)))) /\
   (100000 <= l <= 999999 -> ~ 1 <= q <= 4095 -> r = Raise (Lib CError (error_text "Invalid sequence" (str "0 <= sequence <= 4095") (dec q)))) /\
   (100000 <= l <= 999999 -> 1 <= q <= 4095 -> exists ent, lot_entropy (slice 0 4 salt) l q ent /\ code_outcome P true ent pw r)) /\
  (List.length salt = 4%nat \/ List.length salt = 8%nat -> forall l q, lot = Some l -> sequence = Some q -> l = 0 \/ q = 0 -> code_outcome P false salt pw r) /\
  (List.length salt = 8%nat -> lot = None \/ lot = Some 0 -> sequence = None \/ sequence = Some 0 -> code_outcome P false salt pw r).
Proof.
  intros P random arg salt pw lot sequence HP A r. pose proof A as A'. apply argument_entropy in A'. split; [|split; [|split; [|split; [|split]]]].
  - apply C22_salt_length, A.
  - intros L H. apply (C22_short_salt_needs_both P random arg salt pw lot sequence A L H).
  - intros L n N. split; intros H1 H2; unfold r.
    + rewrite (C22_one_missing P random arg salt pw lot sequence n A L N) by auto. rewrite H1. reflexivity.
    + rewrite (C22_one_missing P random arg salt pw lot sequence n A L N) by auto. rewrite H1. reflexivity.
  - intros L l q E1 E2 N1 N2. unfold r. rewrite E1, E2. split; [|split].
    + intros R. apply (C22_lot_range P random arg salt pw l q A L N1 N2 R).
    + intros R R2. apply (C22_sequence_range P random arg salt pw l q A L R N2 R2).
    + intros R1 R2. exists (upto 4 salt ++ z2be 4 (l * 4096 + q)). split; [apply lot_entropy_iff; [cbn; lia|reflexivity]|].
      rewrite (intermediate_lot_eq P _ _ _ pw _ _ A' L R1 R2). apply code_outcome_result, HP.
  - intros L l q E1 E2 H. unfold r. rewrite (intermediate_plain_eq P _ _ _ pw lot sequence A') by (right; split; eauto). apply code_outcome_result, HP.
  - intros L E1 E2. unfold r. rewrite (intermediate_plain_eq P _ _ _ pw lot sequence A') by auto. apply code_outcome_result, HP.
Qed.
(** The cases cover every call. *)
Lemma C78_cases_complete : forall (salt : bytes) (lot sequence : option Z),
  (List.length salt <> 4%nat /\ List.length salt <> 8%nat) \/
  (List.length salt = 4%nat /\ (lot = None \/ sequence = None)) \/
  (List.length salt = 8%nat /\ exists n, n <> 0 /\ (lot = Some n /\ sequence = None \/ lot = None /\ sequence = Some n)) \/
  ((List.length salt = 4%nat \/ List.length salt = 8%nat) /\ exists l q, lot = Some l /\ sequence = Some q /\ l <> 0 /\ q <> 0) \/
  ((List.length salt = 4%nat \/ List.length salt = 8%nat) /\ exists l q, lot = Some l /\ sequence = Some q /\ (l = 0 \/ q = 0)) \/
  (List.length salt = 8%nat /\ (lot = None \/ lot = Some 0) /\ (sequence = None \/ sequence = Some 0)).
Proof.
  intros salt lot sequence.
  destruct (Nat.eq_dec (List.length salt) 4) as [L|L].
  - right. destruct lot as [l|]; [|left; auto]. destruct sequence as [q|]; [|left; auto]. right. right.
    destruct (Z.eq_dec l 0) as [H1|H1]; [right; left; split; [auto|]; exists l, q; auto|]. destruct (Z.eq_dec q 0) as [H2|H2]; [right; left; split; [auto|]; exists l, q; auto|].
    left. split; [auto|]. exists l, q. auto.
  - destruct (Nat.eq_dec (List.length salt) 8) as [L8|L8]; [|left; auto]. right. right.
    destruct lot as [l|], sequence as [q|].
    + right. destruct (Z.eq_dec l 0) as [H1|H1]; [right; left; split; [auto|]; exists l, q; auto|]. destruct (Z.eq_dec q 0) as [H2|H2]; [right; left; split; [auto|]; exists l, q; auto|].
      left. split; [auto|]. exists l, q. auto.
    + destruct (Z.eq_dec l 0) as [-> |H]; [right; right; right; auto|left; split; [auto|]; exists l; auto].
    + destruct (Z.eq_dec q 0) as [-> |H]; [right; right; right; auto|left; split; [auto|]; exists q; auto].
    + right. right. right. auto.
Qed.
