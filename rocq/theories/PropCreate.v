(** * C28-C30, C43 (second half): create_new_encrypted_wif (bip38.py) *)
From Coq Require Import Lia ZifyBool ZifyNat ZifyN.
From Verif Require Import Py Prims Const Spec PyFacts Utils UtilsFacts Base58 Base58Facts
  Curve SpecCurve CurveFacts CurveFacts2 Secp256k1 SecpFacts Cryptocurrencies Wif Bip38 SpecBip38 SpecRecords SpecSession
  CodecFacts CodecFacts2 Bip38Facts Bip38Facts2 Sessions RecordFacts ECFacts Toy PropEncrypt PropIntermediate SpecReads ReadFacts.

Lemma Raise_inj {A} e e' : @Raise A e = Raise e' -> e = e'.
Proof. congruence. Qed.
Lemma create_valid P random self network n w a lot c ent k code arg seed : prims_ok P -> net_sel self network n w a ->
  entropy_arg random arg = Ok seed -> check_decode P code base58_alphabet = Ok (magic_bytes lot ++ ent ++ ser true k) ->
  List.length ent = 8%nat ->
  create_new_encrypted_wif P random self code (wif_name c) arg network = create_core P a lot c ent (ser true k) seed.
Proof.
  intros HP N A D Le. rewrite (create_eq P HP _ _ _ _ _ _ _ _ _ N), A, D. unfold create_result.
  assert (Lm : List.length (magic_bytes lot) = 8%nat) by reflexivity.
  assert (Lk : List.length (ser true k) = 33%nat) by apply ser_true_length.
  rewrite !app_length, Lm, Le, Lk. change (8 + (8 + 33) =? 49)%nat with true. cbv iota.
  rewrite type_of_name. rewrite (upto_app 8) by exact Lm. rewrite magic_of_bytes.
  rewrite (slice_app 8 16) by lia. rewrite app_assoc, (from_app 16) by (rewrite app_length; lia). reflexivity.
Qed.
Lemma code_text_iff P lot ent x y s : on_curve (Aff x y) ->
  (code_text P lot ent x y s <-> s = b58c P (magic_bytes lot ++ ent ++ ser true {| pk_x := x; pk_y := y |})).
Proof.
  intros O. split.
  - intros (pp & SC & T). rewrite (serialised_unique true {| pk_x := x; pk_y := y |} pp O SC) in T. apply b58c_unique, T.
  - intros ->. exists (ser true {| pk_x := x; pk_y := y |}). split; [apply (ser_serialised true {| pk_x := x; pk_y := y |}), O|]. apply b58c_text.
Qed.
Lemma mulk_multiple k e x y : pk_ok k -> 1 <= e < secp_n ->
  (ec_multiple (Z.to_N e) (PublicKey_point k) (Aff x y) <-> mulk k e = {| pk_x := x; pk_y := y |}).
Proof.
  intros O R. rewrite (ec_multiple_iff _ _ _ O). rewrite Z2N.id by lia. destruct (mulk_ok k e O R) as (_ & _ & E). rewrite <- E.
  destruct (mulk k e) as [x' y']. unfold PublicKey_point. cbn [pk_x pk_y]. split; intros H; inversion H; reflexivity.
Qed.

(** ** C28: what is returned *)
Theorem C28_output : forall P random self network w a code t arg seed r, prims_ok P -> session self network w a ->
  argument_bytes random arg seed -> create_new_encrypted_wif P random self code t arg network = Ok r ->
  exists lot c ent pp px py e x y ser tail tail',
    (** the intermediate code *)
    base58check_reads P code (code_magic lot ++ ent ++ pp) /\ List.length ent = 8%nat /\
    on_curve (Aff px py) /\ sec1_compressed px py pp /\
    (** the public key: the hash of the seed times that point *)
    scalar (sha256d P seed) e /\ ec_multiple (Z.to_N e) (Aff px py) (Aff x y) /\
    serialised c x y ser /\ n_public_key r = hex ser /\ n_public_key_type r = key_name c /\ t = wif_name c /\
    n_seed r = hex seed /\ address_text P bitcoin_alphabet a c x y (n_address r) /\
    (** both texts carry the flag, the address hash and the entropy *)
    base58check_text P bitcoin_alphabet
      ([x01; x43] ++ [ec_flag lot c] ++ address_hash P (n_address r) ++ ent ++ tail) (n_encrypted_wif r) /\
    List.length tail = 24%nat /\
    base58check_text P bitcoin_alphabet
      ([x64; x3b; xf6; xa8; x9a] ++ [ec_flag lot c] ++ address_hash P (n_address r) ++ ent ++ tail') (n_confirmation_code r) /\
    List.length tail' = 33%nat.
Proof.
  intros P random self network w a code t arg seed r HP HS A E. to_code. destruct (session_net_sel _ _ _ _ HS) as (n & N).
  apply argument_entropy in A.
  destruct (create_inv P HP _ _ _ _ _ _ _ _ _ _ _ N A E) as (lot & c & ent & pp & ppk & cr & D & Le & Lp & T & CR & V).
  destruct (creation_len P HP _ _ _ _ _ _ _ _ CR) as (La & LS & L1 & L2 & L3 & L4 & LK & LA & LB).
  pose proof (cn_fb _ _ _ _ _ _ _ _ _ CR) as K. pose proof (cn_ppk _ _ _ _ _ _ _ _ _ CR) as O.
  destruct (key_okb_range _ K) as [_ R]. destruct (mulk_ok ppk _ O R) as (_ & OK & _).
  rewrite <- (cn_key _ _ _ _ _ _ _ _ _ CR) in OK.
  exists lot, c, ent, pp, (pk_x ppk), (pk_y ppk), (be2z (sha256d P seed)), (pk_x (cr_key cr)), (pk_y (cr_key cr)), (ser c (cr_key cr)),
    (upto 8 (cr_E1 cr) ++ cr_E2 cr), ([byte_xor (low_bit (last64 (cr_S cr))) (first_byte (ser true (pubof (be2z (sha256d P seed)))))] ++ cr_Q1 cr ++ cr_Q2 cr).
  split; [apply (reads58check P HP); exact D|]. split; [exact Le|]. split; [exact O|].
  split; [rewrite (cn_pp _ _ _ _ _ _ _ _ _ CR); apply (ser_serialised true), O|].
  split; [apply key_okb_spec, K|].
  split; [apply (mulk_multiple ppk _ _ _ O R); rewrite <- (cn_key _ _ _ _ _ _ _ _ _ CR); destruct (cr_key cr); reflexivity|].
  split; [apply ser_serialised, OK|]. rewrite V. unfold new_wif_of. cbv zeta. cbn [n_public_key n_public_key_type n_seed n_address n_encrypted_wif n_confirmation_code].
  split; [reflexivity|]. split; [reflexivity|]. split; [exact T|]. split; [reflexivity|].
  split; [apply addr_text; [apply (ns_a _ _ _ _ _ N)|exact OK]|].
  change (address_hash P (addr P a c (cr_key cr))) with (ahash P a c (cr_key cr)). rewrite <- (cn_ah _ _ _ _ _ _ _ _ _ CR).
  split; [apply b58c_text|]. split; [rewrite app_length, L2, upto_length by lia; reflexivity|].
  split; [apply b58c_text|]. rewrite !app_length, L3, L4. reflexivity.
Qed.
(** The full layout of the two records, for the 24-byte seeds of BIP38. *)
Theorem C28_records : forall P random self network w a lot c ent px py pp code arg seed r e bx by_ B, prims_ok P -> session self network w a ->
  argument_bytes random arg seed -> List.length seed = 24%nat -> List.length ent = 8%nat ->
  on_curve (Aff px py) -> sec1_compressed px py pp -> code_text P lot ent px py code ->
  scalar (sha256d P seed) e -> public_point e bx by_ -> sec1_compressed bx by_ B ->
  create_new_encrypted_wif P random self code (wif_name c) arg network = Ok r ->
  let ah := address_hash P (n_address r) in
  base58check_text P bitcoin_alphabet (ec_record P (ec_flag lot c) ah ent pp seed) (n_encrypted_wif r) /\
  base58check_text P bitcoin_alphabet (confirmation_record P (ec_flag lot c) ah ent pp B) (n_confirmation_code r) /\
  no_zero_block P ah ent pp seed B.
Proof.
  intros P random self network w a lot c ent px py pp code arg seed r e bx by_ B HP HS A Ls Le O SC T S Q SB E ah.
  destruct (session_net_sel _ _ _ _ HS) as (n & N). apply argument_entropy in A.
  set (k := {| pk_x := px; pk_y := py |}). assert (Ok_ : pk_ok k) by exact O.
  rewrite (serialised_unique true k pp Ok_ SC) in *. clear SC.
  destruct (scalar_be2z _ _ S) as [-> K]. destruct (key_okb_range _ K) as [_ R].
  apply public_point_iff in Q; [|exact R]. destruct (pubof_ok _ R) as (_ & _ & OB). rewrite Q in OB.
  rewrite (serialised_unique true {| pk_x := bx; pk_y := by_ |} B OB SB) in *. rewrite <- Q in *. clear SB Q OB bx by_ S B.
  apply (code_text_iff P lot ent px py code O) in T. fold k in T.
  assert (D : check_decode P code base58_alphabet = Ok (magic_bytes lot ++ ent ++ ser true k)) by (rewrite T; apply check_decode_b58c, HP).
  rewrite (create_valid P random self network n w a lot c ent k code arg seed HP N A D Le) in E.
  destruct (create_core_inv P _ _ _ _ _ _ _ (ser_true_length k) E) as (ppk & cr & CR & V).
  destruct (creation_len P HP _ _ _ _ _ _ _ _ CR) as (La & LS & L1 & L2 & L3 & L4 & LK & LA & LB).
  set (B := ser true (pubof (be2z (sha256d P seed)))) in *. assert (LBB : List.length B = 33%nat) by apply ser_true_length.
  assert (EA : ah = cr_ah cr) by (unfold ah; rewrite V, (cn_ah _ _ _ _ _ _ _ _ _ CR); reflexivity).
  assert (ES : light_kdf P (ser true k) ah ent = cr_S cr) by (rewrite EA; symmetry; apply (cn_S _ _ _ _ _ _ _ _ _ CR)).
  assert (Sl : slice 32 64 (cr_S cr) = from 32 (cr_S cr)) by (unfold slice, from; apply firstn_all2; rewrite skipn_length; lia).
  pose proof (cn_E1 _ _ _ _ _ _ _ _ _ CR) as H1. pose proof (cn_E2 _ _ _ _ _ _ _ _ _ CR) as H2.
  pose proof (cn_Q1 _ _ _ _ _ _ _ _ _ CR) as H3. pose proof (cn_Q2 _ _ _ _ _ _ _ _ _ CR) as H4. fold B in H3, H4.
  assert (X1 : List.length (upto 16 seed) = 16%nat) by (apply upto_length; lia).
  assert (X2 : List.length (from 8 (cr_E1 cr) ++ from 16 seed) = 16%nat) by (rewrite app_length, !from_length; lia).
  assert (X3 : List.length (slice 1 17 B) = 16%nat) by (rewrite slice_length; lia).
  assert (X4 : List.length (from 17 B) = 16%nat) by (rewrite from_length; lia).
  rewrite xor_right_eq in H1, H2 by congruence.
  apply enc_block_inv16 in H1; [|rewrite xor_length; congruence]. apply enc_block_inv16 in H2; [|rewrite xor_length; congruence].
  apply enc_block_inv16 in H3; [|rewrite xor_length; congruence]. apply enc_block_inv16 in H4; [|rewrite xor_length; congruence].
  destruct H1 as [E1 Z1], H2 as [E2 Z2], H3 as [E3 Z3], H4 as [E4 Z4].
  assert (B1 : seed_block_1 P (cr_S cr) seed = cr_E1 cr) by (unfold seed_block_1; rewrite Sl; symmetry; exact E1).
  assert (U1 : slice 8 16 (cr_E1 cr) = from 8 (cr_E1 cr)) by (unfold slice, from; apply firstn_all2; rewrite skipn_length; lia).
  assert (U2 : slice 16 24 seed = from 16 seed) by (unfold slice, from; apply firstn_all2; rewrite skipn_length; lia).
  assert (U3 : slice 17 33 B = from 17 B) by (unfold slice, from; apply firstn_all2; rewrite skipn_length; lia).
  assert (B2 : seed_block_2 P (cr_S cr) seed = cr_E2 cr) by (unfold seed_block_2; rewrite B1, Sl, U1, U2; symmetry; exact E2).
  unfold ec_record, confirmation_record, no_zero_block. cbv zeta. rewrite ES, B1, B2, Sl, U1, U3, EA. rewrite V. unfold new_wif_of. cbv zeta.
  cbn [n_encrypted_wif n_confirmation_code]. fold B.
  change (slice 0 8 (cr_E1 cr)) with (upto 8 (cr_E1 cr)). change (slice 0 16 (cr_S cr)) with (upto 16 (cr_S cr)). change (slice 0 16 seed) with (upto 16 seed).
  rewrite <- E3, <- E4. change (bit0 (nth 63 (cr_S cr) x00)) with (low_bit (last64 (cr_S cr))).
  rewrite (byte_xor_comm (nth 0 B x00)). replace (nth 0 B x00) with (first_byte B) by (destruct B; reflexivity).
  split; [apply b58c_text|]. split; [apply b58c_text|]. split; [exact Z1|]. split; [|split; [exact Z3|exact Z4]].
  intros H. apply Z2. rewrite first_xor in *; try (intros Y; apply (f_equal (@List.length byte)) in Y; revert Y; rewrite ?app_length, ?from_length, ?slice_length; cbn [List.length]; lia).
  - rewrite first_byte_app by (intros Y; apply (f_equal (@List.length byte)) in Y; rewrite from_length in Y; cbn in Y; lia).
    rewrite <- H. f_equal. destruct (first_slice 16 32 (cr_S cr) ltac:(lia) ltac:(lia)) as [-> _]. destruct (first_slice 16 24 (cr_S cr) ltac:(lia) ltac:(lia)) as [-> _]. reflexivity.
Qed.

(** When it returns: all blocks handed to AES must start with a non-zero byte. *)
Lemma enc_block_two key m : List.length m = 16%nat -> forall P,
  (exists E, enc_block P key m = Ok E /\ E = h_aes_enc P key m /\ first_byte m <> x00) \/
  (enc_block P key m = Raise (Builtin ValueError) /\ first_byte m = x00).
Proof.
  intros L P. rewrite enc_block_16 by exact L. destruct (zero_first m) eqn:Z.
  - right. split; [reflexivity|apply zero_first_spec, Z].
  - left. eexists. split; [reflexivity|]. split; [reflexivity|apply zero_first_false, Z].
Qed.
Theorem C28_succeeds_iff : forall P random self network w a lot c ent px py pp code arg seed e kx ky address bx by_ B,
  prims_ok P -> session self network w a ->
  argument_bytes random arg seed -> List.length seed = 24%nat -> List.length ent = 8%nat ->
  on_curve (Aff px py) -> sec1_compressed px py pp -> code_text P lot ent px py code ->
  scalar (sha256d P seed) e -> ec_multiple (Z.to_N e) (Aff px py) (Aff kx ky) ->
  address_text P bitcoin_alphabet a c kx ky address ->
  public_point e bx by_ -> sec1_compressed bx by_ B ->
  let ah := address_hash P address in
  ((exists r, create_new_encrypted_wif P random self code (wif_name c) arg network = Ok r) <-> no_zero_block P ah ent pp seed B) /\
  (~ no_zero_block P ah ent pp seed B ->
   create_new_encrypted_wif P random self code (wif_name c) arg network = Raise (Builtin ValueError)).
Proof.
  intros P random self network w a lot c ent px py pp code arg seed e kx ky address bx by_ B HP HS A Ls Le O SC T S QK AT Q SB ah.
  destruct (session_net_sel _ _ _ _ HS) as (n & N).
  assert (FWD : forall r, create_new_encrypted_wif P random self code (wif_name c) arg network = Ok r -> n_address r = address /\ no_zero_block P ah ent pp seed B).
  { intros r E.
    pose proof (C28_records P random self network w a lot c ent px py pp code arg seed r e bx by_ B HP HS A Ls Le O SC T S Q SB E) as (_ & _ & Z).
    assert (EA : n_address r = address); [|rewrite EA in Z; auto].
    clear Z Q SB bx by_ B ah. apply argument_entropy in A.
    set (k := {| pk_x := px; pk_y := py |}). assert (Ok_ : pk_ok k) by exact O.
    apply (code_text_iff P lot ent px py code O) in T. fold k in T.
    assert (D : check_decode P code base58_alphabet = Ok (magic_bytes lot ++ ent ++ ser true k)) by (rewrite T; apply check_decode_b58c, HP).
    rewrite (create_valid P random self network n w a lot c ent k code arg seed HP N A D Le) in E.
    destruct (create_core_inv P _ _ _ _ _ _ _ (ser_true_length k) E) as (ppk & cr & CR & V).
    destruct (scalar_be2z _ _ S) as [-> K]. destruct (key_okb_range _ K) as [_ R].
    apply (mulk_multiple k _ _ _ Ok_ R) in QK. destruct (mulk_ok k _ Ok_ R) as (_ & OK & _).
    assert (Ek : ppk = k).
    { pose proof (from_bytes_ser ppk (cn_ppk _ _ _ _ _ _ _ _ _ CR)) as F1. rewrite <- (cn_pp _ _ _ _ _ _ _ _ _ CR), (from_bytes_ser k Ok_) in F1. congruence. }
    rewrite V. unfold new_wif_of. cbv zeta. cbn [n_address]. rewrite (cn_key _ _ _ _ _ _ _ _ _ CR), Ek, QK. rewrite QK in OK.
    symmetry. pose proof (ns_a _ _ _ _ _ N). apply (address_text_unique P a c {| pk_x := kx; pk_y := ky |}); assumption. }
  set (C := create_new_encrypted_wif P random self code (wif_name c) arg network) in *.
  assert (BWD : (exists r, C = Ok r) \/ ~ no_zero_block P ah ent pp seed B /\ C = Raise (Builtin ValueError)).
  { unfold C. clear FWD C. apply argument_entropy in A.
    set (k := {| pk_x := px; pk_y := py |}). assert (Ok_ : pk_ok k) by exact O.
    rewrite (serialised_unique true k pp Ok_ SC) in *. clear SC.
    destruct (scalar_be2z _ _ S) as [-> K]. destruct (key_okb_range _ K) as [_ R].
    apply public_point_iff in Q; [|exact R]. destruct (pubof_ok _ R) as (_ & _ & OB). rewrite Q in OB.
    rewrite (serialised_unique true {| pk_x := bx; pk_y := by_ |} B OB SB) in *. rewrite <- Q in *. clear SB Q OB bx by_ S B.
    apply (code_text_iff P lot ent px py code O) in T. fold k in T.
    assert (D : check_decode P code base58_alphabet = Ok (magic_bytes lot ++ ent ++ ser true k)) by (rewrite T; apply check_decode_b58c, HP).
    rewrite (create_valid P random self network n w a lot c ent k code arg seed HP N A D Le).
    apply (mulk_multiple k _ _ _ Ok_ R) in QK. destruct (mulk_ok k _ Ok_ R) as (_ & OK & _). rewrite QK in OK.
    pose proof (ns_a _ _ _ _ _ N) as Ha. apply (address_text_unique P a c {| pk_x := kx; pk_y := ky |}) in AT; [|assumption..].
    unfold create_core. cbv zeta. rewrite K, (from_bytes_ser k Ok_). cbn [bind]. rewrite QK.
    assert (EA : ahash P a c {| pk_x := kx; pk_y := ky |} = ah) by (unfold ah; rewrite AT; reflexivity). rewrite EA.
    set (B := ser true (pubof (be2z (sha256d P seed)))) in *. assert (LBB : List.length B = 33%nat) by apply ser_true_length.
    set (SS := kdf2 P (ser true k) ah ent). assert (LS : List.length SS = 64%nat) by apply (kdf2_length P HP).
    assert (LK : List.length (from 32 SS) = 32%nat) by (rewrite from_length; lia).
    assert (Lu : List.length (upto 16 SS) = 16%nat) by (apply upto_length; lia).
    assert (Lv : List.length (slice 16 32 SS) = 16%nat) by (rewrite slice_length; lia).
    assert (X1 : List.length (upto 16 seed) = 16%nat) by (apply upto_length; lia).
    assert (X3 : List.length (slice 1 17 B) = 16%nat) by (rewrite slice_length; lia).
    assert (X4 : List.length (from 17 B) = 16%nat) by (rewrite from_length; lia).
    assert (Sl : slice 32 64 SS = from 32 SS) by (unfold slice, from; apply firstn_all2; rewrite skipn_length; lia).
    assert (U3 : slice 17 33 B = from 17 B) by (unfold slice, from; apply firstn_all2; rewrite skipn_length; lia).
    assert (NZ : no_zero_block P ah ent (ser true k) seed B <->
      first_byte (xor (upto 16 seed) (upto 16 SS)) <> x00 /\
      first_byte (xor (slice 8 16 (h_aes_enc P (from 32 SS) (xor (upto 16 seed) (upto 16 SS)))) (slice 16 24 SS)) <> x00 /\
      first_byte (xor (slice 1 17 B) (upto 16 SS)) <> x00 /\ first_byte (xor (from 17 B) (slice 16 32 SS)) <> x00).
    { unfold no_zero_block, seed_block_1. cbv zeta. change (light_kdf P (ser true k) ah ent) with SS. rewrite Sl, U3. reflexivity. }
    rewrite NZ. clear NZ. rewrite (xor_right_eq (upto 16 seed)) by congruence.
    destruct (enc_block_two (from 32 SS) (xor (upto 16 seed) (upto 16 SS)) ltac:(rewrite xor_length; congruence) P) as [(E1 & EE1 & V1 & Z1)|[EE1 Z1]];
      rewrite EE1; cbn [bind]; [|right; split; [tauto|reflexivity]]. rewrite <- V1.
    assert (L1 : List.length E1 = 16%nat) by (rewrite V1; apply (aes_enc_len P HP); [exact LK|rewrite xor_length; congruence]).
    assert (X2 : List.length (from 8 E1 ++ from 16 seed) = 16%nat) by (rewrite app_length, !from_length; lia).
    assert (U1 : slice 8 16 E1 = from 8 E1) by (unfold slice, from; apply firstn_all2; rewrite skipn_length; lia).
    assert (F2 : first_byte (xor (slice 8 16 E1) (slice 16 24 SS)) = first_byte (xor (from 8 E1 ++ from 16 seed) (slice 16 32 SS))).
    { rewrite U1. rewrite !first_xor; try (intros Y; apply (f_equal (@List.length byte)) in Y; revert Y; rewrite ?app_length, ?from_length, ?slice_length; cbn [List.length]; lia).
      rewrite first_byte_app by (intros Y; apply (f_equal (@List.length byte)) in Y; rewrite from_length in Y; cbn in Y; lia).
      f_equal. destruct (first_slice 16 32 SS ltac:(lia) ltac:(lia)) as [-> _]. destruct (first_slice 16 24 SS ltac:(lia) ltac:(lia)) as [-> _]. reflexivity. }
    rewrite F2. rewrite (xor_right_eq (from 8 E1 ++ from 16 seed)) by congruence.
    destruct (enc_block_two (from 32 SS) (xor (from 8 E1 ++ from 16 seed) (slice 16 32 SS)) ltac:(rewrite xor_length; congruence) P) as [(E2 & EE2 & _ & Z2)|[EE2 Z2]];
      rewrite EE2; cbn [bind]; [|right; split; [tauto|reflexivity]].
    destruct (enc_block_two (from 32 SS) (xor (slice 1 17 B) (upto 16 SS)) ltac:(rewrite xor_length; congruence) P) as [(E3 & EE3 & _ & Z3)|[EE3 Z3]];
      rewrite EE3; cbn [bind]; [|right; split; [tauto|reflexivity]].
    destruct (enc_block_two (from 32 SS) (xor (from 17 B) (slice 16 32 SS)) ltac:(rewrite xor_length; congruence) P) as [(E4 & EE4 & _ & Z4)|[EE4 Z4]];
      rewrite EE4; cbn [bind]; [|right; split; [tauto|reflexivity]].
    left. eexists. reflexivity. }
  split; [split|].
  - intros (r & E). apply (FWD r E).
  - intros Z. destruct BWD as [X|[X _]]; [exact X|contradiction].
  - intros Z. destruct BWD as [(r & E)|[_ X]]; [|exact X]. destruct Z. apply (FWD r E).
Qed.

(** ** C29: input validation.  [argument_bytes random arg seed]: the seed argument is usable. *)
Theorem C29_not_base58check : forall P random self network w a code t arg seed, prims_ok P -> session self network w a ->
  argument_bytes random arg seed -> (forall d, ~ base58check_reads P code d) ->
  create_new_encrypted_wif P random self code t arg network = Raise (Lib CPassphraseError "Invalid intermediate passphrase").
Proof.
  intros P random self network w a code t arg seed HP HS A H. to_code. destruct (session_net_sel _ _ _ _ HS) as (n & N). apply argument_entropy in A.
  rewrite (create_eq P HP _ _ _ _ _ _ _ _ _ N), A. change base58_alphabet with bitcoin_alphabet.
  destruct (check_decode P code bitcoin_alphabet) as [d|] eqn:D; [destruct (H d); reflexivity|reflexivity].
Qed.
Theorem C29_wrong_length : forall P random self network w a code t arg seed d, prims_ok P -> session self network w a ->
  argument_bytes random arg seed -> base58check_reads P code d -> List.length d <> 49%nat ->
  create_new_encrypted_wif P random self code t arg network = Raise (Lib CPassphraseError (error_text "Invalid intermediate passphrase length" (str "49") (dec (zlen d)))).
Proof.
  intros P random self network w a code t arg seed d HP HS A D L. to_code. destruct (session_net_sel _ _ _ _ HS) as (n & N). apply argument_entropy in A.
  rewrite (create_eq P HP _ _ _ _ _ _ _ _ _ N), A. change base58_alphabet with bitcoin_alphabet. rewrite D. unfold create_result.
  destruct (Nat.eqb_spec (List.length d) 49); [contradiction|reflexivity].
Qed.
Theorem C29_wrong_wif_type : forall P random self network w a code t arg seed d, prims_ok P -> session self network w a ->
  argument_bytes random arg seed -> base58check_reads P code d -> List.length d = 49%nat ->
  t <> str "wif" -> t <> str "wif-compressed" ->
  create_new_encrypted_wif P random self code t arg network = Raise (Lib CWIFError (error_text "Invalid wif type" (str "'wif', 'wif-compressed'") t)).
Proof.
  intros P random self network w a code t arg seed d HP HS A D L T1 T2. to_code. destruct (session_net_sel _ _ _ _ HS) as (n & N). apply argument_entropy in A.
  rewrite (create_eq P HP _ _ _ _ _ _ _ _ _ N), A. change base58_alphabet with bitcoin_alphabet. rewrite D. unfold create_result.
  rewrite L. cbn [Nat.eqb]. destruct (type_of t) as [c|] eqn:T; [|reflexivity]. apply type_of_inv in T. destruct c; contradiction.
Qed.
Theorem C29_wrong_magic : forall P random self network w a code c arg seed magic rest, prims_ok P -> session self network w a ->
  argument_bytes random arg seed -> base58check_reads P code (magic ++ rest) ->
  List.length magic = 8%nat -> List.length rest = 41%nat -> magic <> code_magic true -> magic <> code_magic false ->
  create_new_encrypted_wif P random self code (wif_name c) arg network =
    Raise (Lib CError (error_text "Invalid magic" (str "'2ce9b3e1ff39e251', '2ce9b3e1ff39e253'") (hex magic))).
Proof.
  intros P random self network w a code c arg seed m r HP HS A D L1 L2 M1 M2. to_code. destruct (session_net_sel _ _ _ _ HS) as (n & N). apply argument_entropy in A.
  rewrite (create_eq P HP _ _ _ _ _ _ _ _ _ N), A. change base58_alphabet with bitcoin_alphabet. rewrite D. unfold create_result.
  rewrite app_length, L1, L2. change (8 + 41 =? 49)%nat with true. cbv iota. rewrite type_of_name, upto_app by exact L1.
  destruct (magic_of m) as [lot|] eqn:M; [|reflexivity]. apply magic_of_inv in M. destruct lot; contradiction.
Qed.
(** the payload is well formed, but its point is not a curve point in compressed form *)
Theorem C29_bad_point : forall P random self network w a lot c code arg seed e ent pp, prims_ok P -> session self network w a ->
  argument_bytes random arg seed -> base58check_reads P code (code_magic lot ++ ent ++ pp) ->
  List.length ent = 8%nat -> List.length pp = 33%nat -> scalar (sha256d P seed) e ->
  (forall x y, on_curve (Aff x y) -> ~ sec1_compressed x y pp) ->
  create_new_encrypted_wif P random self code (wif_name c) arg network = Raise (Lib CSecp256k1Error "Invalid public key bytes").
Proof.
  intros P random self network w a lot c code arg seed e ent pp HP HS A D Le Lp S H. to_code. destruct (session_net_sel _ _ _ _ HS) as (n & N). apply argument_entropy in A.
  rewrite (create_eq P HP _ _ _ _ _ _ _ _ _ N), A. change base58_alphabet with bitcoin_alphabet. rewrite D. unfold create_result.
  rewrite !app_length, Le, Lp. change (List.length (code_magic lot) + (8 + 33) =? 49)%nat with true. cbv iota.
  rewrite type_of_name. change (code_magic lot) with (magic_bytes lot).
  rewrite (upto_app 8) by reflexivity. rewrite magic_of_bytes.
  rewrite (slice_app 8 16) by (reflexivity || lia). rewrite app_assoc, (from_app 16) by (rewrite app_length, Le; reflexivity).
  unfold create_core. destruct (scalar_be2z _ _ S) as [_ K]. cbv zeta. rewrite K.
  destruct (PublicKey_from_bytes pp) as [k|x] eqn:F; [|apply PublicKey_from_bytes_err in F; subst x; reflexivity].
  destruct (from_bytes_33 _ _ Lp F) as [O E]. destruct (H (pk_x k) (pk_y k) O). rewrite E. apply (ser_serialised true), O.
Qed.
Theorem C29_bad_seed_hash : forall P random self network w a lot c code arg seed ent pp, prims_ok P -> session self network w a ->
  argument_bytes random arg seed -> base58check_reads P code (code_magic lot ++ ent ++ pp) ->
  List.length ent = 8%nat -> List.length pp = 33%nat -> (forall e, ~ scalar (sha256d P seed) e) ->
  create_new_encrypted_wif P random self code (wif_name c) arg network = Raise (Lib CError "Invalid EC encrypted WIF (Wallet Import Format)").
Proof.
  intros P random self network w a lot c code arg seed ent pp HP HS A D Le Lp S. to_code. destruct (session_net_sel _ _ _ _ HS) as (n & N). apply argument_entropy in A.
  rewrite (create_eq P HP _ _ _ _ _ _ _ _ _ N), A. change base58_alphabet with bitcoin_alphabet. rewrite D. unfold create_result.
  rewrite !app_length, Le, Lp. change (List.length (code_magic lot) + (8 + 33) =? 49)%nat with true. cbv iota.
  rewrite type_of_name. change (code_magic lot) with (magic_bytes lot).
  rewrite (upto_app 8) by reflexivity. rewrite magic_of_bytes. unfold create_core. cbv zeta.
  destruct (key_okb (sha256d P seed)) eqn:K; [|reflexivity]. apply key_okb_spec in K. destruct (S _ K).
Qed.
Theorem C29_seed_not_hex : forall P random self network w a code t s, prims_ok P -> session self network w a ->
  s <> [] -> fromhex s = None ->
  create_new_encrypted_wif P random self code t (PStr s) network = Raise (Builtin ValueError).
Proof.
  intros P random self network w a code t s HP HS N F. destruct (session_net_sel _ _ _ _ HS) as (n & NS).
  rewrite (create_eq P HP _ _ _ _ _ _ _ _ _ NS). unfold entropy_arg. destruct s as [|x s]; [congruence|]. cbn [truthy].
  unfold get_bytes. cbn [truthy negb]. rewrite F. reflexivity.
Qed.
(** Conversely, whatever call returns had a valid intermediate code and type: C28_output. *)

(** ** C43: the seed *)
Theorem C43_seed_reported : forall P random self network w a code t arg seed r, prims_ok P -> session self network w a ->
  argument_bytes random arg seed -> create_new_encrypted_wif P random self code t arg network = Ok r -> n_seed r = hex seed.
Proof.
  intros P random self network w a code t arg seed r HP HS A E.
  destruct (C28_output P random self network w a code t arg seed r HP HS A E)
    as (lot & c & ent & pp & px & py & e & x & y & ser & tl & tl' & H). tauto.
Qed.
Theorem C43_create_random : forall P random self network code t arg, random <> [] ->
  arg = PNone \/ arg = PStr [] \/ arg = PBytes [] ->
  create_new_encrypted_wif P random self code t arg network = create_new_encrypted_wif P random self code t (PBytes random) network.
Proof.
  intros P random self network code t arg N H. destruct random as [|x random]; [congruence|]. unfold create_new_encrypted_wif.
  change (get_bytes (PBytes (x :: random)) true) with (Ok (x :: random)).
  destruct H as [->|[->| ->]]; cbn [truthy bind]; reflexivity.
Qed.
Theorem C43_create_explicit : forall P random random' self network code t arg,
  (exists b, arg = PBytes b /\ b <> []) \/ (exists s, arg = PStr s /\ s <> []) ->
  create_new_encrypted_wif P random self code t arg network = create_new_encrypted_wif P random' self code t arg network.
Proof.
  intros P random random' self network code t arg H. unfold create_new_encrypted_wif. replace (truthy arg) with true; [reflexivity|].
  destruct H as [(b & -> & N)|(s & -> & N)]; [destruct b|destruct s]; congruence || reflexivity.
Qed.
