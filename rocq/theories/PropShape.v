(** * PropShape: C15, the visible shape of encrypted keys and codes. *)
From Coq Require Import Lia ZifyBool ZifyNat ZifyN.
From Verif Require ReadFacts.
From Verif Require Import Py Prims Const Spec PyFacts Utils UtilsFacts Base58 Base58Facts
  Curve SpecCurve Secp256k1 SecpFacts Cryptocurrencies Wif Bip38 SpecBip38 SpecRecords SpecSession
  CodecFacts CodecFacts2 Bip38Facts Bip38Facts2 Sessions RecordFacts ECFacts Toy PropEncrypt PropIntermediate PropCreate.

(** [s] begins with the given ASCII characters and has [n] characters. *)
Definition shaped (s : pystr) (n : Z) (start : string) : Prop := zlen s = n /\ exists rest, s = str start ++ rest.

(** ** Every call of intermediate_code *)
Lemma intermediate_cases P random arg salt pw lot sequence : entropy_arg random arg = Ok salt ->
  (exists l ent, intermediate_code P random pw lot sequence arg = intermediate_result P l pw ent /\
     (List.length ent = 8%nat \/ List.length ent = 4%nat /\ List.length salt = 4%nat /\ exists x q, lot = Some x /\ sequence = Some q /\ (x = 0 \/ q = 0))) \/
  exists m, intermediate_code P random pw lot sequence arg = Raise (Lib CError m).
Proof.
  intros A. pose proof (proj2 (argument_entropy _ _ _) A) as B.
  destruct (Nat.eq_dec (List.length salt) 4) as [L4|N4]; [|destruct (Nat.eq_dec (List.length salt) 8) as [L8|N8]].
  - destruct lot as [x|]; [destruct sequence as [q|]|].
    + destruct (Z.eq_dec x 0) as [->|X]; [|destruct (Z.eq_dec q 0) as [->|Q]].
      * left. exists false, salt. split; [apply (intermediate_plain_eq P _ _ _ pw _ _ A); right; split; [auto|]; do 2 eexists; split; [reflexivity|]; split; [reflexivity|]; auto|].
        right. split; [exact L4|]. split; [exact L4|]. do 2 eexists. split; [reflexivity|]. split; [reflexivity|]. auto.
      * left. exists false, salt. split; [apply (intermediate_plain_eq P _ _ _ pw _ _ A); right; split; [auto|]; do 2 eexists; split; [reflexivity|]; split; [reflexivity|]; auto|].
        right. split; [exact L4|]. split; [exact L4|]. do 2 eexists. split; [reflexivity|]. split; [reflexivity|]. auto.
      * destruct (Z_le_dec 100000 x); [destruct (Z_le_dec x 999999)|].
        -- destruct (Z_le_dec 1 q); [destruct (Z_le_dec q 4095)|].
           ++ left. exists true. eexists. split; [apply (intermediate_lot_eq P _ _ _ pw x q A); auto|].
              left. rewrite app_length, z2be_length, upto_length; lia.
           ++ right. eexists. apply (C22_sequence_range P _ _ _ pw x q B); auto; lia.
           ++ right. eexists. apply (C22_sequence_range P _ _ _ pw x q B); auto; lia.
        -- right. eexists. apply (C22_lot_range P _ _ _ pw x q B); auto; lia.
        -- right. eexists. apply (C22_lot_range P _ _ _ pw x q B); auto; lia.
    + right. eexists. apply (C22_short_salt_needs_both P _ _ _ pw _ _ B L4). auto.
    + right. eexists. apply (C22_short_salt_needs_both P _ _ _ pw _ _ B L4). auto.
  - destruct lot as [x|]; destruct sequence as [q|].
    + destruct (Z.eq_dec x 0) as [->|X]; [|destruct (Z.eq_dec q 0) as [->|Q]].
      * left. exists false, salt. split; [apply (intermediate_plain_eq P _ _ _ pw _ _ A); right; split; [auto|]; do 2 eexists; split; [reflexivity|]; split; [reflexivity|]; auto|]. left. exact L8.
      * left. exists false, salt. split; [apply (intermediate_plain_eq P _ _ _ pw _ _ A); right; split; [auto|]; do 2 eexists; split; [reflexivity|]; split; [reflexivity|]; auto|]. left. exact L8.
      * destruct (Z_le_dec 100000 x); [destruct (Z_le_dec x 999999)|].
        -- destruct (Z_le_dec 1 q); [destruct (Z_le_dec q 4095)|].
           ++ left. exists true. eexists. split; [apply (intermediate_lot_eq P _ _ _ pw x q A); auto|].
              left. rewrite app_length, z2be_length, upto_length; lia.
           ++ right. eexists. apply (C22_sequence_range P _ _ _ pw x q B); auto; lia.
           ++ right. eexists. apply (C22_sequence_range P _ _ _ pw x q B); auto; lia.
        -- right. eexists. apply (C22_lot_range P _ _ _ pw x q B); auto; lia.
        -- right. eexists. apply (C22_lot_range P _ _ _ pw x q B); auto; lia.
    + destruct (Z.eq_dec x 0) as [->|X].
      * left. exists false, salt. split; [apply (intermediate_plain_eq P _ _ _ pw _ _ A); left; auto|left; exact L8].
      * right. eexists. apply (C22_one_missing P _ _ _ pw _ _ x B L8 X). auto.
    + destruct (Z.eq_dec q 0) as [->|Q].
      * left. exists false, salt. split; [apply (intermediate_plain_eq P _ _ _ pw _ _ A); left; auto|left; exact L8].
      * right. eexists. apply (C22_one_missing P _ _ _ pw _ _ q B L8 Q). auto.
    + left. exists false, salt. split; [apply (intermediate_plain_eq P _ _ _ pw _ _ A); left; auto|left; exact L8].
  - right. eexists. apply (C22_salt_length P _ _ _ pw _ _ B N4 N8).
Qed.

(** ** C15 *)
(** encrypt: 58 characters, 6PR for an uncompressed and 6PY for a compressed key *)
Theorem C15_encrypt : forall P self network w a s pw e, prims_ok P -> session self network w a ->
  encrypt P self s pw network = Ok e ->
  exists c, get_wif_type s (s_cryptocurrency self) (chosen network (s_network self)) = Ok (wif_name c) /\
    shaped e 58 (if c then "6PY" else "6PR").
Proof.
  intros P self network w a s pw e HP HS E.
  destruct (C14_encrypt_is_record P self network w a s pw e HP HS E) as (k & c & ck & D & address & pwb & KA & _ & T).
  exists c. split.
  - destruct HS as (co & n0 & _ & I & G). destruct (init_inv _ _ _ I) as (Ec & _ & E0 & _). rewrite E0, Ec.
    rewrite (get_wif_type_eq _ _ _ _ _ G), D. reflexivity.
  - destruct KA as (ex & x & y & SC & _). destruct SC as [[Lk _] _].
    assert (La : List.length (address_hash P address) = 4%nat) by apply checksum4_length, HP.
    unfold base58check_text in T.
    destruct (body_no_ec_split P HP c _ k pwb La Lk) as (e1 & e2 & EB & L1 & L2 & _).
    change (plain_record P c (address_hash P address) k pwb) with (body_no_ec P c (address_hash P address) k pwb) in T.
    set (ck' := checksum4 P _) in T. assert (Lc : List.length ck' = 4%nat) by apply checksum4_length, HP. clearbody ck'.
    rewrite EB in T.
    apply (shape_6P [x01; x42; flag_no_ec c] (if c then "6PY" else "6PR") (address_hash P address ++ e1 ++ e2 ++ ck') e).
    + destruct c; cbn; auto.
    + unfold zlen. rewrite !app_length, La, L1, L2, Lc. reflexivity.
    + unfold base58_text. rewrite <- !app_assoc in T. exact T.
Qed.
(** create_new_encrypted_wif: 58 characters, 6Pf, 6Pg, 6Pn or 6Po for the key and
    75 characters starting with cfrm38 for the confirmation code *)
Theorem C15_create : forall P random self network w a lot c ent px py code arg seed r, prims_ok P -> session self network w a ->
  argument_bytes random arg seed -> List.length ent = 8%nat -> on_curve (Aff px py) -> code_text P lot ent px py code ->
  create_new_encrypted_wif P random self code (wif_name c) arg network = Ok r ->
  shaped (n_encrypted_wif r) 58 (match lot, c with false, false => "6Pf" | true, false => "6Pg" | false, true => "6Pn" | true, true => "6Po" end) /\
  shaped (n_confirmation_code r) 75 "cfrm38".
Proof.
  intros P random self network w a lot c ent px py code arg seed r HP HS A Le OC CT E.
  destruct (C28_output P random self network w a code (wif_name c) arg seed r HP HS A E)
    as (lot' & c' & ent' & pp & px' & py' & e & x & y & ser & tail & tail' & D & Le' & _ & SC & _ & _ & _ & _ & _ & TN & _ & _ & T1 & L1 & T2 & L2).
  assert (lot' = lot /\ c' = c) as [-> ->].
  { split.
    - destruct CT as (pp2 & SC2 & T). apply b58c_unique in T. rewrite T in D. apply (ReadFacts.reads58check P HP) in D. rewrite <- base58_alphabet_is, (check_decode_b58c P _ HP) in D.
      apply Ok_inj in D. apply (f_equal (fun l => nth 7 l x00)) in D. destruct lot, lot'; cbn in D; congruence || discriminate.
    - destruct c, c'; trivial; discriminate TN. }
  assert (La : List.length (address_hash P (n_address r)) = 4%nat) by apply checksum4_length, HP.
  unfold base58check_text in T1, T2. split.
  - set (ck' := checksum4 P _) in T1. assert (Lc : List.length ck' = 4%nat) by apply checksum4_length, HP. clearbody ck'.
    apply (shape_6P [x01; x43; ec_flag lot c] _ (address_hash P (n_address r) ++ ent' ++ tail ++ ck')).
    + destruct lot, c; cbn; auto 10.
    + unfold zlen. rewrite !app_length, La, Le', L1, Lc. reflexivity.
    + unfold base58_text. rewrite <- !app_assoc in T1. exact T1.
  - set (ck' := checksum4 P _) in T2. assert (Lc : List.length ck' = 4%nat) by apply checksum4_length, HP. clearbody ck'.
    apply (shape_cfrm38 ([ec_flag lot c] ++ address_hash P (n_address r) ++ ent' ++ tail' ++ ck')).
    + unfold zlen. rewrite !app_length, La, Le', L2, Lc. reflexivity.
    + unfold base58_text. rewrite <- !app_assoc in T2. exact T2.
Qed.
(** The same for whatever code and WIF type: a result always has these shapes. *)
Theorem C15_create_any : forall P random self network w a code t arg r, prims_ok P -> session self network w a ->
  create_new_encrypted_wif P random self code t arg network = Ok r ->
  shaped (n_encrypted_wif r) 58 "6P" /\ shaped (n_confirmation_code r) 75 "cfrm38".
Proof.
  intros P random self network w a code t arg r HP HS E.
  assert (A : exists seed, argument_bytes random arg seed).
  { destruct (entropy_arg random arg) as [seed|ex] eqn:F; [exists seed; apply argument_entropy, F|].
    destruct (session_net_sel _ _ _ _ HS) as (n & N). rewrite (create_eq P HP _ _ _ _ _ _ _ _ _ N), F in E. discriminate. }
  destruct A as (seed & A).
  destruct (C28_output P random self network w a code t arg seed r HP HS A E)
    as (lot' & c' & ent' & pp & px' & py' & e & x & y & ser & tail & tail' & D & Le' & OC & SC & _ & _ & _ & _ & _ & TN & _ & _ & T1 & L1 & T2 & L2).
  assert (La : List.length (address_hash P (n_address r)) = 4%nat) by apply checksum4_length, HP.
  unfold base58check_text in T1, T2. split.
  - set (ck' := checksum4 P _) in T1. assert (Lc : List.length ck' = 4%nat) by apply checksum4_length, HP. clearbody ck'.
    destruct (shape_6P [x01; x43; ec_flag lot' c'] (match lot', c' with false, false => "6Pf" | true, false => "6Pg" | false, true => "6Pn" | true, true => "6Po" end)
      (address_hash P (n_address r) ++ ent' ++ tail ++ ck') (n_encrypted_wif r)) as [H [u EU]].
    + destruct lot', c'; cbn; auto 10.
    + unfold zlen. rewrite !app_length, La, Le', L1, Lc. reflexivity.
    + unfold base58_text. rewrite <- !app_assoc in T1. exact T1.
    + split; [exact H|]. rewrite EU. destruct lot', c'; [exists (str "o" ++ u)|exists (str "g" ++ u)|exists (str "n" ++ u)|exists (str "f" ++ u)]; reflexivity.
  - set (ck' := checksum4 P _) in T2. assert (Lc : List.length ck' = 4%nat) by apply checksum4_length, HP. clearbody ck'.
    apply (shape_cfrm38 ([ec_flag lot' c'] ++ address_hash P (n_address r) ++ ent' ++ tail' ++ ck')).
    + unfold zlen. rewrite !app_length, La, Le', L2, Lc. reflexivity.
    + unfold base58_text. rewrite <- !app_assoc in T2. exact T2.
Qed.
(** intermediate_code: 72 characters starting with "passphrase", except for the
    useless codes of C23 (4-byte salt with lot or sequence number 0) *)
Theorem C15_intermediate : forall P random arg salt pw lot sequence s, prims_ok P -> argument_bytes random arg salt ->
  intermediate_code P random pw lot sequence arg = Ok s ->
  List.length salt = 8%nat \/ lot <> Some 0 /\ sequence <> Some 0 ->
  shaped s 72 "passphrase".
Proof.
  intros P random arg salt pw lot sequence s HP A E X. apply argument_entropy in A.
  destruct (intermediate_cases P random arg salt pw lot sequence A) as [(l & ent & EQ & L)|(m & EQ)]; rewrite EQ in E; [|discriminate].
  assert (Le : List.length ent = 8%nat).
  { destruct L as [L|(_ & L4 & x & q & -> & -> & Z)]; [exact L|]. destruct X as [X|[X Y]]; [lia|]. destruct Z; congruence. }
  apply (passphrase_code_iff P l) in E; [|exact HP]. destruct E as (pwb & e & x & y & _ & _ & _ & pp & SC & T).
  assert (Lp : List.length pp = 33%nat) by (destruct SC as (xs & [Lx _] & ->); cbn [List.length]; rewrite Lx; reflexivity).
  unfold base58check_text in T. set (ck' := checksum4 P _) in T. assert (Lc : List.length ck' = 4%nat) by apply checksum4_length, HP. clearbody ck'.
  apply (shape_passphrase (if l then x51 else x53) (ent ++ pp ++ ck')).
  - destruct l; auto.
  - unfold zlen. rewrite !app_length, Le, Lp, Lc. reflexivity.
  - unfold base58_text. unfold code_magic in T. rewrite <- !app_assoc in T. exact T.
Qed.

(** ** Concrete cases *)
Example C15_encrypt_example : exists s e, encrypt toy btc s (str "TestingOneTwoThree") None = Ok e /\ shaped e 58 "6PY".
Proof.
  destruct C12_example as (s & e & T & E). exists s, e. split; [exact E|].
  pose proof (C14_encrypt_is_record _ _ _ _ _ _ _ _ toy_ok btc_session E) as (k & c & ck & D & _).
  destruct (C15_encrypt _ _ _ _ _ _ _ _ toy_ok btc_session E) as (c' & G & SH).
  rewrite (wif_text_unique _ _ _ _ _ T) in G.
  change (s_cryptocurrency btc) with coin_Bitcoin in G. change (chosen None (s_network btc)) with (str "mainnet") in G.
  rewrite (get_wif_type_eq _ coin_Bitcoin (str "mainnet") 0x80 0 eq_refl) in G. rewrite (decode_wif_of toy _ _ _ toy_ok) in G by (lia || reflexivity).
  cbn [bind] in G. destruct c'; [exact SH|discriminate G].
Qed.
Example C15_intermediate_example : exists s, intermediate_code toy (repeat x01 8) (str "Satoshi") None None PNone = Ok s /\ shaped s 72 "passphrase".
Proof.
  destruct C21_plain_example as (s & E & _). exists s. split; [exact E|].
  apply (C15_intermediate toy (repeat x01 8) PNone (repeat x01 8) (str "Satoshi") None None s toy_ok); [left; auto|exact E|left; reflexivity].
Qed.
