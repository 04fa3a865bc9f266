(** * C75: an EC-multiplied key can be made again from what decrypt reports (bip38.py) *)
From Coq Require Import Lia ZifyBool ZifyNat ZifyN.
From Verif Require Import Py Prims Const Spec PyFacts Utils UtilsFacts Base58 Base58Facts
  Curve SpecCurve CurveFacts CurveFacts2 Secp256k1 SecpFacts Cryptocurrencies Wif Bip38 SpecBip38 SpecRecords SpecSession SpecInterop
  CodecFacts CodecFacts2 Bip38Facts Bip38Facts2 Sessions RecordFacts ECFacts Toy PropEncrypt PropIntermediate PropDecrypt PropCreate PropEC SpecReads ReadFacts
  PropInterop PropUnique PropErrors.

Lemma ec_flag_meaning lot c : flag_meaning (ec_flag lot c) lot c.
Proof. left. destruct lot, c; (split; [vm_compute; reflexivity|split; reflexivity]). Qed.
(** What decrypt reported for a key with a 24-byte seed, in terms of the record. *)
Lemma decrypted_record P self network w a lot c ah ent h e2 ck s pw pwb d seed :
  prims_ok P -> session self network w a ->
  base58_reads s ([x01; x43] ++ [ec_flag lot c] ++ ah ++ ent ++ h ++ e2 ++ ck) ->
  List.length ah = 4%nat -> List.length ent = 8%nat -> List.length h = 8%nat -> List.length e2 = 16%nat -> List.length ck = 4%nat ->
  passphrase_bytes P pw pwb -> decrypt P self s pw network true = Ok (DDetail d) -> d_seed d = Some (hex seed) -> List.length seed = 24%nat ->
  exists k S, seed_mask P lot pwb ent ah S /\ ec_private_key P lot pwb ent seed k /\ describes P w a c k d /\
    address_hash P (d_address d) = ah /\ lot_report lot ent (d_lot d) (d_sequence d) /\
    slice 0 8 (seed_block_1 P S seed) = h /\ seed_block_2 P S seed = e2 /\ List.length S = 64%nat.
Proof.
  intros HP HS D La Le Lh L2 Lc B E Sd Ls.
  destruct (C50_ec_outcome P self network w a (ec_flag lot c) lot c ah ent h e2 ck s pw pwb true HP HS D (ec_flag_meaning lot c) La Le Lh L2 Lc B) as [O1 O2].
  destruct (key_okb (pass_factor P lot pwb ent)) eqn:K.
  2:{ rewrite O1 in E; [discriminate|]. intros e Sc. rewrite owner_factor_eq in Sc. apply scalar_be2z in Sc. destruct Sc. congruence. }
  set (S := kdf2 P (ser true (pubof (be2z (pass_factor P lot pwb ent)))) ah ent).
  assert (SM : seed_mask P lot pwb ent ah S) by (apply seed_mask_iff; auto).
  assert (LS : List.length S = 64%nat) by apply (kdf2_length P HP). clearbody S.
  destruct (O2 S SM) as [O3 O4]. clear O1 O2.
  destruct (le_lt_dec 8 (List.length (shortest (ec_block_2 P S e2)))) as [L|L]; [|rewrite (O3 L) in E; discriminate].
  specialize (O4 L). cbv zeta in O4. destruct O4 as [O4 O5]. set (sd := ec_unmask P S h e2) in *.
  destruct (key_okb (sha256d P sd)) eqn:Kb.
  2:{ rewrite O4 in E; [discriminate|]. intros k PK. apply ec_private_key_iff in PK. destruct PK as (_ & X & _). congruence. }
  set (k := z2be 32 ((be2z (pass_factor P lot pwb ent) * be2z (sha256d P sd)) mod secp_n)).
  assert (PK : ec_private_key P lot pwb ent sd k) by (apply ec_private_key_iff; auto). clearbody k.
  destruct (O5 k PK) as [O6 O7]. clear O3 O4 O5.
  destruct (Byte.byte_eq_dec (first_byte k) x00) as [Z|Z]; [rewrite (O6 Z) in E; discriminate|].
  destruct (O7 Z) as (address & KA & W1 & W2). clear O6 O7.
  destruct (list_eq_dec Byte.byte_eq_dec (address_hash P address) ah) as [EH|EH]; [|rewrite (W1 EH) in E; discriminate].
  destruct (W2 EH) as (d' & Dd & S1 & LR & E'). rewrite E' in E. clear W1 W2. assert (Ed : d' = d) by congruence. subst d'.
  rewrite Sd in S1. assert (Es : sd = seed) by (apply tohex_inj; unfold hex in S1; congruence).
  assert (Kd : List.length (slice 32 64 S) = 32%nat) by (rewrite slice_length; lia).
  assert (LA : List.length (slice 0 16 S) = 16%nat) by (rewrite slice_length; lia).
  assert (LB : List.length (slice 16 32 S) = 16%nat) by (rewrite slice_length; lia).
  assert (LD2 : List.length (h_aes_dec P (slice 32 64 S) e2) = 16%nat) by (apply (aes_dec_len P HP); assumption).
  assert (LT : List.length (ec_block_2 P S e2) = 16%nat) by (unfold ec_block_2; rewrite xor_length; congruence).
  set (t := shortest (ec_block_2 P S e2)) in *.
  assert (L8 : List.length (slice 0 8 t) = 8%nat) by (rewrite slice_length; lia).
  assert (LD1 : List.length (h_aes_dec P (slice 32 64 S) (h ++ slice 0 8 t)) = 16%nat) by (apply (aes_dec_len P HP); [assumption|rewrite app_length; lia]).
  assert (LT1 : List.length (ec_block_1 P S h (slice 0 8 t)) = 16%nat) by (unfold ec_block_1; rewrite xor_length; congruence).
  assert (T16 : List.length (shortest (ec_block_1 P S h (slice 0 8 t))) = 16%nat /\ List.length t = 16%nat).
  { pose proof (shortest_length_le (ec_block_1 P S h (slice 0 8 t)) ltac:(lia)) as X1. pose proof (shortest_length_le (ec_block_2 P S e2) ltac:(lia)) as X2.
    fold t in X2. rewrite <- Es in Ls. unfold sd, ec_unmask in Ls. cbv zeta in Ls. fold t in Ls. rewrite app_length, skipn_length in Ls. lia. }
  destruct T16 as [T1 T2].
  assert (N1 : shortest (ec_block_1 P S h (slice 0 8 t)) = ec_block_1 P S h (slice 0 8 t)).
  { apply shortest_id. apply shortest_length_eq; [lia|congruence]. }
  assert (N2 : t = ec_block_2 P S e2).
  { unfold t. apply shortest_id. apply shortest_length_eq; [lia|fold t; congruence]. }
  assert (V : seed = ec_block_1 P S h (slice 0 8 t) ++ skipn 8 t).
  { rewrite <- Es. unfold sd, ec_unmask. cbv zeta. fold t. rewrite N1. reflexivity. }
  assert (B1 : seed_block_1 P S seed = h ++ slice 0 8 t).
  { unfold seed_block_1. rewrite V. replace (slice 0 16 (ec_block_1 P S h (slice 0 8 t) ++ skipn 8 t)) with (ec_block_1 P S h (slice 0 8 t))
      by (symmetry; apply (upto_app 16), LT1).
    unfold ec_block_1. rewrite xor_cancel by congruence. apply aes_enc_dec; [exact HP|assumption|rewrite app_length; lia]. }
  assert (B2 : seed_block_2 P S seed = e2).
  { unfold seed_block_2. rewrite B1.
    replace (slice 8 16 (h ++ slice 0 8 t)) with (slice 0 8 t).
    2:{ rewrite (slice_to_end 8 16) by (rewrite app_length; lia). symmetry. apply (from_app 8), Lh. }
    replace (slice 16 24 seed) with (skipn 8 t).
    2:{ rewrite V, (slice_to_end 16 24) by (rewrite <- V; exact Ls). symmetry. apply (from_app 16), LT1. }
    replace (slice 0 8 t ++ skipn 8 t) with t by (symmetry; apply (upto_from 8)).
    rewrite N2. unfold ec_block_2. rewrite xor_cancel by congruence. apply aes_enc_dec; assumption. }
  exists k, S. rewrite Es in PK. split; [exact SM|]. split; [exact PK|]. split; [exact Dd|].
  assert (EA : d_address d = address).
  { destruct Dd as (_ & _ & _ & _ & KA' & _). destruct (session_net_sel _ _ _ _ HS) as (n & N). pose proof (ns_a _ _ _ _ _ N) as Ha.
    apply key_address_iff in KA, KA'; trivial. destruct KA as [_ ->], KA' as [_ ->]. reflexivity. }
  split; [rewrite EA; exact EH|]. split; [exact LR|]. split; [|split; [exact B2|exact LS]].
  rewrite B1. apply (upto_app 8), Lh.
Qed.

(** decrypt reported [d] for the 39 bytes 0x0143, flag, address hash, entropy and
    blocks (and any four bytes after them), with a seed of 24 bytes.  Then
    create_new_encrypted_wif, given the passphrase's code for the same entropy and
    that seed, gives exactly those 39 bytes with their checksum, and the same
    address and public key; or it raises ValueError, exactly when one of the four
    masked blocks starts with a zero byte. *)
Theorem C75_made_again : forall P random self network w a lot c ah ent h e2 ck s pw d seed code arg,
  prims_ok P -> session self network w a ->
  base58_reads s ([x01; x43] ++ [ec_flag lot c] ++ ah ++ ent ++ h ++ e2 ++ ck) ->
  List.length ah = 4%nat -> List.length ent = 8%nat -> List.length h = 8%nat -> List.length e2 = 16%nat -> List.length ck = 4%nat ->
  decrypt P self s pw network true = Ok (DDetail d) -> d_seed d = Some (hex seed) -> List.length seed = 24%nat ->
  passphrase_code P lot ent pw code -> argument_bytes random arg seed ->
  (forall r, create_new_encrypted_wif P random self code (wif_name c) arg network = Ok r ->
     base58check_text P bitcoin_alphabet ([x01; x43] ++ [ec_flag lot c] ++ ah ++ ent ++ h ++ e2) (n_encrypted_wif r) /\
     n_address r = d_address d /\ n_public_key r = d_public_key d /\ n_public_key_type r = d_public_key_type d /\ n_seed r = hex seed) /\
  (forall e x y pp eb bx by_ B pwb, passphrase_bytes P pw pwb -> scalar (owner_factor P lot pwb ent) e -> public_point e x y -> sec1_compressed x y pp ->
     scalar (sha256d P seed) eb -> public_point eb bx by_ -> sec1_compressed bx by_ B ->
     (no_zero_block P ah ent pp seed B -> exists r, create_new_encrypted_wif P random self code (wif_name c) arg network = Ok r) /\
     (~ no_zero_block P ah ent pp seed B -> create_new_encrypted_wif P random self code (wif_name c) arg network = Raise (Builtin ValueError))).
Proof.
  intros P random self network w a lot c ah ent h e2 ck s pw d seed code arg HP HS D La Le Lh L2 Lc E Sd Ls T A.
  destruct (passphrase_code_inv _ _ _ _ _ T) as (pwb & B & K & EC).
  destruct (decrypted_record P self network w a lot c ah ent h e2 ck s pw pwb d seed HP HS D La Le Lh L2 Lc B E Sd Ls)
    as (k & S & SM & PK & Dd & EH & LR & B1 & B2 & LS).
  destruct (session_net_sel _ _ _ _ HS) as (n & N). pose proof (ns_a _ _ _ _ _ N) as Ha.
  pose proof PK as PK'. apply ec_private_key_iff in PK'. destruct PK' as (_ & Kb & Vk).
  pose proof SM as SM'. apply seed_mask_iff in SM'. destruct SM' as [_ VS].
  set (pf := pass_factor P lot pwb ent) in *.
  destruct (key_okb_range _ K) as [_ R]. destruct (key_okb_range _ Kb) as [_ Rb]. destruct (pubof_ok _ R) as (_ & _ & O). destruct (pubof_ok _ Rb) as (_ & _ & Ob).
  assert (Kk : key_okb k = true) by (rewrite Vk; apply key_okb_z2be, mul_mod_range; assumption).
  assert (Ek : be2z k = (be2z pf * be2z (sha256d P seed)) mod G_order) by (rewrite Vk; apply range_256, mul_mod_range; assumption).
  pose proof Dd as (_ & _ & _ & DT & KA & (e0 & x0 & y0 & sr & Sk & Qk & SRk & DPK)).
  apply key_address_iff in KA; [|exact Ha]. destruct KA as [_ KA].
  destruct (scalar_be2z _ _ Sk) as [-> _]. destruct (key_okb_range _ Kk) as [_ Rk]. apply public_point_iff in Qk; [|exact Rk].
  destruct (pubof_ok _ Rk) as (_ & _ & Okk). rewrite Qk in Okk. apply (serialised_unique c {| pk_x := x0; pk_y := y0 |} sr Okk) in SRk.
  rewrite <- Qk in SRk. split.
  - intros r C. pose proof A as A'. apply argument_entropy in A'.
    destruct (owner_creation P HP random self network n w a lot c ent pw pwb code arg seed r N A' Le B T C) as (_ & _ & cr & CR & V & EK & _).
    fold pf in EK. rewrite <- Vk in EK.
    assert (EA : n_address r = d_address d) by (rewrite V; unfold new_wif_of; cbv zeta; cbn [n_address]; rewrite EK; congruence).
    destruct (C28_records P random self network w a lot c ent (pk_x (pubof (be2z pf))) (pk_y (pubof (be2z pf))) (ser true (pubof (be2z pf))) code arg seed r
      (be2z (sha256d P seed)) (pk_x (pubof (be2z (sha256d P seed)))) (pk_y (pubof (be2z (sha256d P seed)))) (ser true (pubof (be2z (sha256d P seed))))
      HP HS A Ls Le O (ser_serialised true _ O)) as (C1 & _); trivial.
    { apply (code_text_iff P lot ent _ _ code O). rewrite EC. destruct (pubof (be2z pf)); reflexivity. }
    { apply key_okb_spec, Kb. } { apply pubof_public, Rb. } { apply (ser_serialised true), Ob. }
    split; [|split; [exact EA|split; [|split]]].
    + rewrite EA, EH in C1. unfold ec_record in C1. cbv zeta in C1. change (light_kdf P (ser true (pubof (be2z pf))) ah ent) with (kdf2 P (ser true (pubof (be2z pf))) ah ent) in C1.
      rewrite <- VS, B1, B2 in C1. exact C1.
    + rewrite V; unfold new_wif_of; cbv zeta; cbn [n_public_key]. rewrite EK, DPK, SRk. reflexivity.
    + rewrite V; unfold new_wif_of; cbv zeta; cbn [n_public_key_type]. rewrite DT. reflexivity.
    + rewrite V; reflexivity.
  - intros e x y pp eb bx by_ Bp pwb' B' Sc Q SC Sb Qb SB. assert (pwb' = pwb) by (unfold passphrase_bytes in *; congruence). subst pwb'.
    rewrite owner_factor_eq in Sc. fold pf in Sc. destruct (scalar_be2z _ _ Sc) as [-> _]. destruct (scalar_be2z _ _ Sb) as [-> _].
    apply public_point_iff in Q; [|exact R].
    assert (CT : code_text P lot ent x y code).
    { apply (code_text_iff P lot ent x y code); [rewrite Q in O; exact O|]. rewrite EC, Q. reflexivity. }
    assert (OX : on_curve (Aff x y)) by (rewrite Q in O; exact O).
    assert (QM : ec_multiple (Z.to_N (be2z (sha256d P seed))) (Aff x y) (Aff x0 y0)).
    { apply (mulk_multiple {| pk_x := x; pk_y := y |} _ _ _ OX Rb). rewrite <- Q, <- Qk, Ek. apply mulk_pubof; assumption. }
    assert (AT : address_text P bitcoin_alphabet a c x0 y0 (d_address d)).
    { rewrite KA. rewrite Qk. apply (addr_text P a c {| pk_x := x0; pk_y := y0 |}); assumption. }
    destruct (C28_succeeds_iff P random self network w a lot c ent x y pp code arg seed (be2z (sha256d P seed)) x0 y0 (d_address d) bx by_ Bp
      HP HS A Ls Le OX SC CT Sb QM AT Qb SB) as [C1 C2]. cbv zeta in C1, C2. rewrite EH in C1, C2. split; [apply C1|exact C2].
Qed.

(** The code itself: intermediate_code gives it from the passphrase, the reported lot
    and sequence numbers and the salt, which is in the key in the clear. *)
Theorem C75_code_with_lot : forall P random self network w a c ah ent h e2 ck s pw d seed l q arg salt,
  prims_ok P -> session self network w a ->
  base58_reads s ([x01; x43] ++ [ec_flag true c] ++ ah ++ ent ++ h ++ e2 ++ ck) ->
  List.length ah = 4%nat -> List.length ent = 8%nat -> List.length h = 8%nat -> List.length e2 = 16%nat -> List.length ck = 4%nat ->
  decrypt P self s pw network true = Ok (DDetail d) -> d_seed d = Some (hex seed) -> List.length seed = 24%nat ->
  d_lot d = Some l -> d_sequence d = Some q -> 100000 <= l <= 999999 -> 1 <= q ->
  argument_bytes random arg salt -> List.length salt = 4%nat \/ List.length salt = 8%nat -> slice 0 4 salt = slice 0 4 ent ->
  exists code, intermediate_code P random pw (Some l) (Some q) arg = Ok code /\ passphrase_code P true ent pw code.
Proof.
  intros P random self network w a c ah ent h e2 ck s pw d seed l q arg salt HP HS D La Le Lh L2 Lc E Sd Ls Dl Dq Hl Hq A Lsa Es.
  assert (B : exists pwb, passphrase_bytes P pw pwb).
  { destruct (utf8_encode (h_nfc P pw)) as [pwb|x] eqn:U; [exists pwb; exact U|]. exfalso.
    rewrite (C50_not_encodable P self network w a (ah ++ ent ++ h ++ e2 ++ ck) s pw true HP HS) in E; [discriminate|right; eexists; exact D|rewrite !app_length; lia|].
    intros pwb X. unfold passphrase_bytes in X. congruence. }
  destruct B as [pwb B].
  destruct (decrypted_record P self network w a true c ah ent h e2 ck s pw pwb d seed HP HS D La Le Lh L2 Lc B E Sd Ls)
    as (k & S & SM & PK & Dd & EH & LR & _). destruct LR as (l' & q' & L1 & L3 & V & _ & Hq'). rewrite Dl in L1. rewrite Dq in L3.
  assert (l' = l) by congruence. assert (q' = q) by congruence. subst l' q'.
  assert (LE : lot_entropy (slice 0 4 salt) l q ent).
  { exists (slice 4 8 ent). split; [split; [rewrite slice_length; lia|exact V]|]. rewrite Es, (slice_to_end 4 8 ent Le). symmetry. apply (upto_from 4). }
  assert (OF : exists e, scalar (owner_factor P true pwb ent) e) by (destruct PK as (e1 & _ & Sc & _); exists e1; exact Sc).
  destruct (C21_lot_outcome P random arg salt pw pwb l q ent HP A Lsa Hl ltac:(lia) LE B) as [[_ [code C]]|[NO _]]; [|destruct OF as [e OF]; destruct (NO e OF)].
  exists code. split; [exact C|]. apply (C21_lot_code P random arg salt pw l q code HP A Lsa Hl ltac:(lia)) in C. destruct C as (ent' & LE' & T).
  apply lot_entropy_iff in LE, LE'; try (cbn; lia). congruence.
Qed.
Theorem C75_code_without_lot : forall P random self network w a c ah ent h e2 ck s pw d seed arg,
  prims_ok P -> session self network w a ->
  base58_reads s ([x01; x43] ++ [ec_flag false c] ++ ah ++ ent ++ h ++ e2 ++ ck) ->
  List.length ah = 4%nat -> List.length ent = 8%nat -> List.length h = 8%nat -> List.length e2 = 16%nat -> List.length ck = 4%nat ->
  decrypt P self s pw network true = Ok (DDetail d) -> d_seed d = Some (hex seed) -> List.length seed = 24%nat ->
  argument_bytes random arg ent ->
  exists code, intermediate_code P random pw None None arg = Ok code /\ passphrase_code P false ent pw code.
Proof.
  intros P random self network w a c ah ent h e2 ck s pw d seed arg HP HS D La Le Lh L2 Lc E Sd Ls A.
  assert (B : exists pwb, passphrase_bytes P pw pwb).
  { destruct (utf8_encode (h_nfc P pw)) as [pwb|x] eqn:U; [exists pwb; exact U|]. exfalso.
    rewrite (C50_not_encodable P self network w a (ah ++ ent ++ h ++ e2 ++ ck) s pw true HP HS) in E; [discriminate|right; eexists; exact D|rewrite !app_length; lia|].
    intros pwb X. unfold passphrase_bytes in X. congruence. }
  destruct B as [pwb B].
  destruct (decrypted_record P self network w a false c ah ent h e2 ck s pw pwb d seed HP HS D La Le Lh L2 Lc B E Sd Ls)
    as (k & S & SM & PK & _).
  assert (OF : exists e, scalar (owner_factor P false pwb ent) e) by (destruct PK as (e1 & _ & Sc & _); exists e1; exact Sc).
  destruct (C21_plain_outcome P random arg ent pw pwb HP A Le B) as [[_ [code C]]|[NO _]]; [|destruct OF as [e OF]; destruct (NO e OF)].
  exists code. split; [exact C|]. apply (C21_plain_code P random arg ent pw code HP A Le), C.
Qed.
