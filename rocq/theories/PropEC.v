(** * C24-C27, C30, C42: EC-multiplied keys and confirmation codes (bip38.py) *)
From Coq Require Import Lia ZifyBool ZifyNat ZifyN.
From Verif Require Import Py Prims Const Spec PyFacts Utils UtilsFacts Base58 Base58Facts
  Curve SpecCurve CurveFacts CurveFacts2 Secp256k1 SecpFacts Cryptocurrencies Wif Bip38 SpecBip38 SpecRecords SpecSession
  CodecFacts CodecFacts2 Bip38Facts Bip38Facts2 Sessions RecordFacts ECFacts Toy PropEncrypt PropIntermediate PropDecrypt PropCreate SpecReads ReadFacts.

(** ** Relations and functional forms *)
Lemma passphrase_code_inv P lot ent pw s : passphrase_code P lot ent pw s ->
  exists pwb, passphrase_bytes P pw pwb /\ key_okb (pass_factor P lot pwb ent) = true /\
    s = b58c P (magic_bytes lot ++ ent ++ ser true (pubof (be2z (pass_factor P lot pwb ent)))).
Proof.
  intros (pwb & e & x & y & B & S & Q & T). exists pwb. split; [exact B|]. rewrite owner_factor_eq in S.
  destruct (scalar_be2z _ _ S) as [-> K]. split; [exact K|]. destruct (key_okb_range _ K) as [_ R].
  apply public_point_iff in Q; [|exact R]. destruct (pubof_ok _ R) as (_ & _ & O). rewrite Q in *.
  apply (code_text_iff P lot ent x y s O), T.
Qed.
Lemma ec_private_key_iff P lot pwb ent seed k : ec_private_key P lot pwb ent seed k <->
  key_okb (pass_factor P lot pwb ent) = true /\ key_okb (sha256d P seed) = true /\
  k = z2be 32 ((be2z (pass_factor P lot pwb ent) * be2z (sha256d P seed)) mod secp_n).
Proof.
  unfold ec_private_key. rewrite owner_factor_eq. split.
  - intros (e1 & e2 & S1 & S2 & F). destruct (scalar_be2z _ _ S1) as [-> K1]. destruct (scalar_be2z _ _ S2) as [-> K2].
    split; [exact K1|]. split; [exact K2|]. apply fixed_unique, F.
  - intros (K1 & K2 & ->). exists (be2z (pass_factor P lot pwb ent)), (be2z (sha256d P seed)).
    split; [apply key_okb_spec, K1|]. split; [apply key_okb_spec, K2|]. destruct (key_okb_range _ K1) as [_ R1]. destruct (key_okb_range _ K2) as [_ R2].
    pose proof (mul_mod_range _ _ R1 R2) as R. apply fixed_z2be. change secp_n with G_order.
    assert (G_order < 256 ^ Z.of_nat 32) by (vm_compute; reflexivity). lia.
Qed.
Lemma seed_mask_iff P lot pwb ent ah S : seed_mask P lot pwb ent ah S <->
  key_okb (pass_factor P lot pwb ent) = true /\ S = kdf2 P (ser true (pubof (be2z (pass_factor P lot pwb ent)))) ah ent.
Proof.
  unfold seed_mask. rewrite owner_factor_eq. split.
  - intros (e & x & y & pp & Sc & Q & SC & ->). destruct (scalar_be2z _ _ Sc) as [-> K]. split; [exact K|]. destruct (key_okb_range _ K) as [_ R].
    apply public_point_iff in Q; [|exact R]. destruct (pubof_ok _ R) as (_ & _ & O). rewrite Q in *.
    rewrite (serialised_unique true {| pk_x := x; pk_y := y |} pp O SC). reflexivity.
  - intros [K ->]. destruct (key_okb_range _ K) as [_ R]. destruct (pubof_ok _ R) as (_ & _ & O).
    exists (be2z (pass_factor P lot pwb ent)), (pk_x (pubof (be2z (pass_factor P lot pwb ent)))), (pk_y (pubof (be2z (pass_factor P lot pwb ent)))), (ser true (pubof (be2z (pass_factor P lot pwb ent)))).
    split; [apply key_okb_spec, K|]. split; [apply pubof_public, R|]. split; [apply (ser_serialised true), O|reflexivity].
Qed.
Lemma lot_report_of lot ent : List.length ent = 8%nat -> lot_report lot ent (lot_of lot ent) (seq_of lot ent).
Proof.
  intros L. unfold lot_report, lot_of, seq_of. destruct lot; [|auto]. exists (be2z (from 4 ent) / 4096), (be2z (from 4 ent) mod 4096).
  split; [reflexivity|]. split; [reflexivity|]. replace (slice 4 8 ent) with (from 4 ent) by (symmetry; unfold slice, from; apply firstn_all2; rewrite skipn_length; lia).
  rewrite be_value_be2z. pose proof (be2z_bound (from 4 ent)). pose proof (Z.mod_pos_bound (be2z (from 4 ent)) 4096 ltac:(lia)).
  pose proof (Z.div_mod (be2z (from 4 ent)) 4096 ltac:(lia)). pose proof (Z.div_pos (be2z (from 4 ent)) 4096 ltac:(lia) ltac:(lia)). lia.
Qed.

(** ** Round trips *)
(** What the owner's decrypt sees, for a key created from the owner's code. *)
Section Owner.
Variable P : prims.
Hypothesis HP : prims_ok P.
Variables (random : bytes) (self : bip38) (network : option pystr) (n : pystr) (w a : Z) (lot c : bool) (ent : bytes)
  (pw : pystr) (pwb : bytes) (code : pystr) (arg : pyarg) (seed : bytes) (r : new_wif).
Hypothesis N : net_sel self network n w a.
Hypothesis A : entropy_arg random arg = Ok seed.
Hypothesis Le : List.length ent = 8%nat.
Hypothesis B : passphrase_bytes P pw pwb.
Hypothesis T : passphrase_code P lot ent pw code.
Hypothesis E : create_new_encrypted_wif P random self code (wif_name c) arg network = Ok r.
Let pf := pass_factor P lot pwb ent.
Let fb := sha256d P seed.
Let k := z2be 32 ((be2z pf * be2z fb) mod secp_n).

Lemma owner_creation : key_okb pf = true /\ key_okb fb = true /\
  exists cr, creation P a lot c ent (ser true (pubof (be2z pf))) seed (pubof (be2z pf)) cr /\ r = new_wif_of P a lot c ent seed cr /\
    cr_key cr = pubof (be2z k) /\ be2z k = (be2z pf * be2z fb) mod G_order /\ key_okb k = true.
Proof.
  destruct (passphrase_code_inv _ _ _ _ _ T) as (pwb' & B' & K & EC). unfold passphrase_bytes in B, B'. rewrite B in B'. apply Ok_inj in B'. subst pwb'.
  fold pf in K, EC. destruct (key_okb_range _ K) as [_ R]. destruct (pubof_ok _ R) as (_ & _ & O). split; [exact K|].
  assert (D : check_decode P code base58_alphabet = Ok (magic_bytes lot ++ ent ++ ser true (pubof (be2z pf)))) by (rewrite EC; apply check_decode_b58c, HP).
  rewrite (create_valid P random self network n w a lot c ent _ code arg seed HP N A D Le) in E.
  destruct (create_core_inv P _ _ _ _ _ _ _ (ser_true_length _) E) as (ppk & cr & CR & V).
  assert (Ep : ppk = pubof (be2z pf)).
  { pose proof (from_bytes_ser ppk (cn_ppk _ _ _ _ _ _ _ _ _ CR)) as F1. rewrite <- (cn_pp _ _ _ _ _ _ _ _ _ CR), (from_bytes_ser _ O) in F1. congruence. }
  subst ppk. pose proof (cn_fb _ _ _ _ _ _ _ _ _ CR) as Kb. fold fb in Kb. split; [exact Kb|]. exists cr. split; [exact CR|]. split; [exact V|].
  destruct (key_okb_range _ Kb) as [_ Rb]. pose proof (mul_mod_range _ _ R Rb) as Rk.
  assert (Ek : be2z k = (be2z pf * be2z fb) mod G_order) by (unfold k; apply range_256, Rk). rewrite Ek.
  split; [|split; [reflexivity|]].
  - rewrite (cn_key _ _ _ _ _ _ _ _ _ CR). apply mulk_pubof; assumption.
  - apply key_okb_z2be. exact Rk.
Qed.
Lemma owner_decrypt : exists cr, creation P a lot c ent (ser true (pubof (be2z pf))) seed (pubof (be2z pf)) cr /\ r = new_wif_of P a lot c ent seed cr /\
  cr_S cr = kdf2 P (ser true (pubof (be2z pf))) (cr_ah cr) ent /\ cr_ah cr = ahash P a c (pubof (be2z k)) /\
  forall detail, decrypt P self (n_encrypted_wif r) pw network detail =
    if (8 <=? List.length (ec_tail P (cr_S cr) (cr_E2 cr)))%nat then
      let seed' := ec_seed P (cr_S cr) (upto 8 (cr_E1 cr)) (cr_E2 cr) in
      if key_okb (sha256d P seed') then
        let k' := z2be 32 ((be2z pf * be2z (sha256d P seed')) mod G_order) in
        if zero_first k' then Raise (Lib CSecp256k1Error "Invalid private key bytes")
        else if bytes_eqb (ahash P a c (pubof (be2z k'))) (cr_ah cr)
        then Ok (decrypt_value P w a c k' (Some seed') (lot_of lot ent) (seq_of lot ent) detail)
        else Raise (Lib CPassphraseError "Incorrect passphrase")
      else Raise (Lib CError "Invalid EC encrypted WIF (Wallet Import Format)")
    else Raise (Builtin ValueError).
Proof.
  destruct owner_creation as (K & Kb & cr & CR & V & EK & Ek & Kk). exists cr. split; [exact CR|]. split; [exact V|].
  split; [apply (cn_S _ _ _ _ _ _ _ _ _ CR)|]. split; [rewrite (cn_ah _ _ _ _ _ _ _ _ _ CR), EK; reflexivity|].
  intros detail. rewrite V. rewrite (decrypt_created_eq P HP _ _ _ _ _ _ _ _ _ _ _ _ pw detail N CR Le).
  unfold decrypt_ec_result. unfold passphrase_bytes in B. rewrite B. cbv zeta. rewrite flag_ec_lot, flag_ec_comp. fold pf. rewrite K.
  rewrite <- (cn_S _ _ _ _ _ _ _ _ _ CR). reflexivity.
Qed.
End Owner.

(** Block 1 of a created key, for seeds of at most 24 bytes. *)
Lemma created_E1 P a lot c ent pp seed ppk cr : prims_ok P -> creation P a lot c ent pp seed ppk cr -> (List.length seed <= 24)%nat ->
  seed_block_1 P (cr_S cr) (pad_left 16 (slice 0 16 seed)) = cr_E1 cr.
Proof.
  intros HP CR L. destruct (creation_len P HP _ _ _ _ _ _ _ _ CR) as (La & LS & L1 & L2 & _ & _ & LK & LA & LB).
  pose proof (cn_E1 _ _ _ _ _ _ _ _ _ CR) as H.
  assert (X : (List.length (upto 16 seed) <= List.length (upto 16 (cr_S cr)))%nat) by (rewrite LA; unfold upto; rewrite firstn_length; lia).
  apply enc_block_inv16 in H; [|rewrite xor_right_length; assumption]. destruct H as [H _].
  rewrite xor_right_pad, LA in H by exact X. unfold seed_block_1. change (slice 0 16 seed) with (upto 16 seed).
  assert (Lp : List.length (pad_left 16 (upto 16 seed)) = 16%nat) by (apply pad_left_length; unfold upto; rewrite firstn_length; lia).
  replace (slice 0 16 (pad_left 16 (upto 16 seed))) with (pad_left 16 (upto 16 seed)) by (symmetry; unfold slice; apply firstn_all2; cbn [skipn]; lia).
  replace (slice 32 64 (cr_S cr)) with (from 32 (cr_S cr)) by (symmetry; unfold slice, from; apply firstn_all2; rewrite skipn_length; lia).
  symmetry. exact H.
Qed.
Lemma pad_24 (seed : bytes) : List.length seed = 24%nat -> forall P S, seed_block_1 P S (pad_left 16 (slice 0 16 seed)) = seed_block_1 P S seed.
Proof.
  intros L P S. unfold seed_block_1. do 2 f_equal. unfold pad_left. assert (L1 : List.length (slice 0 16 seed) = 16%nat) by (rewrite slice_length; lia).
  rewrite L1, Nat.sub_diag. cbn [repeat app]. unfold slice. cbn [skipn]. rewrite firstn_firstn. reflexivity.
Qed.
(** Seeds of 1 to 24 bytes come back, when no leading zero byte is involved. *)
Theorem C30_short_seed_roundtrip : forall P random self network w a lot c ent pw pwb code arg seed r k S,
  prims_ok P -> session self network w a ->
  argument_bytes random arg seed -> (List.length seed <= 24)%nat -> List.length ent = 8%nat ->
  passphrase_bytes P pw pwb -> passphrase_code P lot ent pw code ->
  create_new_encrypted_wif P random self code (wif_name c) arg network = Ok r ->
  ec_private_key P lot pwb ent seed k -> seed_mask P lot pwb ent (address_hash P (n_address r)) S ->
  first_byte seed <> x00 -> nth 8 (seed_block_1 P S (pad_left 16 (slice 0 16 seed))) x00 <> x00 ->
  (first_byte k <> x00 ->
   exists d, decrypt P self (n_encrypted_wif r) pw network true = Ok (DDetail d) /\
     decrypt P self (n_encrypted_wif r) pw network false = Ok (DWif (d_wif d)) /\
     describes P w a c k d /\ d_seed d = Some (hex seed) /\ d_seed d = Some (n_seed r) /\
     d_address d = n_address r /\ d_public_key d = n_public_key r /\ d_public_key_type d = n_public_key_type r /\
     lot_report lot ent (d_lot d) (d_sequence d)) /\
  (first_byte k = x00 -> forall detail,
   decrypt P self (n_encrypted_wif r) pw network detail = Raise (Lib CSecp256k1Error "Invalid private key bytes")).
Proof.
  intros P random self network w a lot c ent pw pwb code arg seed r k S HP HS A Ls Le B T E PK SM Z1 Z2.
  destruct (session_net_sel _ _ _ _ HS) as (n & N). apply argument_entropy in A.
  destruct (owner_creation P HP random self network n w a lot c ent pw pwb code arg seed r N A Le B T E) as (K & Kb & cr0 & _ & _ & _ & Ek & Kk).
  destruct (owner_decrypt P HP random self network n w a lot c ent pw pwb code arg seed r N A Le B T E) as (cr & CR & V & ES & EA & D).
  apply ec_private_key_iff in PK. destruct PK as (_ & _ & Vk). apply seed_mask_iff in SM. destruct SM as [_ VS].
  assert (EAH : address_hash P (n_address r) = cr_ah cr) by (rewrite V, (cn_ah _ _ _ _ _ _ _ _ _ CR); reflexivity).
  rewrite EAH, <- ES in VS. subst S. rewrite (created_E1 P _ _ _ _ _ _ _ _ HP CR Ls) in Z2.
  destruct (created_seed P HP _ _ _ _ _ _ _ _ CR Ls Z1 Z2) as [Lt Es].
  assert (D' : forall detail, decrypt P self (n_encrypted_wif r) pw network detail =
    if zero_first k then Raise (Lib CSecp256k1Error "Invalid private key bytes")
    else Ok (decrypt_value P w a c k (Some seed) (lot_of lot ent) (seq_of lot ent) detail)).
  { intros detail. rewrite D. destruct (Nat.leb_spec 8 (List.length (ec_tail P (cr_S cr) (cr_E2 cr)))) as [_|]; [|lia]. cbv zeta.
    rewrite Es, Kb. change G_order with secp_n. rewrite <- Vk. destruct (zero_first k); [reflexivity|].
    rewrite EA, <- Vk. replace (bytes_eqb _ _) with true; [reflexivity|]. symmetry. apply bytes_eqb_spec. reflexivity. }
  rewrite <- Vk in Kk.
  split.
  - intros Zk. apply zero_first_false in Zk. rewrite !D', Zk.
    destruct (decrypt_value_describes P w a c k (Some seed) (lot_of lot ent) (seq_of lot ent) (ns_w _ _ _ _ _ N) (ns_a _ _ _ _ _ N) Kk) as (d & E1 & Dd & S1 & S2 & S3 & E2).
    rewrite E1, E2. exists d. split; [reflexivity|]. split; [reflexivity|]. split; [exact Dd|]. cbn [option_map] in S1. split; [exact S1|].
    rewrite S2, S3. unfold decrypt_value in E1. injection E1 as <-. cbn [d_seed d_address d_public_key d_public_key_type].
    destruct (owner_creation P HP random self network n w a lot c ent pw pwb code arg seed r N A Le B T E) as (_ & _ & cr1 & CR1 & V1 & EK1 & _).
    rewrite <- Vk in EK1. rewrite V1. unfold new_wif_of. cbv zeta. cbn [n_seed n_address n_public_key n_public_key_type].
    rewrite EK1. split; [reflexivity|]. split; [reflexivity|]. split; [reflexivity|]. split; [reflexivity|]. apply lot_report_of, Le.
  - intros Zk detail. apply zero_first_spec in Zk. rewrite D', Zk. reflexivity.
Qed.

(** ** C24: round trip through the three calls *)
(** With lot and sequence numbers *)
Theorem C24_roundtrip_lot : forall P random random' self network w a c pw pwb l q salt_arg salt ent code arg seed r k S,
  prims_ok P -> session self network w a ->
  argument_bytes random salt_arg salt -> List.length salt = 4%nat \/ List.length salt = 8%nat ->
  100000 <= l <= 999999 -> 1 <= q <= 4095 -> lot_entropy (slice 0 4 salt) l q ent ->
  intermediate_code P random pw (Some l) (Some q) salt_arg = Ok code ->
  argument_bytes random' arg seed -> List.length seed = 24%nat ->
  create_new_encrypted_wif P random' self code (wif_name c) arg network = Ok r ->
  passphrase_bytes P pw pwb -> ec_private_key P true pwb ent seed k ->
  seed_mask P true pwb ent (address_hash P (n_address r)) S ->
  first_byte seed <> x00 -> nth 8 (seed_block_1 P S seed) x00 <> x00 -> first_byte k <> x00 ->
  exists d, decrypt P self (n_encrypted_wif r) pw network true = Ok (DDetail d) /\
    decrypt P self (n_encrypted_wif r) pw network false = Ok (DWif (d_wif d)) /\
    describes P w a c k d /\ d_seed d = Some (n_seed r) /\ n_seed r = hex seed /\
    d_address d = n_address r /\ d_public_key d = n_public_key r /\ d_public_key_type d = n_public_key_type r /\
    d_lot d = Some l /\ d_sequence d = Some q.
Proof.
  intros P random random' self network w a c pw pwb l q salt_arg salt ent code arg seed r k S HP HS A1 Lsa Hl Hq LE I A Ls E B PK SM Z1 Z2 Z3.
  apply (C21_lot_code P random salt_arg salt pw l q code HP A1 Lsa Hl Hq) in I. destruct I as (ent' & LE' & T).
  apply lot_entropy_iff in LE, LE'; try (cbn; lia). subst ent'.
  assert (L4 : List.length (slice 0 4 salt) = 4%nat) by (rewrite slice_length; lia).
  assert (Le : List.length ent = 8%nat) by (rewrite LE, app_length, L4, z2be_length; reflexivity). rewrite <- LE in T.
  rewrite <- (pad_24 seed Ls) in Z2.
  destruct (C30_short_seed_roundtrip P random' self network w a true c ent pw pwb code arg seed r k S HP HS A ltac:(lia) Le B T E PK SM Z1 Z2) as [H _].
  destruct (H Z3) as (d & D1 & D2 & Dd & S1 & S2 & S3 & S4 & S5 & LR). exists d.
  assert (SR : n_seed r = hex seed) by congruence.
  do 8 (split; [assumption|]). destruct LR as (l' & q' & -> & -> & V & Hl' & Hq'). rewrite LE in V.
  rewrite (slice_app_r 4 8) in V || idtac.
  replace (slice 4 8 (slice 0 4 salt ++ z2be 4 (l * 4096 + q))) with (z2be 4 (l * 4096 + q)) in V.
  2:{ unfold slice at 1. rewrite skipn_app, L4, Nat.sub_diag, skipn_all2 by lia. cbn [skipn app]. symmetry. apply firstn_all2. rewrite z2be_length. lia. }
  rewrite be_value_be2z, z2be_small_be2z in V by (cbn; lia). split; f_equal; lia.
Qed.
(** Without them *)
Theorem C24_roundtrip_plain : forall P random random' self network w a c pw pwb salt_arg salt code arg seed r k S,
  prims_ok P -> session self network w a ->
  argument_bytes random salt_arg salt -> List.length salt = 8%nat ->
  intermediate_code P random pw None None salt_arg = Ok code ->
  argument_bytes random' arg seed -> List.length seed = 24%nat ->
  create_new_encrypted_wif P random' self code (wif_name c) arg network = Ok r ->
  passphrase_bytes P pw pwb -> ec_private_key P false pwb salt seed k ->
  seed_mask P false pwb salt (address_hash P (n_address r)) S ->
  first_byte seed <> x00 -> nth 8 (seed_block_1 P S seed) x00 <> x00 -> first_byte k <> x00 ->
  exists d, decrypt P self (n_encrypted_wif r) pw network true = Ok (DDetail d) /\
    decrypt P self (n_encrypted_wif r) pw network false = Ok (DWif (d_wif d)) /\
    describes P w a c k d /\ d_seed d = Some (n_seed r) /\ n_seed r = hex seed /\
    d_address d = n_address r /\ d_public_key d = n_public_key r /\ d_public_key_type d = n_public_key_type r /\
    d_lot d = None /\ d_sequence d = None.
Proof.
  intros P random random' self network w a c pw pwb salt_arg salt code arg seed r k S HP HS A1 Le I A Ls E B PK SM Z1 Z2 Z3.
  apply (C21_plain_code P random salt_arg salt pw code HP A1 Le) in I. rewrite <- (pad_24 seed Ls) in Z2.
  destruct (C30_short_seed_roundtrip P random' self network w a false c salt pw pwb code arg seed r k S HP HS A ltac:(lia) Le B I E PK SM Z1 Z2) as [H _].
  destruct (H Z3) as (d & D1 & D2 & Dd & S1 & S2 & S3 & S4 & S5 & LR). exists d.
  assert (SR : n_seed r = hex seed) by congruence. do 8 (split; [assumption|]). exact LR.
Qed.
(** The private key exists whenever the creation succeeded, and the mask too. *)
Theorem C24_key_exists : forall P random self network w a lot c ent pw pwb code arg seed r,
  prims_ok P -> session self network w a -> argument_bytes random arg seed -> List.length ent = 8%nat ->
  passphrase_bytes P pw pwb -> passphrase_code P lot ent pw code ->
  create_new_encrypted_wif P random self code (wif_name c) arg network = Ok r ->
  exists k S, ec_private_key P lot pwb ent seed k /\ key_address P a c k (n_address r) /\
    seed_mask P lot pwb ent (address_hash P (n_address r)) S.
Proof.
  intros P random self network w a lot c ent pw pwb code arg seed r HP HS A Le B T E.
  destruct (session_net_sel _ _ _ _ HS) as (n & N). apply argument_entropy in A.
  destruct (owner_creation P HP random self network n w a lot c ent pw pwb code arg seed r N A Le B T E) as (K & Kb & cr & CR & V & EK & Ek & Kk).
  eexists. eexists. split; [apply ec_private_key_iff; split; [exact K|split; [exact Kb|reflexivity]]|].
  split; [|apply seed_mask_iff; split; [exact K|reflexivity]].
  apply key_address_iff; [apply (ns_a _ _ _ _ _ N)|]. split; [exact Kk|]. rewrite V, <- EK. reflexivity.
Qed.

(** ** C25: created keys that cannot be decrypted *)
Theorem C25_zero_key : forall P random self network w a lot c ent pw pwb code arg seed r k S detail,
  prims_ok P -> session self network w a ->
  argument_bytes random arg seed -> List.length seed = 24%nat -> List.length ent = 8%nat ->
  passphrase_bytes P pw pwb -> passphrase_code P lot ent pw code ->
  create_new_encrypted_wif P random self code (wif_name c) arg network = Ok r ->
  ec_private_key P lot pwb ent seed k -> seed_mask P lot pwb ent (address_hash P (n_address r)) S ->
  first_byte seed <> x00 -> nth 8 (seed_block_1 P S seed) x00 <> x00 -> first_byte k = x00 ->
  decrypt P self (n_encrypted_wif r) pw network detail = Raise (Lib CSecp256k1Error "Invalid private key bytes").
Proof.
  intros P random self network w a lot c ent pw pwb code arg seed r k S detail HP HS A Ls Le B T E PK SM Z1 Z2 Z3.
  rewrite <- (pad_24 seed Ls) in Z2.
  apply (C30_short_seed_roundtrip P random self network w a lot c ent pw pwb code arg seed r k S HP HS A ltac:(lia) Le B T E PK SM Z1 Z2), Z3.
Qed.
(** Any key decrypt returns to the owner belongs to a seed of at most 24 bytes. *)
Lemma owner_returns P random self network w a lot c ent pw pwb code arg seed r d :
  prims_ok P -> session self network w a -> argument_bytes random arg seed -> List.length ent = 8%nat ->
  passphrase_bytes P pw pwb -> passphrase_code P lot ent pw code ->
  create_new_encrypted_wif P random self code (wif_name c) arg network = Ok r ->
  decrypt P self (n_encrypted_wif r) pw network true = Ok (DDetail d) ->
  exists cr seed' k', creation P a lot c ent (ser true (pubof (be2z (pass_factor P lot pwb ent)))) seed (pubof (be2z (pass_factor P lot pwb ent))) cr /\
    cr_S cr = kdf2 P (ser true (pubof (be2z (pass_factor P lot pwb ent)))) (cr_ah cr) ent /\ cr_ah cr = address_hash P (n_address r) /\
    (8 <= List.length (ec_tail P (cr_S cr) (cr_E2 cr)))%nat /\
    seed' = ec_seed P (cr_S cr) (upto 8 (cr_E1 cr)) (cr_E2 cr) /\
    d_seed d = Some (hex seed') /\ ec_private_key P lot pwb ent seed' k' /\ d_private_key d = hex k' /\ (List.length seed' <= 24)%nat.
Proof.
  intros HP HS A Le B T E D0. destruct (session_net_sel _ _ _ _ HS) as (n & N). apply argument_entropy in A.
  destruct (owner_creation P HP random self network n w a lot c ent pw pwb code arg seed r N A Le B T E) as (K & _).
  destruct (owner_decrypt P HP random self network n w a lot c ent pw pwb code arg seed r N A Le B T E) as (cr & CR & V & ES & EA & D).
  rewrite D in D0. destruct (Nat.leb_spec 8 (List.length (ec_tail P (cr_S cr) (cr_E2 cr)))) as [Lt|]; [|discriminate]. cbv zeta in D0.
  set (seed' := ec_seed P (cr_S cr) (upto 8 (cr_E1 cr)) (cr_E2 cr)) in *.
  destruct (key_okb (sha256d P seed')) eqn:K'; [|discriminate].
  set (k' := z2be 32 ((be2z (pass_factor P lot pwb ent) * be2z (sha256d P seed')) mod G_order)) in *.
  destruct (zero_first k'); [discriminate|]. destruct (bytes_eqb _ _); [|discriminate].
  exists cr, seed', k'. split; [exact CR|]. split; [exact ES|]. split; [rewrite V, (cn_ah _ _ _ _ _ _ _ _ _ CR); reflexivity|].
  split; [exact Lt|]. split; [reflexivity|].
  assert (H : d_seed d = Some (hex seed') /\ d_private_key d = hex k').
  { destruct (key_okb_range _ K) as [_ R]. destruct (key_okb_range _ K') as [_ R'].
    assert (Kk : key_okb k' = true) by (apply key_okb_z2be, (mul_mod_range _ _ R R')).
    destruct (decrypt_value_describes P w a c k' (Some seed') (lot_of lot ent) (seq_of lot ent) (ns_w _ _ _ _ _ N) (ns_a _ _ _ _ _ N) Kk) as (d0 & E1 & (_ & Dk & _) & S1 & _).
    rewrite E1 in D0. assert (d0 = d) by congruence. subst d0. auto. }
  destruct H as [H1 H2]. split; [exact H1|]. split; [apply ec_private_key_iff; auto|]. split; [exact H2|].
  destruct (creation_len P HP _ _ _ _ _ _ _ _ CR) as (La & LS & L1 & L2 & _). apply (ec_seed_short P HP); trivial. apply upto_length. lia.
Qed.
(** Same key, same hash of the seed: the owner's factor can be divided out. *)
Lemma same_key_same_hash P lot pwb ent seed seed' k : ec_private_key P lot pwb ent seed k -> ec_private_key P lot pwb ent seed' k ->
  sha256d P seed' = sha256d P seed.
Proof.
  rewrite !ec_private_key_iff. intros (K & K1 & V1) (_ & K2 & V2). destruct (key_okb_range _ K) as [_ R]. destruct (key_okb_range _ K1) as [L1 R1]. destruct (key_okb_range _ K2) as [L2 R2].
  pose proof (mul_mod_range _ _ R R1) as M1. pose proof (mul_mod_range _ _ R R2) as M2. rewrite V1 in V2. apply (f_equal be2z) in V2.
  change secp_n with G_order in V2. rewrite !range_256 in V2 by assumption.
  apply be2z_inj; [congruence|]. set (x := be2z (pass_factor P lot pwb ent)) in *. set (y1 := be2z (sha256d P seed)) in *. set (y2 := be2z (sha256d P seed')) in *.
  assert (D : (G_order | x * (y2 - y1))).
  { rewrite Z.mul_sub_distr_l. apply Z.mod_divide; [lia|]. rewrite Zminus_mod, V2, Z.sub_diag. apply Z.mod_0_l. lia. }
  apply Znumtheory.prime_mult in D; [|exact n_prime]. destruct D as [D|D].
  - apply Z.divide_pos_le in D; lia.
  - destruct (Z.eq_dec y1 y2) as [|NE]; [congruence|]. destruct (Z.lt_trichotomy y1 y2) as [H|[H|H]]; [|contradiction|].
    + apply Z.divide_pos_le in D; lia.
    + apply Z.divide_opp_r in D. apply Z.divide_pos_le in D; lia.
Qed.
(** The seed's first byte, or byte 8 of block 1, is zero: a different seed comes
    back, and the same key only if the two seeds collide under double SHA-256. *)
Theorem C25_seed_lost : forall P random self network w a lot c ent pw pwb code arg seed r k S d,
  prims_ok P -> session self network w a ->
  argument_bytes random arg seed -> List.length seed = 24%nat -> List.length ent = 8%nat ->
  passphrase_bytes P pw pwb -> passphrase_code P lot ent pw code ->
  create_new_encrypted_wif P random self code (wif_name c) arg network = Ok r ->
  ec_private_key P lot pwb ent seed k -> seed_mask P lot pwb ent (address_hash P (n_address r)) S ->
  first_byte seed = x00 \/ nth 8 (seed_block_1 P S seed) x00 = x00 ->
  decrypt P self (n_encrypted_wif r) pw network true = Ok (DDetail d) ->
  exists seed', d_seed d = Some (hex seed') /\ (List.length seed' < 24)%nat /\
    (d_private_key d = hex k -> sha256d P seed' = sha256d P seed).
Proof.
  intros P random self network w a lot c ent pw pwb code arg seed r k S d HP HS A Ls Le B T E PK SM Z D.
  destruct (owner_returns P random self network w a lot c ent pw pwb code arg seed r d HP HS A Le B T E D)
    as (cr & seed' & k' & CR & ES & EA & Lt & Vs & Ds & PK' & Dk & _).
  exists seed'. split; [exact Ds|]. apply seed_mask_iff in SM. destruct SM as [_ VS]. rewrite <- EA, <- ES in VS. subst S.
  rewrite <- (pad_24 seed Ls), (created_E1 P _ _ _ _ _ _ _ _ HP CR ltac:(lia)) in Z.
  split; [rewrite Vs; apply (created_seed_lost P HP _ _ _ _ _ _ _ _ CR Ls Z Lt)|].
  intros EK. rewrite Dk in EK. apply tohex_inj in EK. subst k'. apply (same_key_same_hash P lot pwb ent seed seed' k PK PK').
Qed.

(** ** C30: seeds of more than 24 bytes *)
Theorem C30_long_seed_lost : forall P random self network w a lot c ent pw pwb code arg seed r k d,
  prims_ok P -> session self network w a ->
  argument_bytes random arg seed -> (24 < List.length seed)%nat -> List.length ent = 8%nat ->
  passphrase_bytes P pw pwb -> passphrase_code P lot ent pw code ->
  create_new_encrypted_wif P random self code (wif_name c) arg network = Ok r ->
  ec_private_key P lot pwb ent seed k ->
  decrypt P self (n_encrypted_wif r) pw network true = Ok (DDetail d) ->
  exists seed', d_seed d = Some (hex seed') /\ (List.length seed' <= 24)%nat /\
    (d_private_key d = hex k -> sha256d P seed' = sha256d P seed).
Proof.
  intros P random self network w a lot c ent pw pwb code arg seed r k d HP HS A Ls Le B T E PK D.
  destruct (owner_returns P random self network w a lot c ent pw pwb code arg seed r d HP HS A Le B T E D)
    as (cr & seed' & k' & CR & ES & EA & Lt & Vs & Ds & PK' & Dk & L).
  exists seed'. split; [exact Ds|]. split; [exact L|].
  intros EK. rewrite Dk in EK. apply tohex_inj in EK. subst k'. apply (same_key_same_hash P lot pwb ent seed seed' k PK PK').
Qed.
(** ... and in nearly all cases they are refused by the AES layer: whenever byte 8
    of block 1 is not zero. *)
Theorem C30_long_seed_rejected : forall P random self network w a lot c ent px py pp code arg seed e kx ky address,
  prims_ok P -> session self network w a ->
  argument_bytes random arg seed -> (24 < List.length seed)%nat -> List.length ent = 8%nat ->
  on_curve (Aff px py) -> sec1_compressed px py pp -> code_text P lot ent px py code ->
  scalar (sha256d P seed) e -> ec_multiple (Z.to_N e) (Aff px py) (Aff kx ky) ->
  address_text P bitcoin_alphabet a c kx ky address ->
  nth 8 (seed_block_1 P (light_kdf P pp (address_hash P address) ent) seed) x00 <> x00 ->
  create_new_encrypted_wif P random self code (wif_name c) arg network = Raise (Builtin ValueError).
Proof.
  intros P random self network w a lot c ent px py pp code arg seed e kx ky address HP HS A Ls Le O SC T S QK AT Z.
  destruct (session_net_sel _ _ _ _ HS) as (n & N). apply argument_entropy in A.
  set (k := {| pk_x := px; pk_y := py |}). assert (Ok_ : pk_ok k) by exact O.
  rewrite (serialised_unique true k pp Ok_ SC) in *. clear SC.
  destruct (scalar_be2z _ _ S) as [-> K]. destruct (key_okb_range _ K) as [_ R].
  apply (code_text_iff P lot ent px py code O) in T. fold k in T.
  assert (D : check_decode P code base58_alphabet = Ok (magic_bytes lot ++ ent ++ ser true k)) by (rewrite T; apply check_decode_b58c, HP).
  rewrite (create_valid P random self network n w a lot c ent k code arg seed HP N A D Le).
  apply (mulk_multiple k _ _ _ Ok_ R) in QK. destruct (mulk_ok k _ Ok_ R) as (_ & OK & _). rewrite QK in OK.
  pose proof (ns_a _ _ _ _ _ N) as Ha. apply (address_text_unique P a c {| pk_x := kx; pk_y := ky |}) in AT; [|assumption..].
  unfold create_core. cbv zeta. rewrite K, (from_bytes_ser k Ok_). cbn [bind]. rewrite QK.
  assert (EA : ahash P a c {| pk_x := kx; pk_y := ky |} = address_hash P address) by (rewrite AT; reflexivity). rewrite EA.
  set (ah := address_hash P address) in *. change (light_kdf P (ser true k) ah ent) with (kdf2 P (ser true k) ah ent) in Z.
  set (SS := kdf2 P (ser true k) ah ent) in *. assert (LS : List.length SS = 64%nat) by apply (kdf2_length P HP).
  assert (LK : List.length (from 32 SS) = 32%nat) by (rewrite from_length; lia).
  assert (Lu : List.length (upto 16 SS) = 16%nat) by (apply upto_length; lia).
  assert (Lv : List.length (slice 16 32 SS) = 16%nat) by (rewrite slice_length; lia).
  assert (X1 : List.length (upto 16 seed) = 16%nat) by (apply upto_length; lia).
  assert (Sl : slice 32 64 SS = from 32 SS) by (unfold slice, from; apply firstn_all2; rewrite skipn_length; lia).
  rewrite (xor_right_eq (upto 16 seed)) by congruence.
  destruct (enc_block_two (from 32 SS) (xor (upto 16 seed) (upto 16 SS)) ltac:(rewrite xor_length; congruence) P) as [(E1 & EE1 & V1 & Z1)|[EE1 Z1]];
    rewrite EE1; cbn [bind]; [|reflexivity].
  assert (B1 : seed_block_1 P SS seed = E1) by (unfold seed_block_1; rewrite Sl; symmetry; exact V1). rewrite B1 in Z.
  assert (L1 : List.length E1 = 16%nat) by (rewrite V1; apply (aes_enc_len P HP); [exact LK|rewrite xor_length; congruence]).
  set (m := from 8 E1 ++ from 16 seed). assert (Lm : (16 < List.length m)%nat) by (unfold m; rewrite app_length, !from_length; lia).
  assert (Fm : first_byte m <> x00).
  { unfold m. rewrite first_byte_app; [rewrite first_byte_nth; exact Z|]. intros Y. apply (f_equal (@List.length byte)) in Y. rewrite from_length in Y. cbn in Y. lia. }
  assert (EX : enc_block P (from 32 SS) (xor_right m (slice 16 32 SS)) = Raise (Builtin ValueError)); [|rewrite EX; reflexivity].
  unfold enc_block. assert (X : List.length (shortest (xor_right m (slice 16 32 SS))) = List.length m).
  { unfold xor_right. cbv zeta. rewrite Nat.max_l by lia. unfold pad_left at 1. rewrite Nat.sub_diag. cbn [repeat app].
    assert (LP : List.length (pad_left (List.length m) (slice 16 32 SS)) = List.length m) by (apply pad_left_length; lia).
    rewrite shortest_id; [rewrite xor_length; congruence|]. rewrite first_xor.
    - replace (first_byte (pad_left _ _)) with x00; [|unfold pad_left; destruct (List.length m - List.length (slice 16 32 SS))%nat eqn:Q; [lia|reflexivity]].
      intros Y. exact (Fm (proj1 (byte_xor_0 _ _) Y)).
    - apply first_nonempty, Fm.
    - intros Y. apply (f_equal (@List.length byte)) in Y. rewrite LP in Y. change (List.length (@nil byte)) with 0%nat in Y. lia. }
  rewrite X. destruct (Nat.eqb_spec (List.length m) 16); [lia|reflexivity].
Qed.
(** Shorter seeds: accepted unless one of the four blocks starts with zero. *)
Theorem C30_short_seed_accepted : forall P random self network w a lot c ent px py pp code arg seed e kx ky address bx by_ B,
  prims_ok P -> session self network w a ->
  argument_bytes random arg seed -> (List.length seed < 24)%nat -> List.length ent = 8%nat ->
  on_curve (Aff px py) -> sec1_compressed px py pp -> code_text P lot ent px py code ->
  scalar (sha256d P seed) e -> ec_multiple (Z.to_N e) (Aff px py) (Aff kx ky) ->
  address_text P bitcoin_alphabet a c kx ky address ->
  public_point e bx by_ -> sec1_compressed bx by_ B ->
  let S := light_kdf P pp (address_hash P address) ent in
  first_byte (xor (pad_left 16 (slice 0 16 seed)) (slice 0 16 S)) <> x00 -> nth 16 S x00 <> x00 ->
  first_byte (xor (slice 1 17 B) (slice 0 16 S)) <> x00 -> first_byte (xor (slice 17 33 B) (slice 16 32 S)) <> x00 ->
  exists r, create_new_encrypted_wif P random self code (wif_name c) arg network = Ok r.
Proof.
  intros P random self network w a lot c ent px py pp code arg seed e kx ky address bx by_ B HP HS A Ls Le O SC T S QK AT Q SB SS Z1 Z2 Z3 Z4.
  destruct (session_net_sel _ _ _ _ HS) as (n & N). apply argument_entropy in A.
  set (k := {| pk_x := px; pk_y := py |}). assert (Ok_ : pk_ok k) by exact O.
  pose proof (serialised_unique true k pp Ok_ SC) as EP. clear SC. subst pp.
  destruct (scalar_be2z _ _ S) as [-> K]. destruct (key_okb_range _ K) as [_ R].
  apply public_point_iff in Q; [|exact R]. destruct (pubof_ok _ R) as (_ & _ & OB). rewrite Q in OB.
  rewrite (serialised_unique true {| pk_x := bx; pk_y := by_ |} B OB SB) in *. rewrite <- Q in *. clear SB Q OB bx by_ S B.
  apply (code_text_iff P lot ent px py code O) in T. fold k in T.
  assert (D : check_decode P code base58_alphabet = Ok (magic_bytes lot ++ ent ++ ser true k)) by (rewrite T; apply check_decode_b58c, HP).
  rewrite (create_valid P random self network n w a lot c ent k code arg seed HP N A D Le).
  apply (mulk_multiple k _ _ _ Ok_ R) in QK. destruct (mulk_ok k _ Ok_ R) as (_ & OK & _). rewrite QK in OK.
  pose proof (ns_a _ _ _ _ _ N) as Ha. apply (address_text_unique P a c {| pk_x := kx; pk_y := ky |}) in AT; [|assumption..].
  unfold create_core. cbv zeta. rewrite K, (from_bytes_ser k Ok_). cbn [bind]. rewrite QK.
  assert (EA : ahash P a c {| pk_x := kx; pk_y := ky |} = address_hash P address) by (rewrite AT; reflexivity). rewrite EA.
  set (ah := address_hash P address) in *. change (kdf2 P (ser true k) ah ent) with SS.
  assert (LS : List.length SS = 64%nat) by apply (kdf2_length P HP).
  set (B := ser true (pubof (be2z (sha256d P seed)))) in *. assert (LBB : List.length B = 33%nat) by apply ser_true_length.
  assert (LK : List.length (from 32 SS) = 32%nat) by (rewrite from_length; lia).
  assert (Lu : List.length (upto 16 SS) = 16%nat) by (apply upto_length; lia).
  assert (Lv : List.length (slice 16 32 SS) = 16%nat) by (rewrite slice_length; lia).
  assert (X1 : (List.length (upto 16 seed) <= List.length (upto 16 SS))%nat) by (rewrite Lu; unfold upto; rewrite firstn_length; lia).
  assert (X3 : List.length (slice 1 17 B) = 16%nat) by (rewrite slice_length; lia).
  assert (X4 : List.length (from 17 B) = 16%nat) by (rewrite from_length; lia).
  assert (U3 : slice 17 33 B = from 17 B) by (unfold slice, from; apply firstn_all2; rewrite skipn_length; lia). rewrite U3 in Z4.
  assert (LX : List.length (xor_right (upto 16 seed) (upto 16 SS)) = 16%nat) by (rewrite xor_right_length; assumption).
  destruct (enc_block_two (from 32 SS) (xor_right (upto 16 seed) (upto 16 SS)) LX P) as [(E1 & EE1 & V1 & _)|[EE1 Y1]].
  2:{ rewrite xor_right_pad, Lu in Y1 by exact X1. contradiction. }
  rewrite EE1. cbn [bind].
  assert (L1 : List.length E1 = 16%nat) by (rewrite V1; apply (aes_enc_len P HP); assumption).
  set (m := from 8 E1 ++ from 16 seed). assert (Lm : (List.length m < 16)%nat) by (unfold m; rewrite app_length, !from_length; lia).
  assert (LX2 : List.length (xor_right m (slice 16 32 SS)) = 16%nat) by (rewrite xor_right_length; lia).
  destruct (enc_block_two (from 32 SS) (xor_right m (slice 16 32 SS)) LX2 P) as [(E2 & EE2 & _)|[EE2 Y2]].
  2:{ rewrite xor_right_pad in Y2 by lia. rewrite first_xor in Y2; try (intros Y; apply (f_equal (@List.length byte)) in Y; revert Y; rewrite ?Lv, ?pad_left_length by lia; cbn [List.length]; lia).
      destruct (first_slice 16 32 SS ltac:(lia) ltac:(lia)) as [F _]. rewrite F, Lv in Y2.
      replace (first_byte (pad_left 16 m)) with x00 in Y2; [|unfold pad_left; destruct (16 - List.length m)%nat eqn:Q; [lia|reflexivity]].
      pose proof (proj1 (byte_xor_0 _ _) Y2). congruence. }
  rewrite EE2. cbn [bind].
  destruct (enc_block_two (from 32 SS) (xor (slice 1 17 B) (upto 16 SS)) ltac:(rewrite xor_length; congruence) P) as [(E3 & EE3 & _)|[_ Y3]]; [|contradiction].
  rewrite EE3. cbn [bind].
  destruct (enc_block_two (from 32 SS) (xor (from 17 B) (slice 16 32 SS)) ltac:(rewrite xor_length; congruence) P) as [(E4 & EE4 & _)|[_ Y4]]; [|contradiction].
  rewrite EE4. cbn [bind]. eexists. reflexivity.
Qed.

(** ** C26: confirmation codes *)
Section OwnerConfirm.
Variable P : prims.
Hypothesis HP : prims_ok P.
Lemma confirm_created_eq self network n w a lot c ent pp seed ppk r pw detail : net_sel self network n w a ->
  creation P a lot c ent pp seed ppk r -> List.length ent = 8%nat ->
  confirm_code P self pw (n_confirmation_code (new_wif_of P a lot c ent seed r)) network detail =
  confirm_core P a (flag_ec lot c) (cr_ah r) ent (byte_xor (low_bit (last64 (cr_S r))) (first_byte (ser true (pubof (be2z (sha256d P seed)))))) (cr_Q1 r) (cr_Q2 r) pw detail.
Proof.
  intros N CR Le. destruct (creation_len P HP _ _ _ _ _ _ _ _ CR) as (La & LS & L1 & L2 & L3 & L4 & _).
  cbn [n_confirmation_code new_wif_of].
  rewrite (confirm_eq P HP _ _ _ _ _ _ _ _ _ _ _ _ _ pw detail N (check_decode_b58c P _ HP)) by (trivial; reflexivity).
  replace (bytes_eqb [x64; x3b; xf6; xa8; x9a] [x64; x3b; xf6; xa8; x9a]) with true by reflexivity. reflexivity.
Qed.
End OwnerConfirm.
(** Too short to be a point *)
Lemma from_bytes_short l : (List.length l < 33)%nat -> PublicKey_from_bytes l = Raise (Lib CSecp256k1Error "Invalid public key bytes").
Proof.
  intros L. destruct (PublicKey_from_bytes l) as [k|e] eqn:E; [|apply PublicKey_from_bytes_err in E; congruence].
  apply PublicKey_from_bytes_iff in E. destruct E as [_ [S|[S|[S|S]]]].
  - destruct S as (xs & [L1 _] & ->). cbn [List.length] in L. lia.
  - destruct S as (xs & ys & [L1 _] & [L2 _] & ->). cbn [List.length] in L. rewrite app_length in L. lia.
  - destruct S as (xs & ys & [L1 _] & [L2 _] & ->). rewrite app_length in L. lia.
  - destruct S as (xs & ys & [L1 _] & [L2 _] & ->). cbn [List.length] in L. rewrite app_length in L. lia.
Qed.
Theorem C26_confirm_roundtrip : forall P random self network w a lot c ent pw code arg seed r e bx by_ B,
  prims_ok P -> session self network w a -> argument_bytes random arg seed -> List.length ent = 8%nat ->
  passphrase_code P lot ent pw code ->
  create_new_encrypted_wif P random self code (wif_name c) arg network = Ok r ->
  scalar (sha256d P seed) e -> public_point e bx by_ -> sec1_compressed bx by_ B ->
  (nth 1 B x00 <> x00 -> nth 17 B x00 <> x00 ->
   confirm_code P self pw (n_confirmation_code r) network false = Ok (CAddress (n_address r)) /\
   exists d, confirm_code P self pw (n_confirmation_code r) network true = Ok (CDetail d) /\
     c_address d = n_address r /\ c_public_key d = n_public_key r /\ c_public_key_type d = n_public_key_type r /\
     lot_report lot ent (c_lot d) (c_sequence d)) /\
  (nth 1 B x00 = x00 \/ nth 17 B x00 = x00 -> forall detail,
   confirm_code P self pw (n_confirmation_code r) network detail = Raise (Lib CPassphraseError "Incorrect passphrase")).
Proof.
  intros P random self network w a lot c ent pw code arg seed r e bx by_ B HP HS A Le T E S Q SB.
  destruct (session_net_sel _ _ _ _ HS) as (n & N). apply argument_entropy in A.
  destruct (passphrase_code_inv _ _ _ _ _ T) as (pwb & PB & _).
  destruct (owner_creation P HP random self network n w a lot c ent pw pwb code arg seed r N A Le PB T E) as (K & Kb & cr & CR & V & EK & Ek & Kk).
  destruct (scalar_be2z _ _ S) as [-> _]. destruct (key_okb_range _ Kb) as [_ Rb]. destruct (key_okb_range _ K) as [_ R].
  apply public_point_iff in Q; [|exact Rb]. destruct (pubof_ok _ Rb) as (_ & _ & OB). rewrite Q in OB.
  pose proof (serialised_unique true {| pk_x := bx; pk_y := by_ |} B OB SB) as EB. rewrite <- Q in EB, OB. clear SB Q bx by_.
  pose proof (created_point P HP _ _ _ _ _ _ _ _ CR) as CP. cbv zeta in CP. rewrite <- EB in CP.
  assert (LB : List.length B = 33%nat) by (rewrite EB; apply ser_true_length).
  assert (D : forall detail, confirm_code P self pw (n_confirmation_code r) network detail =
    match PublicKey_from_bytes ([first_byte B] ++ shortest (slice 1 17 B) ++ shortest (from 17 B)) with
    | Raise _ => Raise (Lib CPassphraseError "Incorrect passphrase")
    | Ok B => let KK := mulk B (be2z (pass_factor P lot pwb ent)) in
            if bytes_eqb (ahash P a c KK) (cr_ah cr)
            then Ok (confirm_value P a c KK (lot_of lot ent) (seq_of lot ent) detail)
            else Raise (Lib CPassphraseError "Incorrect passphrase") end).
  { intros detail. rewrite V. rewrite (confirm_created_eq P HP _ _ _ _ _ _ _ _ _ _ _ _ pw detail N CR Le). unfold confirm_core.
    unfold passphrase_bytes in PB. rewrite PB. cbv zeta. rewrite flag_ec_lot, flag_ec_comp, K, <- (cn_S _ _ _ _ _ _ _ _ _ CR), <- EB, CP. reflexivity. }
  assert (L1 : List.length (slice 1 17 B) = 16%nat) by (rewrite slice_length; lia).
  assert (L2 : List.length (from 17 B) = 16%nat) by (rewrite from_length; lia).
  destruct (first_slice 1 17 B ltac:(lia) ltac:(lia)) as [F1 _]. pose proof (first_byte_nth 17 B) as F2.
  split.
  - intros Z1 Z2. rewrite !shortest_id in D by congruence. rewrite <- (point_split B LB) in D. rewrite EB in D.
    rewrite (from_bytes_ser _ OB) in D. cbv zeta in D.
    assert (EM : mulk (pubof (be2z (sha256d P seed))) (be2z (pass_factor P lot pwb ent)) = cr_key cr).
    { rewrite (mulk_pubof _ _ Rb R), EK, Ek, Z.mul_comm. reflexivity. }
    rewrite EM in D. rewrite (cn_ah _ _ _ _ _ _ _ _ _ CR) in D.
    replace (bytes_eqb (ahash P a c (cr_key cr)) (ahash P a c (cr_key cr))) with true in D by (symmetry; apply bytes_eqb_spec; reflexivity).
    rewrite !D. rewrite V. split; [reflexivity|]. eexists. split; [reflexivity|]. cbn [c_address c_public_key c_public_key_type c_lot c_sequence new_wif_of n_address n_public_key n_public_key_type].
    split; [reflexivity|]. split; [reflexivity|]. split; [reflexivity|]. apply lot_report_of, Le.
  - intros Z detail. rewrite D. rewrite from_bytes_short; [reflexivity|]. rewrite !app_length. cbn [List.length].
    pose proof (shortest_length_le (slice 1 17 B) ltac:(lia)). pose proof (shortest_length_le (from 17 B) ltac:(lia)).
    destruct Z as [Z|Z].
    + pose proof (shortest_length_lt (slice 1 17 B) ltac:(lia) ltac:(congruence)). lia.
    + pose proof (shortest_length_lt (from 17 B) ltac:(lia) ltac:(congruence)). lia.
Qed.
(** The three calls together, with lot and sequence numbers ... *)
Theorem C26_confirm_lot : forall P random random' self network w a c pw l q salt_arg salt code arg seed r e bx by_ B,
  prims_ok P -> session self network w a ->
  argument_bytes random salt_arg salt -> List.length salt = 4%nat \/ List.length salt = 8%nat ->
  100000 <= l <= 999999 -> 1 <= q <= 4095 ->
  intermediate_code P random pw (Some l) (Some q) salt_arg = Ok code ->
  argument_bytes random' arg seed ->
  create_new_encrypted_wif P random' self code (wif_name c) arg network = Ok r ->
  scalar (sha256d P seed) e -> public_point e bx by_ -> sec1_compressed bx by_ B -> nth 1 B x00 <> x00 -> nth 17 B x00 <> x00 ->
  confirm_code P self pw (n_confirmation_code r) network false = Ok (CAddress (n_address r)) /\
  exists d, confirm_code P self pw (n_confirmation_code r) network true = Ok (CDetail d) /\
    c_address d = n_address r /\ c_public_key d = n_public_key r /\ c_public_key_type d = n_public_key_type r /\
    c_lot d = Some l /\ c_sequence d = Some q.
Proof.
  intros P random random' self network w a c pw l q salt_arg salt code arg seed r e bx by_ B HP HS A1 Lsa Hl Hq I A E S Q SB Z1 Z2.
  apply (C21_lot_code P random salt_arg salt pw l q code HP A1 Lsa Hl Hq) in I. destruct I as (ent & LE & T).
  apply lot_entropy_iff in LE; try (cbn; lia).
  assert (L4 : List.length (slice 0 4 salt) = 4%nat) by (rewrite slice_length; lia).
  assert (Le : List.length ent = 8%nat) by (rewrite LE, app_length, L4, z2be_length; reflexivity).
  destruct (C26_confirm_roundtrip P random' self network w a true c ent pw code arg seed r e bx by_ B HP HS A Le T E S Q SB) as [H _].
  destruct (H Z1 Z2) as (D1 & d & D2 & S1 & S2 & S3 & LR). split; [exact D1|]. exists d.
  do 4 (split; [assumption|]). destruct LR as (l' & q' & -> & -> & V & Hl' & Hq'). rewrite LE in V.
  replace (slice 4 8 (slice 0 4 salt ++ z2be 4 (l * 4096 + q))) with (z2be 4 (l * 4096 + q)) in V.
  2:{ unfold slice at 1. rewrite skipn_app, L4, Nat.sub_diag, skipn_all2 by lia. cbn [skipn app]. symmetry. apply firstn_all2. rewrite z2be_length. lia. }
  rewrite be_value_be2z, z2be_small_be2z in V by (cbn; lia). split; f_equal; lia.
Qed.
(** ... and without. *)
Theorem C26_confirm_plain : forall P random random' self network w a c pw salt_arg salt code arg seed r e bx by_ B,
  prims_ok P -> session self network w a ->
  argument_bytes random salt_arg salt -> List.length salt = 8%nat ->
  intermediate_code P random pw None None salt_arg = Ok code ->
  argument_bytes random' arg seed ->
  create_new_encrypted_wif P random' self code (wif_name c) arg network = Ok r ->
  scalar (sha256d P seed) e -> public_point e bx by_ -> sec1_compressed bx by_ B -> nth 1 B x00 <> x00 -> nth 17 B x00 <> x00 ->
  confirm_code P self pw (n_confirmation_code r) network false = Ok (CAddress (n_address r)) /\
  exists d, confirm_code P self pw (n_confirmation_code r) network true = Ok (CDetail d) /\
    c_address d = n_address r /\ c_public_key d = n_public_key r /\ c_public_key_type d = n_public_key_type r /\
    c_lot d = None /\ c_sequence d = None.
Proof.
  intros P random random' self network w a c pw salt_arg salt code arg seed r e bx by_ B HP HS A1 Le I A E S Q SB Z1 Z2.
  apply (C21_plain_code P random salt_arg salt pw code HP A1 Le) in I.
  destruct (C26_confirm_roundtrip P random' self network w a false c salt pw code arg seed r e bx by_ B HP HS A Le I E S Q SB) as [H _].
  exact (H Z1 Z2).
Qed.

(** ** C27: soundness of confirm_code *)
Lemma confirm_inv P self network n w a s pw detail v : prims_ok P -> net_sel self network n w a ->
  confirm_code P self pw s network detail = Ok v ->
  exists f ah ent b0 q1 q2 pwb B, check_decode P s base58_alphabet = Ok ([x64; x3b; xf6; xa8; x9a] ++ [f] ++ ah ++ ent ++ [b0] ++ q1 ++ q2) /\
    List.length ah = 4%nat /\ List.length ent = 8%nat /\ List.length q1 = 16%nat /\ List.length q2 = 16%nat /\
    passphrase_bytes P pw pwb /\ key_okb (pass_factor P (lotb f) pwb ent) = true /\ pk_ok B /\
    PublicKey_from_bytes (point_b_of P (kdf2 P (ser true (pubof (be2z (pass_factor P (lotb f) pwb ent)))) ah ent) b0 q1 q2) = Ok B /\
    ahash P a (compb f) (mulk B (be2z (pass_factor P (lotb f) pwb ent))) = ah /\
    v = confirm_value P a (compb f) (mulk B (be2z (pass_factor P (lotb f) pwb ent))) (lot_of (lotb f) ent) (seq_of (lotb f) ent) detail.
Proof.
  intros HP N E. pose proof (confirm_bad P self network n w a s pw detail N) as H.
  destruct (check_decode P s base58_alphabet) as [d|] eqn:D; [|congruence].
  destruct (Nat.eq_dec (List.length d) 51) as [L|L]; [|rewrite (H L) in E; discriminate]. clear H.
  destruct (cut51 d L) as (p & f & ah & ent & b0 & q1 & q2 & -> & Lp & La & Le & L1 & L2).
  rewrite (confirm_eq P HP _ _ _ _ _ _ _ _ _ _ _ _ _ pw detail N D) in E by assumption.
  destruct (bytes_eqb [x64; x3b; xf6; xa8; x9a] p) eqn:EP; [|discriminate]. apply bytes_eqb_spec in EP. subst p.
  unfold confirm_core in E. destruct (utf8_encode (h_nfc P pw)) as [pwb|] eqn:PB; [|discriminate]. cbv zeta in E.
  destruct (key_okb (pass_factor P (lotb f) pwb ent)) eqn:K; [|discriminate].
  destruct (PublicKey_from_bytes _) as [B|] eqn:F; [|discriminate].
  destruct (bytes_eqb _ ah) eqn:EA; [|discriminate]. apply bytes_eqb_spec in EA. apply Ok_inj in E.
  exists f, ah, ent, b0, q1, q2, pwb, B. pose proof (proj1 (proj1 (PublicKey_from_bytes_iff _ _) F)) as OB. auto 15.
Qed.
Theorem C27_confirm_sound : forall P self network w a s pw d, prims_ok P -> session self network w a ->
  confirm_code P self pw s network true = Ok (CDetail d) ->
  exists f ah ent tail lot c pwb e bx by_ x y ser,
    (** checksum, prefix and length *)
    base58check_reads P s ([x64; x3b; xf6; xa8; x9a] ++ [f] ++ ah ++ ent ++ tail) /\
    List.length ah = 4%nat /\ List.length ent = 8%nat /\ List.length tail = 33%nat /\
    (** the public key: the owner's factor times a curve point *)
    passphrase_bytes P pw pwb /\ scalar (owner_factor P lot pwb ent) e /\ on_curve (Aff bx by_) /\
    ec_multiple (Z.to_N e) (Aff bx by_) (Aff x y) /\ serialised c x y ser /\
    c_public_key d = hex ser /\ c_public_key_type d = key_name c /\
    (** the address matches the hash in the code *)
    address_text P bitcoin_alphabet a c x y (c_address d) /\ address_hash P (c_address d) = ah /\
    lot_report lot ent (c_lot d) (c_sequence d).
Proof.
  intros P self network w a s pw d HP HS E. to_code. destruct (session_net_sel _ _ _ _ HS) as (n & N).
  destruct (confirm_inv P self network n w a s pw true _ HP N E) as (f & ah & ent & b0 & q1 & q2 & pwb & B & D & La & Le & L1 & L2 & PB & K & OB & _ & EA & V).
  set (KK := mulk B (be2z (pass_factor P (lotb f) pwb ent))) in *. destruct (key_okb_range _ K) as [_ R]. destruct (mulk_ok B _ OB R) as (_ & OK & _). fold KK in OK.
  unfold confirm_value in V. assert (Vd : d = {| c_public_key := tohex (ser (compb f) KK); c_public_key_type := key_name (compb f);
     c_address := addr P a (compb f) KK; c_lot := lot_of (lotb f) ent; c_sequence := seq_of (lotb f) ent |}) by congruence. clear V.
  exists f, ah, ent, ([b0] ++ q1 ++ q2), (lotb f), (compb f), pwb, (be2z (pass_factor P (lotb f) pwb ent)), (pk_x B), (pk_y B), (pk_x KK), (pk_y KK), (ser (compb f) KK).
  split; [apply (reads58check P HP); exact D|]. split; [exact La|]. split; [exact Le|]. split; [rewrite !app_length, L1, L2; reflexivity|].
  split; [exact PB|]. split; [rewrite owner_factor_eq; apply key_okb_spec, K|]. split; [exact OB|].
  split; [apply (mulk_multiple B _ _ _ OB R); fold KK; destruct KK; reflexivity|]. split; [apply ser_serialised, OK|].
  rewrite Vd. cbn [c_address c_public_key c_public_key_type c_lot c_sequence].
  split; [reflexivity|]. split; [reflexivity|]. split; [apply addr_text; [apply (ns_a _ _ _ _ _ N)|exact OK]|].
  split; [exact EA|]. apply lot_report_of, Le.
Qed.
(** ** C17, second half *)
Theorem C17_confirm_detail : forall P self network s pw, prims_ok P -> constructed self ->
  match confirm_code P self pw s network true with
  | Ok (CDetail d) => confirm_code P self pw s network false = Ok (CAddress (c_address d))
  | Ok (CAddress _) => False
  | Raise e => confirm_code P self pw s network false = Raise e
  end.
Proof.
  intros P self network s pw HP HC.
  destruct (constructed_cases self network HC) as [(n & w & a & N)|N]; [|rewrite !(confirm_no_net P self _ pw network _ _ N); reflexivity].
  pose proof (confirm_bad P self network n w a s pw true N) as H1. pose proof (confirm_bad P self network n w a s pw false N) as H2.
  destruct (check_decode P s base58_alphabet) as [d|] eqn:D; [|rewrite H1; exact H2].
  destruct (Nat.eq_dec (List.length d) 51) as [L|L]; [|rewrite (H1 L); exact (H2 L)]. clear H1 H2.
  destruct (cut51 d L) as (p & f & ah & ent & b0 & q1 & q2 & -> & Lp & La & Le & L1 & L2).
  rewrite !(confirm_eq P HP _ _ _ _ _ _ _ _ _ _ _ _ _ pw _ N D) by assumption.
  destruct (bytes_eqb [x64; x3b; xf6; xa8; x9a] p); [|reflexivity].
  unfold confirm_core. destruct (utf8_encode (h_nfc P pw)) as [pwb|]; [|reflexivity]. cbv zeta.
  destruct (key_okb (pass_factor P (lotb f) pwb ent)); [|reflexivity].
  destruct (PublicKey_from_bytes _) as [B|]; [|reflexivity]. destruct (bytes_eqb _ ah); reflexivity.
Qed.
Theorem C27_not_base58check : forall P self network w a s pw detail, prims_ok P -> session self network w a ->
  (forall d, ~ base58check_reads P s d) ->
  confirm_code P self pw s network detail = Raise (Lib CError "Invalid confirmation code").
Proof.
  intros P self network w a s pw detail HP HS H. to_code. destruct (session_net_sel _ _ _ _ HS) as (n & N).
  pose proof (confirm_bad P self network n w a s pw detail N) as H1. change base58_alphabet with bitcoin_alphabet in H1.
  destruct (check_decode P s bitcoin_alphabet) as [d|] eqn:D; [destruct (H d); reflexivity|exact H1].
Qed.
Theorem C27_wrong_length : forall P self network w a s pw detail d, prims_ok P -> session self network w a ->
  base58check_reads P s d -> List.length d <> 51%nat ->
  confirm_code P self pw s network detail = Raise (Lib CError (error_text "Invalid confirmation code length" (str "102") (dec (zlen d)))).
Proof.
  intros P self network w a s pw detail d HP HS D L. to_code. destruct (session_net_sel _ _ _ _ HS) as (n & N).
  pose proof (confirm_bad P self network n w a s pw detail N) as H1. change base58_alphabet with bitcoin_alphabet in H1. rewrite D in H1. exact (H1 L).
Qed.
Theorem C27_wrong_prefix : forall P self network w a s pw detail d, prims_ok P -> session self network w a ->
  base58check_reads P s d -> List.length d = 51%nat -> slice 0 5 d <> [x64; x3b; xf6; xa8; x9a] ->
  confirm_code P self pw s network detail = Raise (Lib CError (error_text "Invalid confirmation code prefix" (str "5") (bytes_repr (slice 0 5 d)))).
Proof.
  intros P self network w a s pw detail d HP HS D L F. to_code. destruct (session_net_sel _ _ _ _ HS) as (n & N).
  destruct (cut51 d L) as (p & f & ah & ent & b0 & q1 & q2 & -> & Lp & La & Le & L1 & L2).
  rewrite !(confirm_eq P HP _ _ _ _ _ _ _ _ _ _ _ _ _ pw _ N D) by assumption.
  destruct (bytes_eqb [x64; x3b; xf6; xa8; x9a] p) eqn:EP.
  - apply bytes_eqb_spec in EP. destruct F. subst p. reflexivity.
  - change (slice 0 5) with (@upto byte 5). rewrite upto_app by exact Lp. reflexivity.
Qed.

(** ** C42: flag bytes *)
Lemma flag_meaning_eq f lot c : flag_meaning f lot c -> lotb f = lot /\ compb f = c.
Proof.
  intros [(L & -> & ->)|(L & -> & C)].
  - destruct f; try (vm_compute in L; discriminate L); split; reflexivity.
  - assert (lotb f = false) by (destruct f; try reflexivity; destruct L; vm_compute; reflexivity). split; [assumption|].
    assert (E : compb f = true <-> In f [xe0; xe8; xf0; xf8]).
    { split; [destruct f; intros X; try (vm_compute in X; discriminate X); try (destruct L; vm_compute; reflexivity); cbn; tauto|].
      intros [<-|[<-|[<-|[<-|[]]]]]; reflexivity. }
    destruct (compb f), c; trivial; [symmetry; apply C, E; reflexivity|apply E, C; reflexivity].
Qed.
(** Every flag byte has a meaning, ... *)
Theorem C42_every_flag : forall f, exists lot c, flag_meaning f lot c.
Proof.
  intros f. exists (lotb f), (compb f). unfold flag_meaning, legal_ec_flag.
  destruct f; first [left; split; [vm_compute; reflexivity|split; reflexivity]
                    |right; split; [vm_compute; congruence|split; [reflexivity|cbn; split; [first [congruence|tauto]|intuition congruence]]]].
Qed.
(** ... and decrypt and confirm_code treat it exactly as the BIP38 flag with that
    meaning; no flag is rejected as such. *)
Theorem C42_decrypt_flag : forall P self network w a f lot c rest s s' pw detail, prims_ok P -> session self network w a ->
  List.length rest = 40%nat -> flag_meaning f lot c ->
  base58_reads s ([x01; x43] ++ [f] ++ rest) ->
  base58_reads s' ([x01; x43] ++ [ec_flag lot c] ++ rest) ->
  decrypt P self s pw network detail = decrypt P self s' pw network detail.
Proof.
  intros P self network w a f lot c rest s s' pw detail HP HS L M D D'. to_code. destruct (session_net_sel _ _ _ _ HS) as (n & N).
  destruct (flag_meaning_eq _ _ _ M) as [M1 M2].
  destruct (cut43 ([x01; x43] ++ [f] ++ rest) ltac:(cbn [app List.length]; lia)) as (p & f' & ah & e1 & e2 & ck & E & Lp & La & L1 & L2 & Lc).
  destruct p as [|p0 [|p1 [|]]]; try discriminate. cbn [app] in E. assert (E0 : f' = f /\ p0 = x01 /\ p1 = x43 /\ rest = ah ++ e1 ++ e2 ++ ck) by (inversion E; auto).
  destruct E0 as (-> & -> & -> & ->). clear E.
  rewrite (decrypt_eq P HP _ _ _ _ _ _ _ _ _ _ _ _ pw detail N D) by trivial.
  rewrite (decrypt_eq P HP _ _ _ _ _ _ _ _ _ _ _ _ pw detail N D') by trivial.
  replace (bytes_eqb [x01; x43] [x01; x42]) with false by reflexivity. replace (bytes_eqb [x01; x43] [x01; x43]) with true by reflexivity.
  unfold decrypt_ec_result. change (ec_flag lot c) with (flag_ec lot c). 
  replace (lotb (flag_ec lot c)) with (lotb f) by (rewrite flag_ec_lot; exact M1). replace (compb (flag_ec lot c)) with (compb f) by (rewrite flag_ec_comp; exact M2). reflexivity.
Qed.
Theorem C42_confirm_flag : forall P self network w a f lot c rest s s' pw detail, prims_ok P -> session self network w a ->
  List.length rest = 45%nat -> flag_meaning f lot c ->
  base58check_reads P s ([x64; x3b; xf6; xa8; x9a] ++ [f] ++ rest) ->
  base58check_reads P s' ([x64; x3b; xf6; xa8; x9a] ++ [ec_flag lot c] ++ rest) ->
  confirm_code P self pw s network detail = confirm_code P self pw s' network detail.
Proof.
  intros P self network w a f lot c rest s s' pw detail HP HS L M D D'. to_code. destruct (session_net_sel _ _ _ _ HS) as (n & N).
  destruct (flag_meaning_eq _ _ _ M) as [M1 M2].
  destruct (cut51 ([x64; x3b; xf6; xa8; x9a] ++ [f] ++ rest) ltac:(cbn [app List.length]; lia)) as (p & f' & ah & ent & b0 & q1 & q2 & E & Lp & La & Le & L1 & L2).
  destruct p as [|p0 [|p1 [|p2 [|p3 [|p4 [|]]]]]]; try discriminate. cbn [app] in E.
  assert (E0 : f' = f /\ [p0; p1; p2; p3; p4] = [x64; x3b; xf6; xa8; x9a] /\ rest = ah ++ ent ++ [b0] ++ q1 ++ q2) by (inversion E; auto).
  destruct E0 as (-> & Ep & ->). clear E Ep p0 p1 p2 p3 p4 Lp.
  rewrite (confirm_eq P HP _ _ _ _ _ _ _ _ _ _ _ _ _ pw detail N D) by trivial.
  rewrite (confirm_eq P HP _ _ _ _ _ _ _ _ _ _ _ _ _ pw detail N D') by trivial.
  unfold confirm_core. change (ec_flag lot c) with (flag_ec lot c). 
  replace (lotb (flag_ec lot c)) with (lotb f) by (rewrite flag_ec_lot; exact M1). replace (compb (flag_ec lot c)) with (compb f) by (rewrite flag_ec_comp; exact M2). reflexivity.
Qed.
