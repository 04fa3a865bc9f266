(** * C82: what the library writes, every conforming program reads (bip38.py) *)
From Coq Require Import Lia ZifyBool ZifyNat ZifyN.
From Verif Require Import Py Prims Const Spec PyFacts Utils UtilsFacts Base58 Base58Facts
  Curve SpecCurve CurveFacts CurveFacts2 Secp256k1 SecpFacts Cryptocurrencies Wif Bip38 SpecBip38 SpecRecords SpecSession SpecInterop SpecReader
  CodecFacts CodecFacts2 Bip38Facts Bip38Facts2 Sessions RecordFacts ECFacts Toy PropEncrypt PropIntermediate PropDecrypt PropCreate PropEC SpecReads ReadFacts
  PropInterop PropUnique PropErrors PropRecreate.

Lemma address_hash_length P s : prims_ok P -> List.length (address_hash P s) = 4%nat.
Proof. intros HP. apply checksum4_length, HP. Qed.
Lemma check_text_inj P d d' s : prims_ok P -> base58check_text P bitcoin_alphabet d s -> base58check_text P bitcoin_alphabet d' s -> d = d'.
Proof. intros HP T T'. apply b58c_unique in T, T'. apply (b58c_inj P); [exact HP|congruence]. Qed.
Lemma passphrase_unique P pw b b' : passphrase_bytes P pw b -> passphrase_bytes P pw b' -> b = b'.
Proof. unfold passphrase_bytes. congruence. Qed.
Lemma mask_unique P lot pwb ent ah S S' : seed_mask P lot pwb ent ah S -> seed_mask P lot pwb ent ah S' -> S = S'.
Proof. rewrite !seed_mask_iff. intros [_ ->] [_ ->]. reflexivity. Qed.
Lemma ec_key_unique P lot pwb ent seed k k' : ec_private_key P lot pwb ent seed k -> ec_private_key P lot pwb ent seed k' -> k = k'.
Proof. rewrite !ec_private_key_iff. intros (_ & _ & ->) (_ & _ & ->). reflexivity. Qed.

(** ** The writer and the reader of the BIP agree, on all texts *)
(** These are statements about the specification alone. *)
Theorem C82_specifications_plain : forall P a c k pw s, prims_ok P -> 0 <= a ->
  (plain_encrypted P a c k pw s <-> standard_reads_plain P a s pw c k).
Proof.
  intros P a c k pw s HP Ha. split.
  - intros R. apply plain_encrypted_iff in R; [|exact Ha]. destruct R as (K & pwb & B & ->). destruct (key_okb_range _ K) as [Lk _].
    set (ah := ahash P a c (pubof (be2z k))). assert (La : List.length ah = 4%nat) by apply (ahash_length P HP).
    destruct (body_no_ec_split P HP c ah k pwb La Lk) as (e1 & e2 & E & L1 & L2 & X).
    exists pwb, ah, e1, e2, (addr P a c (pubof (be2z k))). split; [exact La|]. split; [exact L1|]. split; [exact L2|]. split; [rewrite E; apply b58c_text|].
    split; [exact B|]. split; [symmetry; exact X|]. split; [apply key_address_iff; auto|reflexivity].
  - intros (pwb & ah & h1 & h2 & address & La & L1 & L2 & T & B & EK & A & EA). exists address, pwb. split; [exact A|]. split; [exact B|].
    rewrite EA. unfold plain_record. cbv zeta. set (S := strong_kdf P pwb ah). assert (LS : List.length S = 64%nat) by apply (scrypt_len P HP).
    assert (LK : List.length (slice 32 64 S) = 32%nat) by (rewrite slice_length; lia).
    assert (LA : List.length (slice 0 16 S) = 16%nat) by (rewrite slice_length; lia).
    assert (LB : List.length (slice 16 32 S) = 16%nat) by (rewrite slice_length; lia).
    assert (D1 : List.length (h_aes_dec P (slice 32 64 S) h1) = 16%nat) by (apply (aes_dec_len P HP); assumption).
    assert (D2 : List.length (h_aes_dec P (slice 32 64 S) h2) = 16%nat) by (apply (aes_dec_len P HP); assumption).
    assert (EK' : k = xor (h_aes_dec P (slice 32 64 S) h1) (slice 0 16 S) ++ xor (h_aes_dec P (slice 32 64 S) h2) (slice 16 32 S)).
    { rewrite EK. unfold plain_unmask. cbv zeta. fold S. rewrite <- (slice_app2 S), xor_app by congruence. reflexivity. }
    assert (X1 : List.length (xor (h_aes_dec P (slice 32 64 S) h1) (slice 0 16 S)) = 16%nat) by (rewrite xor_length; congruence).
    assert (X2 : List.length (xor (h_aes_dec P (slice 32 64 S) h2) (slice 16 32 S)) = 16%nat) by (rewrite xor_length; congruence).
    assert (S1 : slice 0 16 k = xor (h_aes_dec P (slice 32 64 S) h1) (slice 0 16 S)) by (rewrite EK'; apply (upto_app 16), X1).
    assert (S2 : slice 16 32 k = xor (h_aes_dec P (slice 32 64 S) h2) (slice 16 32 S)).
    { rewrite EK'. rewrite (slice_to_end 16 32) by (rewrite app_length; lia). apply (from_app 16), X1. }
    rewrite S1, S2, !xor_cancel by congruence. rewrite !aes_enc_dec by assumption. exact T.
Qed.

(** the blocks of the seed *)
Section Blocks.
Variable P : prims.
Hypothesis HP : prims_ok P.
Variable S : bytes.
Hypothesis LS : List.length S = 64%nat.
Let LK : List.length (slice 32 64 S) = 32%nat.
Proof. rewrite slice_length; lia. Qed.
Let LA : List.length (slice 0 16 S) = 16%nat.
Proof. rewrite slice_length; lia. Qed.
Let LB : List.length (slice 16 32 S) = 16%nat.
Proof. rewrite slice_length; lia. Qed.
Lemma blocks_length seed : List.length seed = 24%nat -> List.length (seed_block_1 P S seed) = 16%nat /\ List.length (seed_block_2 P S seed) = 16%nat.
Proof.
  intros Ls. assert (L1 : List.length (seed_block_1 P S seed) = 16%nat).
  { apply (aes_enc_len P HP); [exact LK|]. rewrite xor_length; rewrite slice_length; lia. }
  split; [exact L1|]. apply (aes_enc_len P HP); [exact LK|]. rewrite xor_length; rewrite app_length, !slice_length; lia.
Qed.
Lemma standard_seed_back seed : List.length seed = 24%nat ->
  standard_seed P S (slice 0 8 (seed_block_1 P S seed)) (seed_block_2 P S seed) = seed.
Proof.
  intros Ls. destruct (blocks_length seed Ls) as [L1 _].
  assert (Lm : List.length (slice 8 16 (seed_block_1 P S seed) ++ slice 16 24 seed) = 16%nat) by (rewrite app_length, !slice_length; lia).
  assert (L8 : List.length (slice 8 16 (seed_block_1 P S seed)) = 8%nat) by (rewrite slice_length; lia).
  assert (E2 : ec_block_2 P S (seed_block_2 P S seed) = slice 8 16 (seed_block_1 P S seed) ++ slice 16 24 seed).
  { unfold ec_block_2. unfold seed_block_2. rewrite (aes_dec_enc P HP) by (trivial; rewrite xor_length; congruence). apply xor_cancel. congruence. }
  unfold standard_seed. rewrite E2.
  replace (slice 0 8 (slice 8 16 (seed_block_1 P S seed) ++ slice 16 24 seed)) with (slice 8 16 (seed_block_1 P S seed)) by (symmetry; apply (upto_app 8), L8).
  rewrite (slice_to_end 8 16 (slice 8 16 (seed_block_1 P S seed) ++ slice 16 24 seed) Lm).
  replace (from 8 (slice 8 16 (seed_block_1 P S seed) ++ slice 16 24 seed)) with (slice 16 24 seed) by (symmetry; apply (from_app 8), L8).
  unfold ec_block_1. replace (slice 0 8 (seed_block_1 P S seed) ++ slice 8 16 (seed_block_1 P S seed)) with (seed_block_1 P S seed).
  2:{ rewrite (slice_to_end 8 16 _ L1). symmetry. apply (upto_from 8). }
  assert (Lu : List.length (slice 0 16 seed) = 16%nat) by (rewrite slice_length; lia).
  unfold seed_block_1. rewrite (aes_dec_enc P HP) by (trivial; rewrite xor_length; congruence). rewrite xor_cancel by congruence.
  rewrite (slice_to_end 16 24 seed Ls). apply (upto_from 16).
Qed.
Section Read.
Variables h e2 : bytes.
Hypothesis Lh : List.length h = 8%nat.
Hypothesis L2 : List.length e2 = 16%nat.
Lemma read_block_2 : List.length (ec_block_2 P S e2) = 16%nat.
Proof. unfold ec_block_2. rewrite xor_length; rewrite (aes_dec_len P HP); trivial. congruence. Qed.
Lemma read_half : List.length (slice 0 8 (ec_block_2 P S e2)) = 8%nat.
Proof. pose proof read_block_2. rewrite slice_length; lia. Qed.
Lemma read_block_1 : List.length (ec_block_1 P S h (slice 0 8 (ec_block_2 P S e2))) = 16%nat.
Proof.
  unfold ec_block_1. assert (L : List.length (h ++ slice 0 8 (ec_block_2 P S e2)) = 16%nat) by (rewrite app_length, read_half; lia).
  rewrite xor_length; rewrite (aes_dec_len P HP); trivial. congruence.
Qed.
Lemma standard_seed_length : List.length (standard_seed P S h e2) = 24%nat.
Proof. unfold standard_seed. pose proof read_block_2. rewrite app_length, read_block_1, slice_length; lia. Qed.
(** writing back what was read *)
Lemma standard_seed_forth : slice 0 8 (seed_block_1 P S (standard_seed P S h e2)) = h /\ seed_block_2 P S (standard_seed P S h e2) = e2.
Proof.
  pose proof read_block_2 as R2. pose proof read_half as R8. pose proof read_block_1 as R1. pose proof standard_seed_length as R.
  assert (B1 : seed_block_1 P S (standard_seed P S h e2) = h ++ slice 0 8 (ec_block_2 P S e2)).
  { unfold seed_block_1. replace (slice 0 16 (standard_seed P S h e2)) with (ec_block_1 P S h (slice 0 8 (ec_block_2 P S e2))) by (symmetry; apply (upto_app 16), R1).
    unfold ec_block_1. assert (Lx : List.length (h ++ slice 0 8 (ec_block_2 P S e2)) = 16%nat) by (rewrite app_length; lia).
    assert (Ld : List.length (h_aes_dec P (slice 32 64 S) (h ++ slice 0 8 (ec_block_2 P S e2))) = 16%nat) by (apply (aes_dec_len P HP); assumption).
    rewrite xor_cancel by congruence. apply aes_enc_dec; assumption. }
  split; [rewrite B1; apply (upto_app 8), Lh|]. unfold seed_block_2. rewrite B1.
  rewrite (slice_to_end 8 16 (h ++ slice 0 8 (ec_block_2 P S e2))) by (rewrite app_length; lia).
  replace (from 8 (h ++ slice 0 8 (ec_block_2 P S e2))) with (slice 0 8 (ec_block_2 P S e2)) by (symmetry; apply (from_app 8), Lh).
  rewrite (slice_to_end 16 24 _ R).
  replace (from 16 (standard_seed P S h e2)) with (slice 8 16 (ec_block_2 P S e2)) by (symmetry; apply (from_app 16), R1).
  rewrite (slice_to_end 8 16 _ R2).
  replace (slice 0 8 (ec_block_2 P S e2) ++ from 8 (ec_block_2 P S e2)) with (ec_block_2 P S e2) by (symmetry; apply (upto_from 8)).
  assert (Ld : List.length (h_aes_dec P (slice 32 64 S) e2) = 16%nat) by (apply (aes_dec_len P HP); assumption).
  unfold ec_block_2. rewrite xor_cancel by congruence. apply aes_enc_dec; assumption.
Qed.
End Read.
End Blocks.
Lemma mask_length P lot pwb ent ah S : prims_ok P -> seed_mask P lot pwb ent ah S -> List.length S = 64%nat.
Proof. intros HP (e & x & y & pp & _ & _ & _ & ->). apply (scrypt_len P HP). Qed.

Theorem C82_specifications_ec : forall P a lot c ent pw seed k s, prims_ok P ->
  (List.length ent = 8%nat /\ List.length seed = 24%nat /\ (exists S, ec_encrypted P a (ec_flag lot c) lot c ent pw seed k S s) <->
   standard_reads_ec P a s pw lot c ent seed k).
Proof.
  intros P a lot c ent pw seed k s HP. split.
  - intros (Le & Ls & S & pwb & e & x & y & pp & address & B & Sc & Q & SC & PK & KA & ES & T).
    assert (SM : seed_mask P lot pwb ent (address_hash P address) S) by (exists e, x, y, pp; auto).
    pose proof (mask_length _ _ _ _ _ _ HP SM) as LS. destruct (blocks_length P HP S LS seed Ls) as [L1 L2].
    exists pwb, (address_hash P address), (slice 0 8 (seed_block_1 P S seed)), (seed_block_2 P S seed), S, address.
    split; [apply address_hash_length, HP|]. split; [exact Le|]. split; [rewrite slice_length; lia|]. split; [exact L2|].
    split; [unfold ec_record in T; cbv zeta in T; rewrite <- ES in T; exact T|]. split; [exact B|]. split; [exact SM|].
    split; [symmetry; apply (standard_seed_back P HP S LS), Ls|]. auto.
  - intros (pwb & ah & h & e2 & S & address & La & Le & Lh & L2 & T & B & SM & Es & PK & KA & EA).
    pose proof (mask_length _ _ _ _ _ _ HP SM) as LS. split; [exact Le|]. split; [rewrite Es; apply (standard_seed_length P HP S LS h e2 Lh L2)|].
    destruct (standard_seed_forth P HP S LS h e2 Lh L2) as [F1 F2]. rewrite <- Es in F1, F2. exists S.
    destruct SM as (e & x & y & pp & Sc & Q & SC & ES). exists pwb, e, x, y, pp, address. do 6 (split; [assumption|]).
    split; [rewrite EA; exact ES|]. rewrite EA. unfold ec_record. cbv zeta. rewrite <- ES, F1, F2. exact T.
Qed.
(** At most one result. *)
Lemma cut_plain (f f' : byte) (ah ah' h1 h1' h2 h2' : bytes) :
  [x01; x42] ++ [f] ++ ah ++ h1 ++ h2 = [x01; x42] ++ [f'] ++ ah' ++ h1' ++ h2' ->
  List.length ah = List.length ah' -> List.length h1 = List.length h1' -> f = f' /\ ah = ah' /\ h1 = h1' /\ h2 = h2'.
Proof.
  intros E L1 L2. cbn [app] in E. injection E as Ef E. split; [exact Ef|]. apply app_inj_l in E; [|exact L1]. destruct E as [-> E].
  apply app_inj_l in E; [|exact L2]. destruct E as [-> ->]. auto.
Qed.
Lemma cut_ec (m m' : bytes) (f f' : byte) (ah ah' ent ent' h h' e e' : bytes) :
  m ++ [f] ++ ah ++ ent ++ h ++ e = m' ++ [f'] ++ ah' ++ ent' ++ h' ++ e' -> List.length m = List.length m' ->
  List.length ah = List.length ah' -> List.length ent = List.length ent' -> List.length h = List.length h' ->
  f = f' /\ ah = ah' /\ ent = ent' /\ h = h' /\ e = e'.
Proof.
  intros E L0 L1 L2 L3. apply app_inj_l in E; [|exact L0]. destruct E as [_ E]. cbn [app] in E. injection E as Ef E. split; [exact Ef|].
  apply app_inj_l in E; [|exact L1]. destruct E as [-> E]. apply app_inj_l in E; [|exact L2]. destruct E as [-> E].
  apply app_inj_l in E; [|exact L3]. destruct E as [-> ->]. auto.
Qed.
Lemma ec_flag_inj lot c lot' c' : ec_flag lot c = ec_flag lot' c' -> lot = lot' /\ c = c'.
Proof. destruct lot, c, lot', c'; intros H; try discriminate; auto. Qed.
Lemma reads_plain_unique P a s pw c k c' k' : prims_ok P ->
  standard_reads_plain P a s pw c k -> standard_reads_plain P a s pw c' k' -> c' = c /\ k' = k.
Proof.
  intros HP (pwb & ah & h1 & h2 & ad & La & L1 & L2 & T & B & EK & _) (pwb' & ah' & h1' & h2' & ad' & La' & L1' & L2' & T' & B' & EK' & _).
  pose proof (check_text_inj P _ _ _ HP T T') as E. apply cut_plain in E; [|congruence|congruence]. destruct E as (F & <- & <- & <-).
  rewrite <- (passphrase_unique _ _ _ _ B B') in EK'. split; [destruct c, c'; trivial; discriminate|congruence].
Qed.
Lemma reads_ec_unique P a s pw lot c ent seed k lot' c' ent' seed' k' : prims_ok P ->
  standard_reads_ec P a s pw lot c ent seed k -> standard_reads_ec P a s pw lot' c' ent' seed' k' ->
  lot' = lot /\ c' = c /\ ent' = ent /\ seed' = seed /\ k' = k.
Proof.
  intros HP (pwb & ah & h & e2 & S & ad & La & Le & Lh & L2 & T & B & SM & Es & PK & _) (pwb' & ah' & h' & e2' & S' & ad' & La' & Le' & Lh' & L2' & T' & B' & SM' & Es' & PK' & _).
  pose proof (check_text_inj P _ _ _ HP T T') as E. apply cut_ec in E; [|reflexivity|congruence|congruence|congruence]. destruct E as (F & <- & <- & <- & <-).
  apply ec_flag_inj in F. destruct F as [<- <-]. rewrite <- (passphrase_unique _ _ _ _ B B') in *. rewrite (mask_unique _ _ _ _ _ _ _ SM SM') in *.
  assert (seed' = seed) by congruence. subst seed'. rewrite H in *. rewrite (ec_key_unique _ _ _ _ _ _ _ PK PK'). auto.
Qed.

(** ** What the library writes *)
(** encrypt: every text it returns is read as the key of the WIF, and as nothing
    else - also for the keys whose first byte is zero, which decrypt refuses (C12). *)
Theorem C82_encrypt : forall P self network w a c k s pw e, prims_ok P -> session self network w a ->
  List.length k = 32%nat -> wif_text P w c k s -> encrypt P self s pw network = Ok e ->
  standard_reads_plain P a e pw c k /\
  forall c' k', standard_reads_plain P a e pw c' k' -> c' = c /\ k' = k.
Proof.
  intros P self network w a c k s pw e HP HS Lk T E. pose proof (C14_encrypt_wif _ _ _ _ _ _ _ _ _ _ HP HS Lk T E) as R.
  destruct (session_net_sel _ _ _ _ HS) as (n & N). apply (C82_specifications_plain P a c k pw e HP (ns_a _ _ _ _ _ N)) in R.
  split; [exact R|]. intros c' k' R'. exact (reads_plain_unique _ _ _ _ _ _ _ _ HP R R').
Qed.
(** create_new_encrypted_wif, with a seed of 24 bytes: the encrypted key is read
    as the key of the address returned - also when decrypt refuses it or reports
    another seed (C25). *)
Theorem C82_create : forall P random self network w a lot c ent pw code arg seed r,
  prims_ok P -> session self network w a -> argument_bytes random arg seed -> List.length seed = 24%nat -> List.length ent = 8%nat ->
  passphrase_code P lot ent pw code -> create_new_encrypted_wif P random self code (wif_name c) arg network = Ok r ->
  exists k, key_address P a c k (n_address r) /\ standard_reads_ec P a (n_encrypted_wif r) pw lot c ent seed k /\
  forall lot' c' ent' seed' k', standard_reads_ec P a (n_encrypted_wif r) pw lot' c' ent' seed' k' ->
    lot' = lot /\ c' = c /\ ent' = ent /\ seed' = seed /\ k' = k.
Proof.
  intros P random self network w a lot c ent pw code arg seed r HP HS A Ls Le T E.
  pose proof T as (pwb & e & x & y & PB & Sc & Q & (pp & SC & T')).
  destruct (C24_key_exists P random self network w a lot c ent pw pwb code arg seed r HP HS A Le PB T E) as (k & S & PK & KA & SM).
  exists k. split; [exact KA|].
  assert (O : on_curve (Aff x y)).
  { destruct (scalar_be2z _ _ Sc) as [Ee K]. destruct (key_okb_range _ K) as [_ R]. rewrite <- Ee in R. apply public_point_iff in Q; [|exact R].
    destruct (pubof_ok _ R) as (_ & _ & O). rewrite Q in O. exact O. }
  pose proof PK as (_ & eb & _ & Sb & _). destruct (scalar_be2z _ _ Sb) as [Eb Kb]. destruct (key_okb_range _ Kb) as [_ Rb]. rewrite <- Eb in Rb.
  pose proof (pubof_public eb Rb) as QB. destruct (pubof_ok _ Rb) as (_ & _ & OB).
  assert (SB : sec1_compressed (pk_x (pubof eb)) (pk_y (pubof eb)) (ser true (pubof eb))) by apply (ser_serialised true _ OB).
  assert (CT : code_text P lot ent x y code) by (exists pp; auto).
  destruct (C28_records P random self network w a lot c ent x y pp code arg seed r eb _ _ _ HP HS A Ls Le O SC CT Sb QB SB E) as [R _]. cbv zeta in R.
  assert (R' : standard_reads_ec P a (n_encrypted_wif r) pw lot c ent seed k).
  { apply C82_specifications_ec; [exact HP|]. split; [exact Le|]. split; [exact Ls|].
    exists (light_kdf P pp (address_hash P (n_address r)) ent), pwb, e, x, y, pp, (n_address r). auto 10. }
  split; [exact R'|]. intros lot' c' ent' seed' k' H. exact (reads_ec_unique _ _ _ _ _ _ _ _ _ _ _ _ _ _ HP R' H).
Qed.
(** With a seed of any other length the texts are not portable: a conforming
    reader never finds that seed, and finds the library's key only if two
    different seeds have the same double SHA-256. *)
Theorem C82_odd_seed : forall P random self network w a lot c ent pw pwb code arg seed r k,
  prims_ok P -> session self network w a -> argument_bytes random arg seed -> List.length seed <> 24%nat -> List.length ent = 8%nat ->
  passphrase_bytes P pw pwb -> passphrase_code P lot ent pw code -> create_new_encrypted_wif P random self code (wif_name c) arg network = Ok r ->
  ec_private_key P lot pwb ent seed k ->
  forall lot' c' ent' seed' k', standard_reads_ec P a (n_encrypted_wif r) pw lot' c' ent' seed' k' ->
    lot' = lot /\ c' = c /\ ent' = ent /\ seed' <> seed /\ (k' = k -> sha256d P seed' = sha256d P seed).
Proof.
  intros P random self network w a lot c ent pw pwb code arg seed r k HP HS A Ls Le PB T E PK lot' c' ent' seed' k' R.
  destruct (session_net_sel _ _ _ _ HS) as (n & N). apply argument_entropy in A.
  destruct (owner_creation P HP random self network n w a lot c ent pw pwb code arg seed r N A Le PB T E) as (K & Kb & cr & CR & V & _).
  destruct (creation_len P HP _ _ _ _ _ _ _ _ CR) as (La & LS & L1 & L2 & _).
  pose proof R as (pwb' & ah & h & e2 & S & ad & La' & Le' & Lh' & L2' & T' & B' & SM & Es & PK' & _).
  assert (T0 : base58check_text P bitcoin_alphabet ([x01; x43] ++ [flag_ec lot c] ++ cr_ah cr ++ ent ++ upto 8 (cr_E1 cr) ++ cr_E2 cr) (n_encrypted_wif r)).
  { rewrite V. apply b58c_text. }
  pose proof (check_text_inj P _ _ _ HP T0 T') as EQ. apply cut_ec in EQ; [|reflexivity|congruence|congruence|rewrite upto_length; lia].
  destruct EQ as (F & _ & <- & _ & _). change (flag_ec lot c) with (ec_flag lot c) in F. apply ec_flag_inj in F. destruct F as [<- <-].
  do 3 (split; [reflexivity|]). apply C82_specifications_ec in R; [|exact HP]. destruct R as (_ & Ls' & _).
  split; [intros ->; contradiction|]. intros ->. rewrite (passphrase_unique _ _ _ _ PB B') in *.
  exact (same_key_same_hash _ _ _ _ _ _ _ PK PK').
Qed.

(** ** Confirmation codes *)
Lemma confirms_unique P a s pw lot c ent ad lot' c' ent' ad' : prims_ok P -> 0 <= a ->
  standard_confirms P a s pw lot c ent ad -> standard_confirms P a s pw lot' c' ent' ad' ->
  lot' = lot /\ c' = c /\ ent' = ent /\ ad' = ad.
Proof.
  intros HP Ha (pwb & ah & b0 & q1 & q2 & e & S & bx & by_ & x & y & La & Le & L1 & L2 & T & B & Sc & SM & O & SB & M & A & _)
    (pwb' & ah' & b0' & q1' & q2' & e' & S' & bx' & by_' & x' & y' & La' & Le' & L1' & L2' & T' & B' & Sc' & SM' & O' & SB' & M' & A' & _).
  pose proof (check_text_inj P _ _ _ HP T T') as E. apply cut_ec in E; [|reflexivity|congruence|congruence|reflexivity]. destruct E as (F & <- & <- & Eb & Eq).
  injection Eb as <-. apply app_inj_l in Eq; [|congruence]. destruct Eq as [<- <-].
  apply ec_flag_inj in F. destruct F as [<- <-]. rewrite <- (passphrase_unique _ _ _ _ B B') in *. rewrite (mask_unique _ _ _ _ _ _ _ SM SM') in *.
  do 3 (split; [reflexivity|]). destruct (scalar_be2z _ _ Sc) as [-> K]. destruct (scalar_be2z _ _ Sc') as [-> _]. destruct (key_okb_range _ K) as [_ R].
  pose proof (serialised_unique true {| pk_x := bx; pk_y := by_ |} _ O SB) as V1. pose proof (serialised_unique true {| pk_x := bx'; pk_y := by_' |} _ O' SB') as V2.
  pose proof (from_bytes_ser {| pk_x := bx; pk_y := by_ |} O) as F1. pose proof (from_bytes_ser {| pk_x := bx'; pk_y := by_' |} O') as F2.
  rewrite <- V1 in F1. rewrite <- V2 in F2. rewrite F1 in F2. injection F2 as <- <-.
  apply (mulk_multiple {| pk_x := bx; pk_y := by_ |} _ _ _ O R) in M, M'. destruct (mulk_ok {| pk_x := bx; pk_y := by_ |} _ O R) as (_ & OK & _).
  rewrite M in M', OK. injection M' as <- <-.
  rewrite (address_text_unique _ _ _ {| pk_x := x; pk_y := y |} _ OK A). apply (address_text_unique _ _ _ {| pk_x := x; pk_y := y |} _ OK A').
Qed.
(** The reader of the BIP confirms every code written as the BIP says. *)
Theorem C82_specifications_confirmation : forall P a lot c ent pw seed B address s, prims_ok P -> 0 <= a -> List.length ent = 8%nat ->
  confirmation_text P a (ec_flag lot c) lot c ent pw seed B address s -> standard_confirms P a s pw lot c ent address.
Proof.
  intros P a lot c ent pw seed B address s HP Ha Le (pwb & e & x & y & pp & eb & bx & by_ & k & PB & Sc & Q & SC & Sb & QB & SB & PK & KA & T).
  set (ah := address_hash P address). assert (La : List.length ah = 4%nat) by apply (address_hash_length P _ HP).
  assert (SM : seed_mask P lot pwb ent ah (light_kdf P pp ah ent)) by (exists e, x, y, pp; auto).
  pose proof (mask_length _ _ _ _ _ _ HP SM) as LS. unfold confirmation_record in T. cbv zeta in T. fold ah in T. set (S := light_kdf P pp ah ent) in *. clearbody S.
  destruct (scalar_be2z _ _ Sc) as [Ee K]. destruct (key_okb_range _ K) as [_ R]. rewrite <- Ee in R.
  destruct (scalar_be2z _ _ Sb) as [Eb Kb]. destruct (key_okb_range _ Kb) as [_ Rb]. rewrite <- Eb in Rb.
  apply public_point_iff in QB; [|exact Rb]. destruct (pubof_ok _ Rb) as (_ & _ & OB). pose proof OB as OB'. rewrite QB in OB'.
  assert (LBB : List.length B = 33%nat) by (rewrite (serialised_unique true {| pk_x := bx; pk_y := by_ |} B OB' SB); apply ser_true_length).
  assert (LK : List.length (slice 32 64 S) = 32%nat) by (rewrite slice_length; lia).
  assert (LA : List.length (slice 0 16 S) = 16%nat) by (rewrite slice_length; lia).
  assert (LB : List.length (slice 16 32 S) = 16%nat) by (rewrite slice_length; lia).
  assert (X1 : List.length (slice 1 17 B) = 16%nat) by (rewrite slice_length; lia).
  assert (X2 : List.length (slice 17 33 B) = 16%nat) by (rewrite slice_length; lia).
  assert (Y1 : List.length (xor (slice 1 17 B) (slice 0 16 S)) = 16%nat) by (rewrite xor_length; congruence).
  assert (Y2 : List.length (xor (slice 17 33 B) (slice 16 32 S)) = 16%nat) by (rewrite xor_length; congruence).
  pose proof PK as PK0. apply ec_private_key_iff in PK. destruct PK as (_ & _ & Vk). apply key_address_iff in KA; [|exact Ha]. destruct KA as [Kk EAd].
  rewrite owner_factor_eq in Ee. rewrite <- Ee, <- Eb in Vk.
  assert (Ek : be2z k = (e * eb) mod G_order) by (rewrite Vk; apply range_256, mul_mod_range; assumption).
  assert (M : mulk {| pk_x := bx; pk_y := by_ |} e = pubof (be2z k)).
  { rewrite <- QB, Ek, Z.mul_comm. apply mulk_pubof; assumption. }
  destruct (key_okb_range _ Kk) as [_ Rk]. destruct (pubof_ok _ Rk) as (_ & _ & OK).
  exists pwb, ah, (byte_xor (nth 0 B x00) (bit0 (nth 63 S x00))), (h_aes_enc P (slice 32 64 S) (xor (slice 1 17 B) (slice 0 16 S))),
    (h_aes_enc P (slice 32 64 S) (xor (slice 17 33 B) (slice 16 32 S))), e, S, bx, by_, (pk_x (pubof (be2z k))), (pk_y (pubof (be2z k))).
  split; [exact La|]. split; [exact Le|]. split; [apply (aes_enc_len P HP); assumption|]. split; [apply (aes_enc_len P HP); assumption|].
  split; [exact T|]. split; [exact PB|]. split; [exact Sc|]. split; [exact SM|]. split; [exact OB'|]. split; [|split; [|split]].
  - unfold standard_point. cbv zeta. rewrite !(aes_dec_enc P HP) by assumption. rewrite !xor_cancel by congruence. rewrite byte_xor_cancel.
    rewrite (slice_to_end 17 33 B LBB). replace (nth 0 B x00) with (first_byte B) by (destruct B; reflexivity). rewrite <- (point_split B LBB). exact SB.
  - apply (mulk_multiple {| pk_x := bx; pk_y := by_ |} _ _ _ OB' R). rewrite M. destruct (pubof (be2z k)); reflexivity.
  - rewrite EAd. apply addr_text; assumption.
  - reflexivity.
Qed.
(** create_new_encrypted_wif, with a seed of 24 bytes: the confirmation code
    confirms the address returned to its owner, and no other - also when
    confirm_code refuses it (C26). *)
Theorem C82_confirmation : forall P random self network w a lot c ent pw code arg seed r,
  prims_ok P -> session self network w a -> argument_bytes random arg seed -> List.length seed = 24%nat -> List.length ent = 8%nat ->
  passphrase_code P lot ent pw code -> create_new_encrypted_wif P random self code (wif_name c) arg network = Ok r ->
  standard_confirms P a (n_confirmation_code r) pw lot c ent (n_address r) /\
  forall lot' c' ent' address', standard_confirms P a (n_confirmation_code r) pw lot' c' ent' address' ->
    lot' = lot /\ c' = c /\ ent' = ent /\ address' = n_address r.
Proof.
  intros P random self network w a lot c ent pw code arg seed r HP HS A Ls Le T E.
  pose proof T as (pwb & e & x & y & PB & Sc & Q & (pp & SC & T')). destruct (session_net_sel _ _ _ _ HS) as (n & N). pose proof (ns_a _ _ _ _ _ N) as Ha.
  destruct (C24_key_exists P random self network w a lot c ent pw pwb code arg seed r HP HS A Le PB T E) as (k & S & PK & KA & SM).
  assert (O : on_curve (Aff x y)).
  { destruct (scalar_be2z _ _ Sc) as [Ee K]. destruct (key_okb_range _ K) as [_ R]. rewrite <- Ee in R. apply public_point_iff in Q; [|exact R].
    destruct (pubof_ok _ R) as (_ & _ & O). rewrite Q in O. exact O. }
  pose proof PK as (_ & eb & _ & Sb & _). destruct (scalar_be2z _ _ Sb) as [Eb Kb]. destruct (key_okb_range _ Kb) as [_ Rb]. rewrite <- Eb in Rb.
  pose proof (pubof_public eb Rb) as QB. destruct (pubof_ok _ Rb) as (_ & _ & OB).
  assert (SB : sec1_compressed (pk_x (pubof eb)) (pk_y (pubof eb)) (ser true (pubof eb))) by apply (ser_serialised true _ OB).
  assert (CT : code_text P lot ent x y code) by (exists pp; auto).
  destruct (C28_records P random self network w a lot c ent x y pp code arg seed r eb _ _ _ HP HS A Ls Le O SC CT Sb QB SB E) as (_ & R & _). cbv zeta in R.
  assert (R' : standard_confirms P a (n_confirmation_code r) pw lot c ent (n_address r)).
  { apply (C82_specifications_confirmation P a lot c ent pw seed (ser true (pubof eb)) (n_address r) _ HP Ha Le).
    exists pwb, e, x, y, pp, eb, (pk_x (pubof eb)), (pk_y (pubof eb)), k. auto 15. }
  split; [exact R'|]. intros lot' c' ent' ad' H. exact (confirms_unique _ _ _ _ _ _ _ _ _ _ _ _ HP Ha R' H).
Qed.

(** ** What the library reads *)
(** On a text with a correct checksum, decrypt never returns anything but what
    the BIP's reader finds: without EC multiplication ... *)
Theorem C82_decrypt_plain : forall P self network w a s pw x d, prims_ok P -> session self network w a ->
  base58check_text P bitcoin_alphabet x s -> decrypt P self s pw network true = Ok (DDetail d) -> d_seed d = None ->
  exists c k, standard_reads_plain P a s pw c k /\ describes P w a c k d /\ first_byte k <> x00.
Proof.
  intros P self network w a s pw x d HP HS T E Sd. destruct (session_net_sel _ _ _ _ HS) as (n & N). pose proof (ns_a _ _ _ _ _ N) as Ha.
  assert (D : base58_reads s (x ++ checksum4 P x)).
  { apply reads58. apply b58c_unique in T. rewrite T. unfold b58c. change bitcoin_alphabet with base58_alphabet. apply decode_b58. }
  destruct (C16_decrypt_sound P self network w a s pw d HP HS E) as (raw & k0 & c0 & D' & L & _).
  assert (raw = x ++ checksum4 P x) by (apply reads58 in D, D'; congruence). subst raw. clear D'.
  pose proof (checksum4_length P x HP) as Lc. rewrite app_length, Lc in L.
  destruct (C16_decrypt_sound_mode P self network w a s pw d _ HP HS E D) as [(M1 & (c & M2 & _) & _)|(M1 & lot & pwb & seed & e1 & e2 & k & _ & S1 & _)]; [|congruence].
  destruct (cut43 (x ++ checksum4 P x)) as (p & f & ah & h1 & h2 & ck & EX & Lp & La & L1 & L2 & Lck); [rewrite app_length; lia|].
  rewrite EX in M1, M2. rewrite slice_02 in M1 by assumption. rewrite nth_2 in M2 by assumption. subst p f.
  assert (Ex : x = [x01; x42] ++ [plain_flag c] ++ ah ++ h1 ++ h2 /\ checksum4 P x = ck).
  { apply app_inj_r; [congruence|]. rewrite EX, <- !app_assoc. reflexivity. }
  destruct Ex as [Ex Ec]. rewrite EX in D.
  destruct (utf8_encode (h_nfc P pw)) as [pwb|] eqn:B.
  2:{ exfalso. assert (NB : forall b, ~ passphrase_bytes P pw b) by (intros b Hb; unfold passphrase_bytes in Hb; congruence).
      rewrite (C50_not_encodable P self network w a (ah ++ h1 ++ h2 ++ ck) s pw true HP HS) in E; [discriminate| |rewrite !app_length; lia|exact NB].
      left. exists c. exact D. }
  destruct (C50_plain_outcome P self network w a c ah h1 h2 ck s pw pwb true HP HS D La L1 L2 Lck B) as (O1 & O2 & O3). cbv zeta in O1, O2, O3.
  set (k := plain_unmask P pwb ah h1 h2) in *.
  assert (R : 1 <= be_value k < secp_n).
  { destruct (Z.eq_dec (be_value k) 0) as [Z|Z]; [rewrite (O1 (or_introl Z)) in E; discriminate|].
    destruct (Z_lt_le_dec (be_value k) secp_n) as [Z'|Z']; [|rewrite (O1 (or_intror Z')) in E; discriminate].
    pose proof (be2z_bound k). rewrite be_value_be2z in *. lia. }
  destruct (Byte.byte_eq_dec (first_byte k) x00) as [Z|Z]; [rewrite (O2 R Z) in E; discriminate|].
  destruct (O3 R Z) as (address & KA & W1 & W2).
  destruct (list_eq_dec Byte.byte_eq_dec (address_hash P address) ah) as [EH|EH]; [|rewrite (W1 EH) in E; discriminate].
  destruct (W2 EH) as (d' & Dd & _ & _ & _ & E'). rewrite E' in E. assert (Ed : d' = d) by congruence. subst d'.
  exists c, k. split; [|split; [exact Dd|exact Z]]. exists pwb, ah, h1, h2, address. do 3 (split; [assumption|]). split; [rewrite <- Ex; exact T|]. auto.
Qed.
(** ... and with it, when the flag is one of the four of the BIP and the seed
    reported has 24 bytes.  (decrypt also reports shorter seeds: C30.) *)
Theorem C82_decrypt_ec : forall P self network w a lot c body s pw d seed, prims_ok P -> session self network w a ->
  base58check_text P bitcoin_alphabet ([x01; x43] ++ [ec_flag lot c] ++ body) s -> List.length body = 36%nat ->
  decrypt P self s pw network true = Ok (DDetail d) -> d_seed d = Some (hex seed) -> List.length seed = 24%nat ->
  exists k, standard_reads_ec P a s pw lot c (slice 4 12 body) seed k /\ describes P w a c k d /\
    lot_report lot (slice 4 12 body) (d_lot d) (d_sequence d).
Proof.
  intros P self network w a lot c body s pw d seed HP HS T Lb E Sd Ls. destruct (session_net_sel _ _ _ _ HS) as (n & N). pose proof (ns_a _ _ _ _ _ N) as Ha.
  destruct (cut 4 body ltac:(lia)) as (ah & b1 & -> & La). rewrite app_length in Lb. destruct (cut 8 b1 ltac:(lia)) as (ent & b2 & -> & Le). rewrite app_length in Lb.
  destruct (cut 8 b2 ltac:(lia)) as (h & e2 & -> & Lh). rewrite app_length in Lb. assert (L2 : List.length e2 = 16%nat) by lia.
  assert (Es : slice 4 12 (ah ++ ent ++ h ++ e2) = ent).
  { unfold slice. replace (skipn 4 (ah ++ ent ++ h ++ e2)) with (ent ++ h ++ e2) by (symmetry; apply (from_app 4), La). apply (upto_app 8), Le. }
  rewrite Es.
  set (x := [x01; x43] ++ [ec_flag lot c] ++ ah ++ ent ++ h ++ e2) in *. pose proof (checksum4_length P x HP) as Lc.
  assert (D : base58_reads s ([x01; x43] ++ [ec_flag lot c] ++ ah ++ ent ++ h ++ e2 ++ checksum4 P x)).
  { apply reads58. apply b58c_unique in T. rewrite T. unfold b58c. change bitcoin_alphabet with base58_alphabet. rewrite decode_b58. unfold x at 1. rewrite <- !app_assoc. reflexivity. }
  destruct (utf8_encode (h_nfc P pw)) as [pwb|] eqn:B.
  2:{ exfalso. assert (NB : forall b, ~ passphrase_bytes P pw b) by (intros b Hb; unfold passphrase_bytes in Hb; congruence).
      rewrite (C50_not_encodable P self network w a (ah ++ ent ++ h ++ e2 ++ checksum4 P x) s pw true HP HS) in E; [discriminate| |rewrite !app_length; lia|exact NB].
      right. exists (ec_flag lot c). exact D. }
  destruct (decrypted_record P self network w a lot c ah ent h e2 _ s pw pwb d seed HP HS D La Le Lh L2 Lc B E Sd Ls) as (k & S & SM & PK & Dd & EA & LR & B1 & B2 & LS).
  exists k. split; [|split; [exact Dd|exact LR]].
  exists pwb, ah, h, e2, S, (d_address d). do 6 (split; [assumption|]). split; [exact SM|].
  split; [rewrite <- B1, <- B2; symmetry; apply (standard_seed_back P HP S LS), Ls|]. split; [exact PK|]. split; [apply Dd|exact EA].
Qed.
(** confirm_code, with one of the four flags of the BIP *)
Theorem C82_confirm_code : forall P self network w a lot c body s pw address, prims_ok P -> session self network w a ->
  base58check_text P bitcoin_alphabet ([x64; x3b; xf6; xa8; x9a] ++ [ec_flag lot c] ++ body) s ->
  confirm_code P self pw s network false = Ok (CAddress address) ->
  standard_confirms P a s pw lot c (slice 4 12 body) address.
Proof.
  intros P self network w a lot c body s pw address HP HS T E. destruct (session_net_sel _ _ _ _ HS) as (n & N). pose proof (ns_a _ _ _ _ _ N) as Ha.
  destruct (confirm_inv P self network n w a s pw false _ HP N E) as (f & ah & ent & b0 & q1 & q2 & pwb & B & D & La & Le & L1 & L2 & PB & K & OB & F & EA & V).
  assert (EQ : [x64; x3b; xf6; xa8; x9a] ++ [ec_flag lot c] ++ body = [x64; x3b; xf6; xa8; x9a] ++ [f] ++ ah ++ ent ++ [b0] ++ q1 ++ q2).
  { pose proof T as T'. apply b58c_unique in T'. rewrite T', (check_decode_b58c P _ HP) in D. congruence. }
  rewrite EQ in T. cbn [app] in EQ. injection EQ as EF EB. subst f body.
  assert (Es : slice 4 12 (ah ++ ent ++ b0 :: q1 ++ q2) = ent).
  { unfold slice. replace (skipn 4 (ah ++ ent ++ b0 :: q1 ++ q2)) with (ent ++ b0 :: q1 ++ q2) by (symmetry; apply (from_app 4), La). apply (upto_app 8), Le. }
  rewrite Es. destruct (flag_meaning_eq _ _ _ (ec_flag_meaning lot c)) as [M1 M2]. rewrite M1, M2 in *.
  set (S := kdf2 P (ser true (pubof (be2z (pass_factor P lot pwb ent)))) ah ent) in *.
  assert (SM : seed_mask P lot pwb ent ah S) by (apply seed_mask_iff; auto). pose proof (mask_length _ _ _ _ _ _ HP SM) as LS. clearbody S.
  assert (LK : List.length (slice 32 64 S) = 32%nat) by (rewrite slice_length; lia).
  assert (LA : List.length (slice 0 16 S) = 16%nat) by (rewrite slice_length; lia).
  assert (LB : List.length (slice 16 32 S) = 16%nat) by (rewrite slice_length; lia).
  set (m1 := xor (h_aes_dec P (slice 32 64 S) q1) (slice 0 16 S)). set (m2 := xor (h_aes_dec P (slice 32 64 S) q2) (slice 16 32 S)).
  assert (X1 : List.length m1 = 16%nat) by (unfold m1; rewrite xor_length; rewrite (aes_dec_len P HP); trivial; congruence).
  assert (X2 : List.length m2 = 16%nat) by (unfold m2; rewrite xor_length; rewrite (aes_dec_len P HP); trivial; congruence).
  assert (EP : point_b_of P S b0 q1 q2 = [byte_xor b0 (bit0 (nth 63 S x00))] ++ shortest m1 ++ shortest m2).
  { unfold point_b_of. rewrite <- (slice_to_end 32 64 S LS). reflexivity. }
  pose proof (shortest_length_le m1 ltac:(lia)) as Y1. pose proof (shortest_length_le m2 ltac:(lia)) as Y2.
  assert (GE : ~ (List.length (point_b_of P S b0 q1 q2) < 33)%nat) by (intros LT; rewrite from_bytes_short in F by exact LT; discriminate).
  rewrite EP in GE, F. rewrite !app_length in GE. cbn [List.length] in GE.
  rewrite (shortest_id m1), (shortest_id m2) in F by (apply shortest_length_eq; lia).
  change ([byte_xor b0 (bit0 (nth 63 S x00))] ++ m1 ++ m2) with (standard_point P S b0 q1 q2) in F.
  assert (L33 : List.length (standard_point P S b0 q1 q2) = 33%nat).
  { change (standard_point P S b0 q1 q2) with ([byte_xor b0 (bit0 (nth 63 S x00))] ++ m1 ++ m2). rewrite !app_length. cbn [List.length]. lia. }
  destruct (from_bytes_33 _ _ L33 F) as [_ EPP].
  destruct (key_okb_range _ K) as [_ R]. set (KK := mulk B (be2z (pass_factor P lot pwb ent))) in *. destruct (mulk_ok B _ OB R) as (_ & OK & _). fold KK in OK.
  assert (Ead : address = addr P a c KK) by (unfold confirm_value in V; congruence).
  exists pwb, ah, b0, q1, q2, (be2z (pass_factor P lot pwb ent)), S, (pk_x B), (pk_y B), (pk_x KK), (pk_y KK).
  do 4 (split; [assumption|]). split; [exact T|]. split; [exact PB|]. split; [rewrite owner_factor_eq; apply key_okb_spec, K|]. split; [exact SM|].
  split; [exact OB|]. split; [rewrite EPP; apply (ser_serialised true), OB|].
  split; [apply (mulk_multiple B _ _ _ OB R); fold KK; destruct KK; reflexivity|]. rewrite Ead. split; [apply addr_text; assumption|exact EA].
Qed.
