(** * Examples: concrete cases that meet the hypotheses of the theorems of
    PropCreate.v and PropEC.v, with the toy functions of Toy.v. *)
From Coq Require Import Lia ZifyBool ZifyNat ZifyN.
From Verif Require Import Py Prims Const Spec PyFacts Utils UtilsFacts Base58 Base58Facts
  Curve SpecCurve CurveFacts CurveFacts2 Secp256k1 SecpFacts Cryptocurrencies Wif Bip38 SpecBip38 SpecRecords SpecSession
  CodecFacts CodecFacts2 Bip38Facts Bip38Facts2 Sessions RecordFacts ECFacts Toy PropEncrypt PropIntermediate PropDecrypt PropCreate PropEC PropShape.

(** A toy family where the hash of a 40-byte string (the owner's factor with a
    lot number) is [f] and that of any other string is [h]. *)
Definition toy2_sha (f h : bytes) (b : bytes) : bytes :=
  if Nat.eqb (List.length b) 40 then repeat x44 32
  else if bytes_eqb b (repeat x44 32) then f else h.
Definition toy2 (f h : bytes) : prims :=
  {| h_sha256 := toy2_sha f h; h_ripemd160 := None; h_scrypt := toy_scrypt;
     h_aes_enc := toy_enc; h_aes_dec := toy_dec; h_nfc := toy_nfc |}.
Lemma toy2_ok f h : List.length f = 32%nat -> List.length h = 32%nat -> prims_ok (toy2 f h).
Proof.
  intros Lf Lh. split.
  - intros b. cbn [h_sha256 toy2]. unfold toy2_sha. destruct (Nat.eqb _ _); [reflexivity|]. destruct (bytes_eqb _ _); assumption.
  - discriminate.
  - exact (scrypt_len toy toy_ok).
  - exact (aes_enc_len toy toy_ok).
  - exact (aes_dec_len toy toy_ok).
  - exact (aes_dec_enc toy toy_ok).
Qed.
Lemma toy2_seed f h seed : List.length h = 32%nat -> h <> repeat x44 32 -> List.length seed <> 40%nat -> List.length seed <> 32%nat ->
  sha256d (toy2 f h) seed = h.
Proof.
  intros Lh N L1 L2. unfold sha256d. cbn [h_sha256 toy2]. unfold toy2_sha at 2. destruct (Nat.eqb_spec (List.length seed) 40); [contradiction|].
  rewrite bytes_eqb_neq by (intros ->; rewrite repeat_length in L2; contradiction).
  unfold toy2_sha. rewrite Lh. cbn [Nat.eqb]. rewrite bytes_eqb_neq by exact N. reflexivity.
Qed.
Lemma toy2_factor f h pwb ent : List.length ent = 8%nat -> owner_factor (toy2 f h) true pwb ent = f.
Proof.
  intros L. unfold owner_factor, sha256d. cbn [h_sha256 h_scrypt toy2]. unfold toy2_sha at 2.
  assert (LS : List.length (toy_scrypt pwb (firstn 4 ent) 16384 8 8 32) = 32%nat) by apply (scrypt_len toy toy_ok).
  rewrite app_length, LS, L. change (32 + 8 =? 40)%nat with true. cbv iota.
  unfold toy2_sha. rewrite repeat_length. change (32 =? 40)%nat with false. cbv iota.
  replace (bytes_eqb (repeat x44 32) (repeat x44 32)) with true by reflexivity. reflexivity.
Qed.

(** The mask: 32 bytes 0x22, then the point. *)
Lemma toy_mask P t pp ah ent : h_scrypt P = toy_scrypt -> List.length pp = 32%nat -> exists T,
  light_kdf P (t :: pp) ah ent = repeat x22 32 ++ t :: T /\ List.length T = 31%nat.
Proof.
  intros HS L. unfold light_kdf. rewrite HS. unfold toy_scrypt. rewrite firstn_app, repeat_length. rewrite (firstn_all2 (repeat x22 32)) by (rewrite repeat_length; lia).
  exists (firstn 31 (pp ++ (ah ++ ent) ++ repeat x33 64)). split; [reflexivity|]. rewrite firstn_length, app_length, L. lia.
Qed.
Lemma pk_eta k : k = {| pk_x := pk_x k; pk_y := pk_y k |}.
Proof. destruct k; reflexivity. Qed.
(** x coordinate of the generator *)
Definition gx : bytes := z2be 32 0x79BE667EF9DCBBAC55A06295CE870B07029BFCDB2DCE28D959F2815B16F81798.
Lemma ser_1 : ser true (pubof 1) = x02 :: gx.
Proof. vm_compute. reflexivity. Qed.

(** ** Creation and decryption with the toy functions *)
(** The blocks only depend on the tag byte [t] of the owner's point. *)
Definition m22 : bytes := repeat x22 16.
Definition tm1 (seed : bytes) : bytes := shortest (xor_right (upto 16 seed) m22).
Definition tE1 (t : byte) (seed : bytes) : bytes := toy_enc [t] (tm1 seed).
Definition tm2 (t : byte) (seed : bytes) : bytes := shortest (xor_right (from 8 (tE1 t seed) ++ from 16 seed) m22).
Definition tE2 (t : byte) (seed : bytes) : bytes := toy_enc [t] (tm2 t seed).
Definition tm3 (B : bytes) : bytes := shortest (xor (slice 1 17 B) m22).
Definition tm4 (B : bytes) : bytes := shortest (xor (from 17 B) m22).
Definition ttail (t : byte) (seed : bytes) : bytes := shortest (xor (toy_dec [t] (tE2 t seed)) m22).
Definition tseed (t : byte) (seed : bytes) : bytes :=
  shortest (xor (toy_dec [t] (upto 8 (tE1 t seed) ++ upto 8 (ttail t seed))) m22) ++ from 8 (ttail t seed).
Definition creatable (t : byte) (seed B : bytes) : bool :=
  (Nat.eqb (List.length (tm1 seed)) 16 && Nat.eqb (List.length (tm2 t seed)) 16 &&
   Nat.eqb (List.length (tm3 B)) 16 && Nat.eqb (List.length (tm4 B)) 16)%bool.

Lemma toy_enc_tag t T b : toy_enc (t :: T) b = toy_enc [t] b. Proof. reflexivity. Qed.
Lemma toy_dec_tag t T b : toy_dec (t :: T) b = toy_dec [t] b. Proof. reflexivity. Qed.
Lemma mask_parts t T : List.length T = 31%nat -> let S := repeat x22 32 ++ t :: T in
  from 32 S = t :: T /\ upto 16 S = m22 /\ slice 16 32 S = m22.
Proof. intros L S. repeat split. Qed.

Section ToyWorld.
(** the hash of the seed is the number [e]; the owner's factor (with a lot number) is [f] *)
Variables (f : bytes) (e : Z).
Hypothesis Lf : List.length f = 32%nat.
Hypothesis Re : 1 <= e < secp_n.
Hypothesis NE : z2be 32 e <> repeat x44 32.
Let P := toy2 f (z2be 32 e).
Lemma PO : prims_ok P. Proof. apply toy2_ok; [exact Lf|apply z2be_length]. Qed.
Lemma hash_is seed : List.length seed <> 40%nat -> List.length seed <> 32%nat -> sha256d P seed = z2be 32 e.
Proof. intros. apply toy2_seed; trivial; apply z2be_length. Qed.

Lemma toy_core a lot c ent k seed t xs : pk_ok k -> ser true k = t :: xs -> List.length xs = 32%nat ->
  List.length seed <> 40%nat -> List.length seed <> 32%nat -> creatable t seed (ser true (pubof e)) = true ->
  exists r, create_core P a lot c ent (ser true k) seed = Ok r.
Proof.
  intros O EP Lx L1 L2 C. unfold creatable in C. rewrite !andb_true_iff, !Nat.eqb_eq in C. destruct C as [[[C1 C2] C3] C4].
  unfold create_core. cbv zeta. rewrite (hash_is _ L1 L2). replace (key_okb (z2be 32 e)) with true by (symmetry; apply key_okb_z2be, Re).
  rewrite (from_bytes_ser k O). cbn [bind]. rewrite (range_256 e) by exact Re.
  set (K := mulk k e). set (ah := ahash P a c K). rewrite EP. 
  destruct (toy_mask P t xs ah ent eq_refl Lx) as (T & EM & LT). change (kdf2 P (t :: xs) ah ent) with (light_kdf P (t :: xs) ah ent). rewrite EM.
  destruct (mask_parts t T LT) as (-> & -> & ->).
  unfold enc_block. fold (tm1 seed). rewrite C1. cbn [Nat.eqb bind h_aes_enc P toy2]. rewrite toy_enc_tag. fold (tE1 t seed).
  fold (tm2 t seed). rewrite C2. cbn [Nat.eqb bind]. fold (tm3 (ser true (pubof e))). rewrite C3. cbn [Nat.eqb bind].
  fold (tm4 (ser true (pubof e))). rewrite C4. cbn [Nat.eqb bind]. eexists. reflexivity.
Qed.
(** Creation from a passphrase's code *)
Lemma toy_creates random network w a lot c ent pw pwb code arg seed t xs : session btc network w a ->
  argument_bytes random arg seed -> List.length ent = 8%nat -> passphrase_bytes P pw pwb -> passphrase_code P lot ent pw code ->
  ser true (pubof (be2z (owner_factor P lot pwb ent))) = t :: xs -> List.length xs = 32%nat ->
  List.length seed <> 40%nat -> List.length seed <> 32%nat -> creatable t seed (ser true (pubof e)) = true ->
  exists r, create_new_encrypted_wif P random btc code (wif_name c) arg network = Ok r.
Proof.
  intros HS A Le B T EP Lx L1 L2 C. destruct (session_net_sel _ _ _ _ HS) as (n & N). apply argument_entropy in A.
  destruct (passphrase_code_inv _ _ _ _ _ T) as (pwb' & B' & K & EC). unfold passphrase_bytes in B, B'. assert (pwb' = pwb) by congruence. subst pwb'.
  destruct (key_okb_range _ K) as [_ R]. destruct (pubof_ok _ R) as (_ & _ & O).
  assert (D : check_decode P code base58_alphabet = Ok (magic_bytes lot ++ ent ++ ser true (pubof (be2z (pass_factor P lot pwb ent))))) by (rewrite EC; apply check_decode_b58c, PO).
  rewrite (create_valid P random btc network n w a lot c ent _ code arg seed PO N A D Le).
  rewrite owner_factor_eq in EP. apply (toy_core a lot c ent _ seed t xs O EP Lx L1 L2 C).
Qed.
(** and decryption, also where the seed is lost: all seeds have the same hash *)
Lemma toy_returns random network w a lot c ent pw pwb code arg seed r t xs : session btc network w a ->
  argument_bytes random arg seed -> List.length ent = 8%nat -> passphrase_bytes P pw pwb -> passphrase_code P lot ent pw code ->
  create_new_encrypted_wif P random btc code (wif_name c) arg network = Ok r ->
  ser true (pubof (be2z (owner_factor P lot pwb ent))) = t :: xs -> List.length xs = 32%nat ->
  List.length seed <> 40%nat -> List.length seed <> 32%nat ->
  (8 <= List.length (ttail t seed))%nat -> List.length (tseed t seed) <> 40%nat -> List.length (tseed t seed) <> 32%nat ->
  first_byte (z2be 32 ((be2z (owner_factor P lot pwb ent) * e) mod secp_n)) <> x00 ->
  exists d, decrypt P btc (n_encrypted_wif r) pw network true = Ok (DDetail d) /\ d_seed d = Some (hex (tseed t seed)).
Proof.
  intros HS A Le B T E EP Lx L1 L2 G1 G2 G3 Z. destruct (session_net_sel _ _ _ _ HS) as (n & N). apply argument_entropy in A.
  destruct (owner_decrypt P PO random btc network n w a lot c ent pw pwb code arg seed r N A Le B T E) as (cr & CR & V & ES & EA & ED).
  rewrite owner_factor_eq in EP, Z. rewrite EP in ES. destruct (toy_mask P t xs (cr_ah cr) ent eq_refl Lx) as (TT & EM & LT).
  change (kdf2 P (t :: xs) (cr_ah cr) ent) with (light_kdf P (t :: xs) (cr_ah cr) ent) in ES. rewrite EM in ES.
  destruct (mask_parts t TT LT) as (M1 & M2 & M3).
  pose proof (cn_E1 _ _ _ _ _ _ _ _ _ CR) as H1. pose proof (cn_E2 _ _ _ _ _ _ _ _ _ CR) as H2. rewrite ES in H1, H2. rewrite M1, ?M2, ?M3 in H1, H2.
  apply enc_block_inv in H1, H2. destruct H1 as [H1 _], H2 as [H2 _].
  assert (E1 : cr_E1 cr = tE1 t seed) by exact H1. rewrite E1 in H2. assert (E2 : cr_E2 cr = tE2 t seed) by exact H2.
  assert (TL : ec_tail P (cr_S cr) (cr_E2 cr) = ttail t seed) by (unfold ec_tail; rewrite ES, M1, M3, E2; reflexivity).
  assert (SE : ec_seed P (cr_S cr) (upto 8 (cr_E1 cr)) (cr_E2 cr) = tseed t seed) by (unfold ec_seed; rewrite TL, ES, M1, M2, E1; reflexivity).
  specialize (ED true). rewrite TL, SE in ED. replace (8 <=? List.length (ttail t seed))%nat with true in ED by (symmetry; apply Nat.leb_le, G1).
  cbv zeta in ED. rewrite (hash_is _ G2 G3) in ED. replace (key_okb (z2be 32 e)) with true in ED by (symmetry; apply key_okb_z2be, Re).
  rewrite (range_256 e Re) in ED. rewrite (hash_is _ L1 L2), (range_256 e Re) in EA.
  change G_order with secp_n in ED. rewrite (proj2 (zero_first_false _) Z) in ED.
  rewrite EA, bytes_eqb_refl in ED. eexists. split; [exact ED|reflexivity].
Qed.
End ToyWorld.

(** ** The owner: passphrase "Satoshi", salt 0x0101010101010101, or lot 369861 and
    sequence 1 with the salt 0x01010101 *)
Definition pwS : pystr := str "Satoshi".
Definition pwSb : bytes := List.map n2b pwS.
Lemma pwS_bytes f h : passphrase_bytes (toy2 f h) pwS pwSb. Proof. vm_compute. reflexivity. Qed.
Definition salt8 : bytes := repeat x01 8.
Definition salt4 : bytes := repeat x01 4.
Definition entL : bytes := salt4 ++ z2be 4 (369861 * 4096 + 1).
Lemma entL_ok : lot_entropy (slice 0 4 salt4) 369861 1 entL.
Proof. exists (z2be 4 (369861 * 4096 + 1)). split; [|reflexivity]. apply (fixed_z2be 4). vm_compute. split; congruence. Qed.
Lemma random_salt : argument_bytes salt8 PNone salt8. Proof. left. auto. Qed.
Lemma given_salt : argument_bytes [] (PBytes salt4) salt4. Proof. right. left. split; [reflexivity|discriminate]. Qed.

Section Codes.
Variables (f h : bytes).
Hypothesis Lf : List.length f = 32%nat.
Hypothesis Lh : List.length h = 32%nat.
Let P := toy2 f h.
Lemma plain_code : exists code, intermediate_code P salt8 pwS None None PNone = Ok code /\ passphrase_code P false salt8 pwS code.
Proof.
  assert (E : exists code, intermediate_code P salt8 pwS None None PNone = Ok code).
  { rewrite (intermediate_plain_eq P salt8 PNone salt8 pwS None None eq_refl) by (left; auto). unfold intermediate_result.
    pose proof (pwS_bytes f h) as B. unfold passphrase_bytes in B. unfold P. rewrite B. cbv zeta.
    replace (key_okb _) with true; [eexists; reflexivity|]. symmetry. vm_compute. reflexivity. }
  destruct E as [code E]. exists code. split; [exact E|].
  apply (C21_plain_code P salt8 PNone salt8 pwS code (toy2_ok f h Lf Lh) random_salt eq_refl), E.
Qed.
Lemma lot_code : key_okb f = true -> exists code,
  intermediate_code P [] pwS (Some 369861) (Some 1) (PBytes salt4) = Ok code /\ passphrase_code P true entL pwS code.
Proof.
  intros K.
  assert (E : exists code, intermediate_code P [] pwS (Some 369861) (Some 1) (PBytes salt4) = Ok code).
  { rewrite (intermediate_lot_eq P [] (PBytes salt4) salt4 pwS 369861 1 eq_refl) by (auto || lia).
    change (upto 4 salt4 ++ z2be 4 (369861 * 4096 + 1)) with entL. unfold intermediate_result.
    pose proof (pwS_bytes f h) as B. unfold passphrase_bytes in B. unfold P. rewrite B. cbv zeta.
    rewrite <- owner_factor_eq, (toy2_factor f h pwSb entL eq_refl), K. eexists. reflexivity. }
  destruct E as [code E]. exists code. split; [exact E|].
  apply (C21_lot_code P [] (PBytes salt4) salt4 pwS 369861 1 code (toy2_ok f h Lf Lh) given_salt) in E; [|auto|lia|lia].
  destruct E as (ent' & LE' & T). apply lot_entropy_iff in LE'; [|cbn; lia]. subst ent'. exact T.
Qed.
Lemma plain_factor : owner_factor P false pwSb salt8 = repeat x22 32. Proof. reflexivity. Qed.
Lemma lot_factor : owner_factor P true pwSb entL = f. Proof. apply toy2_factor. reflexivity. Qed.
End Codes.
(** the tag byte of a serialised point *)
Lemma tag_of k : pk_ok k -> exists t xs, ser true k = t :: xs /\ (t = x02 \/ t = x03) /\ List.length xs = 32%nat.
Proof.
  intros O. destruct (ser_serialised true k O) as (xs & [L _] & E). rewrite E. eexists. exists xs. split; [reflexivity|]. split; [destruct (Z.even (pk_y k)); auto|exact L].
Qed.
Lemma one_ok : 1 <= 1 < secp_n. Proof. vm_compute. split; congruence. Qed.
Lemma one_not44 : z2be 32 1 <> repeat x44 32. Proof. vm_compute. congruence. Qed.
Lemma L1_32 : List.length (z2be 32 1) = 32%nat. Proof. apply z2be_length. Qed.
Lemma owner22_ok : key_okb (repeat x22 32) = true. Proof. vm_compute. reflexivity. Qed.
(** the toy functions where every seed hashes to 1, and the owner's factor with a lot is [f] *)
Definition world (f : bytes) : prims := toy2 f (z2be 32 1).
Lemma world_ok f : List.length f = 32%nat -> prims_ok (world f). Proof. intros L. apply toy2_ok; [exact L|exact L1_32]. Qed.

(** Creating a key from the plain code, for any seed of a suitable shape. *)
Lemma plain_creates f seed : List.length f = 32%nat -> seed <> [] -> List.length seed <> 40%nat -> List.length seed <> 32%nat ->
  creatable x02 seed (ser true (pubof 1)) = true -> creatable x03 seed (ser true (pubof 1)) = true ->
  exists code r, intermediate_code (world f) salt8 pwS None None PNone = Ok code /\ passphrase_code (world f) false salt8 pwS code /\
    create_new_encrypted_wif (world f) [] btc code (wif_name true) (PBytes seed) None = Ok r.
Proof.
  intros Lf S0 L1 L2 C2 C3. destruct (plain_code f (z2be 32 1) Lf L1_32) as (code & I & T).
  destruct (key_okb_range _ owner22_ok) as [_ R]. destruct (pubof_ok _ R) as (_ & _ & O). destruct (tag_of _ O) as (t & xs & EP & Ht & Lx).
  destruct (toy_creates f 1 Lf one_ok one_not44 [] None 0x80 0 false true salt8 pwS pwSb code (PBytes seed) seed t xs btc_session) as (r & E);
    trivial; [right; left; auto|apply pwS_bytes|destruct Ht as [-> | ->]; assumption|].
  exists code, r. auto.
Qed.
Lemma lot_creates f seed t xs : List.length f = 32%nat -> key_okb f = true -> ser true (pubof (be2z f)) = t :: xs -> List.length xs = 32%nat ->
  seed <> [] -> List.length seed <> 40%nat -> List.length seed <> 32%nat -> creatable t seed (ser true (pubof 1)) = true ->
  exists code r, intermediate_code (world f) [] pwS (Some 369861) (Some 1) (PBytes salt4) = Ok code /\ passphrase_code (world f) true entL pwS code /\
    create_new_encrypted_wif (world f) [] btc code (wif_name false) (PBytes seed) None = Ok r.
Proof.
  intros Lf K EP Lx S0 L1 L2 C. destruct (lot_code f (z2be 32 1) Lf L1_32 K) as (code & I & T).
  destruct (toy_creates f 1 Lf one_ok one_not44 [] None 0x80 0 true false entL pwS pwSb code (PBytes seed) seed t xs btc_session) as (r & E);
    trivial; [right; left; auto|apply pwS_bytes|].
  exists code, r. auto.
Qed.
Definition seed11 : bytes := repeat x11 24.
Lemma given_seed seed : seed <> [] -> argument_bytes [] (PBytes seed) seed. Proof. intros. right. left. auto. Qed.
Lemma seed11_arg : argument_bytes [] (PBytes seed11) seed11. Proof. apply given_seed. discriminate. Qed.
Lemma mask_of f lot ent r S : List.length f = 32%nat -> seed_mask (world f) lot pwSb ent (address_hash (world f) (n_address r)) S ->
  exists t T, S = repeat x22 32 ++ t :: T /\ (t = x02 \/ t = x03) /\ List.length T = 31%nat.
Proof.
  intros Lf SM. apply seed_mask_iff in SM. destruct SM as [K ->]. destruct (key_okb_range _ K) as [_ R]. destruct (pubof_ok _ R) as (_ & _ & O).
  destruct (tag_of _ O) as (t & xs & EP & Ht & Lx). rewrite EP. destruct (toy_mask (world f) t xs (address_hash (world f) (n_address r)) ent eq_refl Lx) as (T & EM & LT).
  exists t, T. auto.
Qed.

(** C24, C27: without lot, compressed, key 0x22...22 *)
Example C24_plain_example : exists f code r d, intermediate_code (world f) salt8 pwS None None PNone = Ok code /\
  create_new_encrypted_wif (world f) [] btc code (wif_name true) (PBytes seed11) None = Ok r /\
  decrypt (world f) btc (n_encrypted_wif r) pwS None true = Ok (DDetail d) /\ describes (world f) 0x80 0 true (repeat x22 32) d /\ d_seed d = Some (hex seed11).
Proof.
  set (f := repeat x22 32). assert (Lf : List.length f = 32%nat) by reflexivity. exists f.
  destruct (plain_creates f seed11 Lf) as (code & r & I & T & E); [discriminate|discriminate|discriminate|vm_compute; reflexivity|vm_compute; reflexivity|].
  destruct (C24_key_exists (world f) [] btc None 0x80 0 false true salt8 pwS pwSb code (PBytes seed11) seed11 r (world_ok f Lf) btc_session seed11_arg eq_refl (pwS_bytes _ _) T E)
    as (k & S & PK & _ & SM).
  assert (Ek : k = repeat x22 32).
  { apply ec_private_key_iff in PK. destruct PK as (_ & _ & ->). rewrite <- owner_factor_eq. unfold world at 1. rewrite plain_factor.
    unfold world. rewrite (toy2_seed f (z2be 32 1) seed11 L1_32 one_not44) by discriminate. vm_compute. reflexivity. }
  subst k. destruct (mask_of f false salt8 r S Lf SM) as (t & TT & -> & Ht & LT).
  destruct (C24_roundtrip_plain (world f) salt8 [] btc None 0x80 0 true pwS pwSb PNone salt8 code (PBytes seed11) seed11 r (repeat x22 32) _
    (world_ok f Lf) btc_session random_salt eq_refl I seed11_arg eq_refl E (pwS_bytes _ _) PK SM) as (d & D & _ & DS & DD & HX & _).
  - discriminate.
  - destruct Ht as [-> | ->]; vm_compute; congruence.
  - discriminate.
  - exists code, r, d. split; [exact I|]. split; [exact E|]. split; [exact D|]. split; [exact DS|]. rewrite DD, HX. reflexivity.
Qed.
(** the key of any seed in these worlds is the owner's factor *)
Lemma world_key f lot ent seed k : (lot = false /\ ent = salt8 \/ lot = true /\ ent = entL) -> List.length f = 32%nat -> key_okb f = true ->
  List.length seed <> 40%nat -> List.length seed <> 32%nat ->
  ec_private_key (world f) lot pwSb ent seed k -> k = if lot then f else repeat x22 32.
Proof.
  intros HL Lf Kf L1 L2 PK. apply ec_private_key_iff in PK. destruct PK as (_ & _ & ->). rewrite <- owner_factor_eq.
  replace (sha256d (world f) seed) with (z2be 32 1) by (symmetry; apply toy2_seed; [exact L1_32|exact one_not44|exact L1|exact L2]).
  rewrite (range_256 1) by exact one_ok. rewrite Z.mul_1_r.
  assert (H : forall g, key_okb g = true -> z2be 32 (be2z g mod secp_n) = g).
  { intros g K. destruct (key_okb_range _ K) as [Lg R]. rewrite Z.mod_small by (change secp_n with G_order; lia). apply be2z_inj; [rewrite z2be_length; congruence|].
    rewrite (range_256 (be2z g)) by exact R. reflexivity. }
  destruct HL as [[-> ->]|[-> ->]]; unfold world at 1.
  - rewrite plain_factor. apply H, owner22_ok.
  - rewrite lot_factor. apply H, Kf.
Qed.
Lemma world_lot_entropy : lot_entropy (slice 0 4 salt4) 369861 1 entL. Proof. exact entL_ok. Qed.

(** C24, with lot 369861, sequence 1, uncompressed *)
Example C24_lot_example : exists f code r d, intermediate_code (world f) [] pwS (Some 369861) (Some 1) (PBytes salt4) = Ok code /\
  create_new_encrypted_wif (world f) [] btc code (wif_name false) (PBytes seed11) None = Ok r /\
  decrypt (world f) btc (n_encrypted_wif r) pwS None true = Ok (DDetail d) /\ describes (world f) 0x80 0 false (repeat x22 32) d /\
  d_seed d = Some (hex seed11) /\ d_lot d = Some 369861 /\ d_sequence d = Some 1.
Proof.
  set (f := repeat x22 32). assert (Lf : List.length f = 32%nat) by reflexivity. exists f.
  destruct (key_okb_range _ owner22_ok) as [_ R]. destruct (pubof_ok _ R) as (_ & _ & O). destruct (tag_of _ O) as (t & xs & EP & Ht & Lx).
  destruct (lot_creates f seed11 t xs Lf owner22_ok EP Lx) as (code & r & I & T & E); [discriminate|discriminate|discriminate|destruct Ht as [-> | ->]; vm_compute; reflexivity|].
  destruct (C24_key_exists (world f) [] btc None 0x80 0 true false entL pwS pwSb code (PBytes seed11) seed11 r (world_ok f Lf) btc_session seed11_arg eq_refl (pwS_bytes _ _) T E)
    as (k & S & PK & _ & SM).
  pose proof (world_key f true entL seed11 k ltac:(auto) Lf owner22_ok ltac:(discriminate) ltac:(discriminate) PK) as Ek. cbv iota in Ek. subst k.
  destruct (mask_of f true entL r S Lf SM) as (t' & TT & -> & Ht' & LT).
  destruct (C24_roundtrip_lot (world f) [] [] btc None 0x80 0 false pwS pwSb 369861 1 (PBytes salt4) salt4 entL code (PBytes seed11) seed11 r f _
    (world_ok f Lf) btc_session given_salt (or_introl eq_refl) ltac:(lia) ltac:(lia) entL_ok I seed11_arg eq_refl E (pwS_bytes _ _) PK SM) as (d & D & _ & DS & DD & HX & _ & _ & _ & D1 & D2).
  - discriminate.
  - destruct Ht' as [-> | ->]; vm_compute; congruence.
  - discriminate.
  - exists code, r, d. split; [exact I|]. split; [exact E|]. split; [exact D|]. split; [exact DS|]. rewrite DD, HX. auto.
Qed.

(** C25: the owner's factor is 1 and the seed hashes to 1, so the key is 1, in 32
    bytes with leading zeros: created, and not decryptable. *)
Lemma key1_ok : key_okb (z2be 32 1) = true. Proof. vm_compute. reflexivity. Qed.
Lemma ser_f1 : ser true (pubof (be2z (z2be 32 1))) = x02 :: gx.
Proof. rewrite (range_256 1) by exact one_ok. exact ser_1. Qed.
Example C25_zero_key_example : exists f code r, intermediate_code (world f) [] pwS (Some 369861) (Some 1) (PBytes salt4) = Ok code /\
  create_new_encrypted_wif (world f) [] btc code (wif_name false) (PBytes seed11) None = Ok r /\
  decrypt (world f) btc (n_encrypted_wif r) pwS None false = Raise (Lib CSecp256k1Error "Invalid private key bytes").
Proof.
  set (f := z2be 32 1). assert (Lf : List.length f = 32%nat) by apply z2be_length. exists f.
  destruct (lot_creates f seed11 x02 gx Lf key1_ok ser_f1) as (code & r & I & T & E); [reflexivity|discriminate|discriminate|discriminate|vm_compute; reflexivity|].
  exists code, r. split; [exact I|]. split; [exact E|].
  destruct (C24_key_exists (world f) [] btc None 0x80 0 true false entL pwS pwSb code (PBytes seed11) seed11 r (world_ok f Lf) btc_session seed11_arg eq_refl (pwS_bytes _ _) T E)
    as (k & S & PK & _ & SM).
  pose proof (world_key f true entL seed11 k ltac:(auto) Lf key1_ok ltac:(discriminate) ltac:(discriminate) PK) as Ek. cbv iota in Ek. subst k.
  destruct (mask_of f true entL r S Lf SM) as (t' & TT & -> & Ht' & LT).
  apply (C25_zero_key (world f) [] btc None 0x80 0 true false entL pwS pwSb code (PBytes seed11) seed11 r f _ false
    (world_ok f Lf) btc_session seed11_arg eq_refl eq_refl (pwS_bytes _ _) T E PK SM).
  - discriminate.
  - destruct Ht' as [-> | ->]; vm_compute; congruence.
  - vm_compute. reflexivity.
Qed.
(** C25: a seed of 24 zero bytes is created, and decrypts to a shorter seed *)
Definition seed00 : bytes := repeat x00 24.
Lemma owner_ser22 : exists t xs, ser true (pubof (be2z (repeat x22 32))) = t :: xs /\ (t = x02 \/ t = x03) /\ List.length xs = 32%nat.
Proof. destruct (key_okb_range _ owner22_ok) as [_ R]. destruct (pubof_ok _ R) as (_ & _ & O). exact (tag_of _ O). Qed.
Example C25_seed_lost_example : exists f code r d, intermediate_code (world f) salt8 pwS None None PNone = Ok code /\
  create_new_encrypted_wif (world f) [] btc code (wif_name true) (PBytes seed00) None = Ok r /\
  decrypt (world f) btc (n_encrypted_wif r) pwS None true = Ok (DDetail d) /\ n_seed r = hex seed00 /\ d_seed d <> Some (n_seed r).
Proof.
  set (f := repeat x22 32). assert (Lf : List.length f = 32%nat) by reflexivity. exists f.
  destruct (plain_creates f seed00 Lf) as (code & r & I & T & E); [discriminate|discriminate|discriminate|vm_compute; reflexivity|vm_compute; reflexivity|].
  destruct owner_ser22 as (t & xs & EP & Ht & Lx). assert (A0 : argument_bytes [] (PBytes seed00) seed00) by (apply given_seed; discriminate).
  destruct (toy_returns f 1 Lf one_ok one_not44 [] None 0x80 0 false true salt8 pwS pwSb code (PBytes seed00) seed00 r t xs btc_session A0 eq_refl (pwS_bytes _ _) T E EP Lx) as (d & D & DS).
  - discriminate.
  - discriminate.
  - destruct Ht as [-> | ->]; vm_compute; repeat constructor.
  - destruct Ht as [-> | ->]; vm_compute; congruence.
  - destruct Ht as [-> | ->]; vm_compute; congruence.
  - vm_compute. congruence.
  - assert (NS : n_seed r = hex seed00) by apply (C43_seed_reported (world f) [] btc None 0x80 0 code (wif_name true) (PBytes seed00) seed00 r (world_ok f Lf) btc_session A0 E).
    exists code, r, d. split; [exact I|]. split; [exact E|]. split; [exact D|]. split; [exact NS|].
    rewrite DS, NS. destruct Ht as [-> | ->]; vm_compute; congruence.
Qed.
(** C30: a seed of one byte comes back. *)
Example C30_short_seed_example : exists f code r d, intermediate_code (world f) salt8 pwS None None PNone = Ok code /\
  create_new_encrypted_wif (world f) [] btc code (wif_name true) (PBytes [x11]) None = Ok r /\
  decrypt (world f) btc (n_encrypted_wif r) pwS None true = Ok (DDetail d) /\ describes (world f) 0x80 0 true (repeat x22 32) d /\ d_seed d = Some (hex [x11]).
Proof.
  set (f := repeat x22 32). assert (Lf : List.length f = 32%nat) by reflexivity. exists f.
  destruct (plain_creates f [x11] Lf) as (code & r & I & T & E); [discriminate|discriminate|discriminate|vm_compute; reflexivity|vm_compute; reflexivity|].
  assert (A0 : argument_bytes [] (PBytes [x11]) [x11]) by (apply given_seed; discriminate).
  destruct (C24_key_exists (world f) [] btc None 0x80 0 false true salt8 pwS pwSb code (PBytes [x11]) [x11] r (world_ok f Lf) btc_session A0 eq_refl (pwS_bytes _ _) T E)
    as (k & S & PK & _ & SM).
  pose proof (world_key f false salt8 [x11] k ltac:(auto) Lf owner22_ok ltac:(discriminate) ltac:(discriminate) PK) as Ek. cbv iota in Ek. subst k.
  destruct (mask_of f false salt8 r S Lf SM) as (t & TT & -> & Ht & LT).
  destruct (C30_short_seed_roundtrip (world f) [] btc None 0x80 0 false true salt8 pwS pwSb code (PBytes [x11]) [x11] r f _
    (world_ok f Lf) btc_session A0 ltac:(cbn [List.length]; lia) eq_refl (pwS_bytes _ _) T E PK SM) as [H _].
  - discriminate.
  - destruct Ht as [-> | ->]; vm_compute; congruence.
  - destruct H as (d & D & _ & DS & DD & _); [discriminate|]. exists code, r, d. auto.
Qed.
(** The hypotheses of the C28, C29 and C30 theorems about one call, met by the
    plain code of the owner and any seed. *)
Lemma plain_setup f seed : List.length f = 32%nat -> List.length seed <> 40%nat -> List.length seed <> 32%nat ->
  exists code px py pp kx ky address bx by_ t xs,
    intermediate_code (world f) salt8 pwS None None PNone = Ok code /\
    on_curve (Aff px py) /\ sec1_compressed px py pp /\ code_text (world f) false salt8 px py code /\
    scalar (sha256d (world f) seed) 1 /\ ec_multiple (Z.to_N 1) (Aff px py) (Aff kx ky) /\
    address_text (world f) bitcoin_alphabet 0 true kx ky address /\
    public_point 1 bx by_ /\ sec1_compressed bx by_ (x02 :: gx) /\
    light_kdf (world f) pp (address_hash (world f) address) salt8 = repeat x22 32 ++ t :: xs /\ (t = x02 \/ t = x03) /\ List.length xs = 31%nat.
Proof.
  intros Lf L1 L2. destruct (plain_code f (z2be 32 1) Lf L1_32) as (code & I & T).
  destruct T as (pwb & e & px & py & B & Sc & Q & CT).
  assert (Re : 1 <= e < G_order) by (destruct (scalar_be2z _ _ Sc) as [-> K]; apply (key_okb_range _ K)).
  apply public_point_iff in Q; [|exact Re]. destruct (pubof_ok _ Re) as (_ & _ & O). rewrite Q in O.
  set (k := {| pk_x := px; pk_y := py |}) in *. destruct (mulk_ok k 1 O one_ok) as (_ & OK & _).
  destruct (tag_of k O) as (t & xs & EP & Ht & Lx).
  set (K := mulk k 1) in *. set (ad := addr (world f) 0 true K).
  destruct (toy_mask (world f) t xs (address_hash (world f) ad) salt8 eq_refl Lx) as (T & EM & LT).
  exists code, px, py, (ser true k), (pk_x K), (pk_y K), ad, (pk_x (pubof 1)), (pk_y (pubof 1)), t, T.
  split; [exact I|]. split; [exact O|]. split; [exact (ser_serialised true k O)|]. split; [exact CT|]. split.
  { unfold world. rewrite (toy2_seed f (z2be 32 1) seed L1_32 one_not44) by assumption. pose proof (proj1 (key_okb_spec _) key1_ok) as H.
    rewrite (range_256 1) in H by exact one_ok. exact H. }
  split; [apply (mulk_multiple k 1 _ _ O one_ok); fold K; destruct K; reflexivity|]. split; [apply addr_text; [lia|exact OK]|].
  split; [apply pubof_public, one_ok|]. split; [rewrite <- ser_1; destruct (pubof_ok 1 one_ok) as (_ & _ & O1); exact (ser_serialised true (pubof 1) O1)|].
  rewrite EP. auto.
Qed.
(** C30: a seed of 25 bytes is refused with ValueError ... *)
Example C30_long_seed_rejected_example : exists f code, intermediate_code (world f) salt8 pwS None None PNone = Ok code /\
  create_new_encrypted_wif (world f) [] btc code (wif_name true) (PBytes (repeat x11 25)) None = Raise (Builtin ValueError).
Proof.
  set (f := repeat x22 32). assert (Lf : List.length f = 32%nat) by reflexivity. exists f.
  destruct (plain_setup f (repeat x11 25) Lf ltac:(discriminate) ltac:(discriminate)) as (code & px & py & pp & kx & ky & ad & bx & by_ & t & xs & I & O & SC & CT & Sc & M & AT & _ & _ & EM & Ht & Lx).
  exists code. split; [exact I|].
  apply (C30_long_seed_rejected (world f) [] btc None 0x80 0 false true salt8 px py pp code (PBytes (repeat x11 25)) (repeat x11 25) 1 kx ky ad
    (world_ok f Lf) btc_session (given_seed (repeat x11 25) ltac:(discriminate)) ltac:(vm_compute; repeat constructor) eq_refl O SC CT Sc M AT).
  rewrite EM. destruct Ht as [-> | ->]; vm_compute; congruence.
Qed.
(** ... and another one is accepted; decrypt reports a shorter seed. *)
Definition seed25 (t : byte) : bytes := repeat x11 7 ++ [byte_xor x22 t] ++ repeat x11 17.
Example C30_long_seed_lost_example : exists f t code r d, intermediate_code (world f) [] pwS (Some 369861) (Some 1) (PBytes salt4) = Ok code /\
  create_new_encrypted_wif (world f) [] btc code (wif_name false) (PBytes (seed25 t)) None = Ok r /\
  decrypt (world f) btc (n_encrypted_wif r) pwS None true = Ok (DDetail d) /\ n_seed r = hex (seed25 t) /\ d_seed d <> Some (n_seed r).
Proof.
  set (f := repeat x22 32). assert (Lf : List.length f = 32%nat) by reflexivity. exists f.
  destruct owner_ser22 as (t & xs & EP & Ht & Lx). exists t.
  assert (A0 : argument_bytes [] (PBytes (seed25 t)) (seed25 t)) by (apply given_seed; discriminate).
  destruct (lot_creates f (seed25 t) t xs Lf owner22_ok EP Lx) as (code & r & I & T & E); [discriminate|discriminate|discriminate|destruct Ht as [-> | ->]; vm_compute; reflexivity|].
  destruct (toy_returns f 1 Lf one_ok one_not44 [] None 0x80 0 true false entL pwS pwSb code (PBytes (seed25 t)) (seed25 t) r t xs btc_session A0 eq_refl (pwS_bytes _ _) T E) as (d & D & DS).
  - rewrite lot_factor. exact EP.
  - exact Lx.
  - discriminate.
  - discriminate.
  - destruct Ht as [-> | ->]; vm_compute; repeat constructor.
  - destruct Ht as [-> | ->]; vm_compute; congruence.
  - destruct Ht as [-> | ->]; vm_compute; congruence.
  - rewrite lot_factor. vm_compute. congruence.
  - assert (NS : n_seed r = hex (seed25 t)) by apply (C43_seed_reported (world f) [] btc None 0x80 0 code (wif_name false) (PBytes (seed25 t)) (seed25 t) r (world_ok f Lf) btc_session A0 E).
    exists code, r, d. split; [exact I|]. split; [exact E|]. split; [exact D|]. split; [exact NS|].
    rewrite DS, NS. destruct Ht as [-> | ->]; vm_compute; congruence.
Qed.
(** C28: a seed that starts with the first byte of the mask is refused; seed11 is accepted. *)
Definition seed22 : bytes := repeat x22 24.
Example C28_refused_example : exists f code, intermediate_code (world f) salt8 pwS None None PNone = Ok code /\
  create_new_encrypted_wif (world f) [] btc code (wif_name true) (PBytes seed22) None = Raise (Builtin ValueError).
Proof.
  set (f := repeat x22 32). assert (Lf : List.length f = 32%nat) by reflexivity. exists f.
  destruct (plain_setup f seed22 Lf ltac:(discriminate) ltac:(discriminate)) as (code & px & py & pp & kx & ky & ad & bx & by_ & t & xs & I & O & SC & CT & Sc & M & AT & Q & SB & EM & Ht & Lx).
  exists code. split; [exact I|].
  apply (C28_succeeds_iff (world f) [] btc None 0x80 0 false true salt8 px py pp code (PBytes seed22) seed22 1 kx ky ad bx by_ (x02 :: gx)
    (world_ok f Lf) btc_session (given_seed seed22 ltac:(discriminate)) eq_refl eq_refl O SC CT Sc M AT Q SB).
  unfold no_zero_block. rewrite EM. intros [H _]. apply H. vm_compute. reflexivity.
Qed.
Example C28_accepted_example : exists f code r, intermediate_code (world f) salt8 pwS None None PNone = Ok code /\
  create_new_encrypted_wif (world f) [] btc code (wif_name true) (PBytes seed11) None = Ok r.
Proof.
  set (f := repeat x22 32). assert (Lf : List.length f = 32%nat) by reflexivity. exists f.
  destruct (plain_setup f seed11 Lf ltac:(discriminate) ltac:(discriminate)) as (code & px & py & pp & kx & ky & ad & bx & by_ & t & xs & I & O & SC & CT & Sc & M & AT & Q & SB & EM & Ht & Lx).
  exists code. assert (H : exists r, create_new_encrypted_wif (world f) [] btc code (wif_name true) (PBytes seed11) None = Ok r); [|destruct H as [r H]; exists r; split; assumption].
  apply (C28_succeeds_iff (world f) [] btc None 0x80 0 false true salt8 px py pp code (PBytes seed11) seed11 1 kx ky ad bx by_ (x02 :: gx)
    (world_ok f Lf) btc_session (given_seed seed11 ltac:(discriminate)) eq_refl eq_refl O SC CT Sc M AT Q SB).
  unfold no_zero_block. rewrite EM. destruct Ht as [-> | ->]; vm_compute; repeat split; congruence.
Qed.
(** C30: the four conditions for short seeds, and the shape of the result *)
Example C30_short_seed_accepted_example : exists f code r, intermediate_code (world f) salt8 pwS None None PNone = Ok code /\
  create_new_encrypted_wif (world f) [] btc code (wif_name true) (PBytes [x11]) None = Ok r /\
  shaped (n_encrypted_wif r) 58 "6Pn" /\ shaped (n_confirmation_code r) 75 "cfrm38".
Proof.
  set (f := repeat x22 32). assert (Lf : List.length f = 32%nat) by reflexivity. exists f.
  destruct (plain_setup f [x11] Lf ltac:(discriminate) ltac:(discriminate)) as (code & px & py & pp & kx & ky & ad & bx & by_ & t & xs & I & O & SC & CT & Sc & M & AT & Q & SB & EM & Ht & Lx).
  assert (A0 : argument_bytes [] (PBytes [x11]) [x11]) by (apply given_seed; discriminate).
  destruct (C30_short_seed_accepted (world f) [] btc None 0x80 0 false true salt8 px py pp code (PBytes [x11]) [x11] 1 kx ky ad bx by_ (x02 :: gx)
    (world_ok f Lf) btc_session A0 ltac:(cbn [List.length]; lia) eq_refl O SC CT Sc M AT Q SB) as [r E]; try (rewrite EM; destruct Ht as [-> | ->]; vm_compute; congruence).
  exists code, r. split; [exact I|]. split; [exact E|].
  exact (C15_create (world f) [] btc None 0x80 0 false true salt8 px py code (PBytes [x11]) [x11] r (world_ok f Lf) btc_session A0 eq_refl O CT E).
Qed.
(** C26: the confirmation code of C24_plain_example confirms ... *)
Example C26_confirm_example : exists f code r d, intermediate_code (world f) salt8 pwS None None PNone = Ok code /\
  create_new_encrypted_wif (world f) [] btc code (wif_name true) (PBytes seed11) None = Ok r /\
  confirm_code (world f) btc pwS (n_confirmation_code r) None true = Ok (CDetail d) /\ c_address d = n_address r.
Proof.
  set (f := repeat x22 32). assert (Lf : List.length f = 32%nat) by reflexivity. exists f.
  destruct (plain_creates f seed11 Lf) as (code & r & I & T & E); [discriminate|discriminate|discriminate|vm_compute; reflexivity|vm_compute; reflexivity|].
  destruct (plain_setup f seed11 Lf ltac:(discriminate) ltac:(discriminate)) as (_ & _ & _ & _ & _ & _ & _ & bx & by_ & _ & _ & _ & _ & _ & _ & Sc & _ & _ & Q & SB & _).
  destruct (C26_confirm_plain (world f) salt8 [] btc None 0x80 0 true pwS PNone salt8 code (PBytes seed11) seed11 r 1 bx by_ (x02 :: gx)
    (world_ok f Lf) btc_session random_salt eq_refl I seed11_arg E Sc Q SB) as (_ & d & D & DA & _).
  - vm_compute; congruence.
  - vm_compute; congruence.
  - exists code, r, d. auto.
Qed.
(** ... but where the seed hashes to 149, whose point has a zero byte in the
    middle of its x coordinate, the confirmation code does not confirm. *)
Lemma e149_ok : 1 <= 149 < secp_n. Proof. vm_compute. split; congruence. Qed.
Lemma e149_not44 : z2be 32 149 <> repeat x44 32. Proof. vm_compute. congruence. Qed.
Definition B149 : bytes := ser true (pubof 149).
Lemma B149_17 : nth 17 B149 x00 = x00. Proof. vm_compute. reflexivity. Qed.
Example C26_lost_example : exists P code r, prims_ok P /\ intermediate_code P salt8 pwS None None PNone = Ok code /\
  create_new_encrypted_wif P [] btc code (wif_name true) (PBytes seed11) None = Ok r /\
  confirm_code P btc pwS (n_confirmation_code r) None false = Raise (Lib CPassphraseError "Incorrect passphrase").
Proof.
  set (f := repeat x22 32). assert (Lf : List.length f = 32%nat) by reflexivity. set (h := z2be 32 149). assert (Lh : List.length h = 32%nat) by apply z2be_length.
  set (P := toy2 f h). exists P. assert (HP : prims_ok P) by (apply toy2_ok; assumption).
  destruct (plain_code f h Lf Lh) as (code & I & T). destruct owner_ser22 as (t & xs & EP & Ht & Lx).
  destruct (toy_creates f 149 Lf e149_ok e149_not44 [] None 0x80 0 false true salt8 pwS pwSb code (PBytes seed11) seed11 t xs btc_session) as (r & E);
    trivial; [exact seed11_arg|apply pwS_bytes|discriminate|discriminate|destruct Ht as [-> | ->]; vm_compute; reflexivity|].
  exists code, r. split; [exact HP|]. split; [exact I|]. split; [exact E|].
  destruct (pubof_ok 149 e149_ok) as (_ & _ & O).
  assert (Sc : scalar (sha256d P seed11) 149).
  { unfold P. rewrite (toy2_seed f h seed11 Lh e149_not44) by discriminate. assert (H : key_okb h = true) by (apply key_okb_z2be, e149_ok).
    apply key_okb_spec in H. unfold h in H at 2. rewrite (range_256 149) in H by exact e149_ok. exact H. }
  destruct (C26_confirm_roundtrip P [] btc None 0x80 0 false true salt8 pwS code (PBytes seed11) seed11 r 149 _ _ B149 HP btc_session seed11_arg eq_refl T E Sc
    (pubof_public 149 e149_ok) (ser_serialised true (pubof 149) O)) as [_ H].
  apply H. right. exact B149_17.
Qed.
