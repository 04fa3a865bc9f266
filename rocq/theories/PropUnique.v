(** * PropUnique: C53-C58 - what an encrypted key or an intermediate code
    determines, and encrypting a decrypted key again. *)
From Coq Require Import Lia ZifyBool ZifyNat ZifyN.
From Verif Require Import Py Prims Const Spec PyFacts Utils UtilsFacts Base58 Base58Facts
  Curve SpecCurve CurveFacts CurveFacts2 Secp256k1 SecpFacts Cryptocurrencies Wif Bip38 SpecBip38 SpecRecords SpecSession SpecInterop
  CodecFacts CodecFacts2 Bip38Facts Bip38Facts2 Sessions RecordFacts ECFacts Toy PropCodec PropEncrypt PropIntermediate PropDecrypt PropCreate PropEC PropInterop SpecReads ReadFacts.

(** ** Lists *)
Lemma app_split {A} (a b c d : list A) : List.length a = List.length c -> a ++ b = c ++ d -> a = c /\ b = d.
Proof.
  revert c. induction a as [|x a IH]; intros [|y c] L E; try discriminate; [auto|].
  cbn in L, E. injection E as -> E. destruct (IH c ltac:(lia) E) as [-> ->]. auto.
Qed.

(** ** C53: an encrypted key determines the private key *)
(** The same text under the same passphrase, on any two networks. *)
Theorem C53_plain_injective : forall P a a' c c' k k' pw e, prims_ok P -> 0 <= a -> 0 <= a' ->
  plain_encrypted P a c k pw e -> plain_encrypted P a' c' k' pw e -> c = c' /\ k = k'.
Proof.
  intros P a a' c c' k k' pw e HP Ha Ha' R R'.
  apply plain_encrypted_iff in R; [|exact Ha]. apply plain_encrypted_iff in R'; [|exact Ha'].
  destruct R as (K & pwb & B & E), R' as (K' & pwb' & B' & E').
  unfold passphrase_bytes in B, B'. rewrite B in B'. apply Ok_inj in B'. subst pwb'. rewrite E in E'. apply (b58c_inj P _ _ HP) in E'.
  destruct (key_okb_range _ K) as [Lk _], (key_okb_range _ K') as [Lk' _].
  set (ah := ahash P a c _) in *. set (ah' := ahash P a' c' _) in *.
  assert (La : List.length ah = 4%nat) by apply (ahash_length P HP). assert (La' : List.length ah' = 4%nat) by apply (ahash_length P HP).
  destruct (body_no_ec_split P HP c ah k pwb La Lk) as (e1 & e2 & X & L1 & L2 & D).
  destruct (body_no_ec_split P HP c' ah' k' pwb La' Lk') as (f1 & f2 & X' & M1 & M2 & D').
  rewrite X, X' in E'. apply app_split in E'; [|reflexivity]. destruct E' as [_ E'].
  apply app_split in E'; [|reflexivity]. destruct E' as [F E']. apply app_split in E'; [|congruence]. destruct E' as [EA E'].
  apply app_split in E'; [|congruence]. destruct E' as [-> ->]. split.
  - destruct c, c'; trivial; discriminate F.
  - rewrite <- EA in D'. congruence.
Qed.
Theorem C53_encrypt_injective : forall P self self' network network' w a w' a' c c' k k' s s' pw e, prims_ok P ->
  session self network w a -> session self' network' w' a' -> List.length k = 32%nat -> List.length k' = 32%nat ->
  wif_text P w c k s -> wif_text P w' c' k' s' ->
  encrypt P self s pw network = Ok e -> encrypt P self' s' pw network' = Ok e -> c = c' /\ k = k'.
Proof.
  intros P self self' network network' w a w' a' c c' k k' s s' pw e HP HS HS' L L' T T' E E'.
  destruct (session_net_sel _ _ _ _ HS) as (n & N), (session_net_sel _ _ _ _ HS') as (n' & N').
  apply (C53_plain_injective P a a' c c' k k' pw e HP (ns_a _ _ _ _ _ N) (ns_a _ _ _ _ _ N')).
  - apply (C14_encrypt_wif P self network w a c k s pw e HP HS L T E).
  - apply (C14_encrypt_wif P self' network' w' a' c' k' s' pw e HP HS' L' T' E').
Qed.

(** ** C54: different seeds give different keys *)
(** Two successful calls with the same intermediate code, on any networks and for
    any WIF types, that return the same encrypted WIF were given the same seed
    and the same type. *)
Theorem C54_seed_injective : forall P random random' self self' network network' w a w' a' code t t' arg arg' seed seed' r r', prims_ok P ->
  session self network w a -> session self' network' w' a' ->
  argument_bytes random arg seed -> argument_bytes random' arg' seed' -> List.length seed = 24%nat -> List.length seed' = 24%nat ->
  create_new_encrypted_wif P random self code t arg network = Ok r ->
  create_new_encrypted_wif P random' self' code t' arg' network' = Ok r' ->
  n_encrypted_wif r = n_encrypted_wif r' -> seed = seed' /\ t = t'.
Proof.
  intros P random random' self self' network network' w a w' a' code t t' arg arg' seed seed' r r' HP HS HS' A A' L L' E E' Q.
  destruct (session_net_sel _ _ _ _ HS) as (n & N), (session_net_sel _ _ _ _ HS') as (n' & N').
  apply argument_entropy in A, A'.
  destruct (create_inv P HP _ _ _ _ _ _ _ _ _ _ _ N A E) as (lot & c & ent & pp & ppk & cr & D & Le & Lp & T & CR & V).
  destruct (create_inv P HP _ _ _ _ _ _ _ _ _ _ _ N' A' E') as (lot' & c' & ent' & pp' & ppk' & cr' & D' & Le' & Lp' & T' & CR' & V').
  rewrite D in D'. apply Ok_inj in D'. apply app_split in D'; [|destruct lot, lot'; reflexivity]. destruct D' as [_ D'].
  apply app_split in D'; [|congruence]. destruct D' as [<- <-].
  rewrite V, V' in Q. unfold new_wif_of in Q. cbv zeta in Q. cbn [n_encrypted_wif] in Q. apply (b58c_inj P _ _ HP) in Q.
  destruct (creation_len P HP _ _ _ _ _ _ _ _ CR) as (La & LS & L1 & L2 & _ & _ & LK & LA & LB).
  destruct (creation_len P HP _ _ _ _ _ _ _ _ CR') as (La' & LS' & L1' & L2' & _ & _ & LK' & LA' & LB').
  apply app_split in Q; [|reflexivity]. destruct Q as [_ Q]. apply app_split in Q; [|reflexivity]. destruct Q as [F Q].
  apply app_split in Q; [|congruence]. destruct Q as [EA Q]. apply app_split in Q; [|reflexivity]. destruct Q as [_ Q].
  apply app_split in Q; [|rewrite !upto_length by lia; reflexivity]. destruct Q as [U1 U2].
  assert (ES : cr_S cr = cr_S cr') by (rewrite (cn_S _ _ _ _ _ _ _ _ _ CR), (cn_S _ _ _ _ _ _ _ _ _ CR'), EA; reflexivity).
  assert (H : forall sd ccr lo cc aa pk, creation P aa lo cc ent pp sd pk ccr -> List.length sd = 24%nat ->
    cr_E1 ccr = h_aes_enc P (from 32 (cr_S ccr)) (xor (upto 16 sd) (upto 16 (cr_S ccr))) /\
    cr_E2 ccr = h_aes_enc P (from 32 (cr_S ccr)) (xor (from 8 (cr_E1 ccr) ++ from 16 sd) (slice 16 32 (cr_S ccr)))).
  { intros sd ccr lo cc aa pk X Ls. destruct (creation_len P HP _ _ _ _ _ _ _ _ X) as (Xa & XS & X1 & X2 & _ & _ & XK & XA & XB).
    pose proof (cn_E1 _ _ _ _ _ _ _ _ _ X) as H1. pose proof (cn_E2 _ _ _ _ _ _ _ _ _ X) as H2.
    assert (Y1 : List.length (upto 16 sd) = 16%nat) by (apply upto_length; lia).
    assert (Y2 : List.length (from 8 (cr_E1 ccr) ++ from 16 sd) = 16%nat) by (rewrite app_length, !from_length; lia).
    rewrite xor_right_eq in H1, H2 by congruence.
    apply enc_block_inv16 in H1; [|rewrite xor_length; congruence]. apply enc_block_inv16 in H2; [|rewrite xor_length; congruence].
    split; [apply (proj1 H1)|apply (proj1 H2)]. }
  destruct (H _ _ _ _ _ _ CR L) as [E1 E2], (H _ _ _ _ _ _ CR' L') as [E1' E2']. clear H.
  assert (I : forall key x y s, List.length key = 32%nat -> List.length x = 16%nat -> List.length y = 16%nat -> List.length s = 16%nat ->
    h_aes_enc P key (xor x s) = h_aes_enc P key (xor y s) -> x = y).
  { intros key x y s Lk Lx Ly Lss X. apply (f_equal (h_aes_dec P key)) in X.
    rewrite !(aes_dec_enc P HP) in X by (trivial; rewrite xor_length; congruence).
    apply (f_equal (fun z => xor z s)) in X. rewrite !xor_cancel in X by congruence. exact X. }
  assert (J2 : from 8 (cr_E1 cr) ++ from 16 seed = from 8 (cr_E1 cr') ++ from 16 seed').
  { apply (I (from 32 (cr_S cr)) _ _ (slice 16 32 (cr_S cr)) LK); [rewrite app_length, !from_length; lia|rewrite app_length, !from_length; lia|exact LB|].
    rewrite <- E2, U2, E2', ES. reflexivity. }
  apply app_split in J2; [|rewrite !from_length; lia]. destruct J2 as [J8 J16].
  assert (J1 : cr_E1 cr = cr_E1 cr') by (rewrite <- (upto_from 8 (cr_E1 cr)), U1, J8; apply upto_from).
  assert (J0 : upto 16 seed = upto 16 seed').
  { apply (I (from 32 (cr_S cr)) _ _ (upto 16 (cr_S cr)) LK); [apply upto_length; lia|apply upto_length; lia|exact LA|].
    rewrite <- E1, J1, E1', ES. reflexivity. }
  split; [rewrite <- (upto_from 16 seed), J0, J16; apply upto_from|].
  rewrite T, T'. destruct lot, lot', c, c'; trivial; discriminate F.
Qed.

(** ** C55: an intermediate code determines its parameters *)
Theorem C55_code_determines : forall P lot lot' ent ent' pw pw' s, prims_ok P -> List.length ent = List.length ent' ->
  passphrase_code P lot ent pw s -> passphrase_code P lot' ent' pw' s ->
  lot = lot' /\ ent = ent' /\
  exists pwb pwb', passphrase_bytes P pw pwb /\ passphrase_bytes P pw' pwb' /\ owner_factor P lot pwb ent = owner_factor P lot pwb' ent.
Proof.
  intros P lot lot' ent ent' pw pw' s HP L (pwb & e & x & y & B & S & Q & T) (pwb' & e' & x' & y' & B' & S' & Q' & T').
  destruct (scalar_be2z _ _ S) as [-> K], (scalar_be2z _ _ S') as [-> K'].
  destruct (key_okb_range _ K) as [LF R], (key_okb_range _ K') as [LF' R'].
  apply public_point_iff in Q; [|exact R]. apply public_point_iff in Q'; [|exact R'].
  destruct (pubof_ok _ R) as (_ & PP & O), (pubof_ok _ R') as (_ & PP' & O').
  apply code_text_iff in T; [|rewrite Q in O; exact O]. apply code_text_iff in T'; [|rewrite Q' in O'; exact O'].
  rewrite <- Q in T. rewrite <- Q' in T'. rewrite T in T'. apply (b58c_inj P _ _ HP) in T'.
  apply app_split in T'; [|destruct lot, lot'; reflexivity]. destruct T' as [M T']. apply app_split in T'; [|exact L]. destruct T' as [EE EP].
  assert (EL : lot = lot') by (destruct lot, lot'; trivial; discriminate M). subst lot' ent'.
  split; [reflexivity|]. split; [reflexivity|]. exists pwb, pwb'. split; [exact B|]. split; [exact B'|].
  apply be2z_inj; [congruence|]. apply (ec_mul_G_inj _ _); [lia|lia|]. rewrite <- PP, <- PP'.
  apply (f_equal PublicKey_from_bytes) in EP. rewrite !from_bytes_ser in EP by assumption. apply Ok_inj in EP. rewrite EP. reflexivity.
Qed.
(** for intermediate_code: with lot and sequence numbers ... *)
Theorem C55_lot_injective : forall P random random' arg arg' salt salt' pw pw' l q l' q' s, prims_ok P ->
  argument_bytes random arg salt -> argument_bytes random' arg' salt' ->
  List.length salt = 4%nat \/ List.length salt = 8%nat -> List.length salt' = 4%nat \/ List.length salt' = 8%nat ->
  100000 <= l <= 999999 -> 1 <= q <= 4095 -> 100000 <= l' <= 999999 -> 1 <= q' <= 4095 ->
  intermediate_code P random pw (Some l) (Some q) arg = Ok s ->
  intermediate_code P random' pw' (Some l') (Some q') arg' = Ok s ->
  l = l' /\ q = q' /\ slice 0 4 salt = slice 0 4 salt'.
Proof.
  intros P random random' arg arg' salt salt' pw pw' l q l' q' s HP A A' LS LS' Hl Hq Hl' Hq' E E'.
  apply (C21_lot_code P random arg salt pw l q s HP A LS Hl Hq) in E.
  apply (C21_lot_code P random' arg' salt' pw' l' q' s HP A' LS' Hl' Hq') in E'.
  destruct E as (ent & (ls & [L1 V1] & ->) & C), E' as (ent' & (ls' & [L1' V1'] & ->) & C').
  assert (Y : List.length (slice 0 4 salt) = 4%nat) by (rewrite slice_length; lia).
  assert (Y' : List.length (slice 0 4 salt') = 4%nat) by (rewrite slice_length; lia).
  assert (LL : List.length (slice 0 4 salt ++ ls) = List.length (slice 0 4 salt' ++ ls')) by (rewrite !app_length; congruence).
  destruct (C55_code_determines P true true _ _ pw pw' s HP LL C C') as (_ & EE & _).
  apply app_split in EE; [|congruence]. destruct EE as [-> ->]. split; [lia|]. split; [lia|reflexivity].
Qed.
(** ... without them ... *)
Theorem C55_plain_injective : forall P random random' arg arg' salt salt' pw pw' s, prims_ok P ->
  argument_bytes random arg salt -> argument_bytes random' arg' salt' -> List.length salt = 8%nat -> List.length salt' = 8%nat ->
  intermediate_code P random pw None None arg = Ok s -> intermediate_code P random' pw' None None arg' = Ok s -> salt = salt'.
Proof.
  intros P random random' arg arg' salt salt' pw pw' s HP A A' LS LS' E E'.
  apply (C21_plain_code P random arg salt pw s HP A LS) in E. apply (C21_plain_code P random' arg' salt' pw' s HP A' LS') in E'.
  assert (LL : List.length salt = List.length salt') by congruence.
  apply (C55_code_determines P false false _ _ pw pw' s HP LL E E').
Qed.
(** ... and never the same code with and without. *)
Theorem C55_kinds_differ : forall P random random' arg arg' salt salt' pw pw' l q s s', prims_ok P ->
  argument_bytes random arg salt -> argument_bytes random' arg' salt' ->
  List.length salt = 4%nat \/ List.length salt = 8%nat -> List.length salt' = 8%nat ->
  100000 <= l <= 999999 -> 1 <= q <= 4095 ->
  intermediate_code P random pw (Some l) (Some q) arg = Ok s -> intermediate_code P random' pw' None None arg' = Ok s' -> s <> s'.
Proof.
  intros P random random' arg arg' salt salt' pw pw' l q s s' HP A A' LS LS' Hl Hq E E' <-.
  apply (C21_lot_code P random arg salt pw l q s HP A LS Hl Hq) in E. apply (C21_plain_code P random' arg' salt' pw' s HP A' LS') in E'.
  destruct E as (ent & (ls & [L1 V1] & ->) & C).
  assert (Y : List.length (slice 0 4 salt) = 4%nat) by (rewrite slice_length; lia).
  assert (LL : List.length (slice 0 4 salt ++ ls) = List.length salt') by (rewrite !app_length, Y, L1, LS'; reflexivity).
  destruct (C55_code_determines P true false _ _ pw pw' s HP LL C E') as (X & _). discriminate X.
Qed.

(** ** C56: one seed, one key *)
(** The WIF type and the network do not change the key behind a seed. *)
Theorem C56_same_key : forall P random random' self self' network network' w a w' a' c c' lot ent pw pwb code arg arg' seed r r', prims_ok P ->
  session self network w a -> session self' network' w' a' ->
  argument_bytes random arg seed -> argument_bytes random' arg' seed -> List.length ent = 8%nat ->
  passphrase_bytes P pw pwb -> passphrase_code P lot ent pw code ->
  create_new_encrypted_wif P random self code (wif_name c) arg network = Ok r ->
  create_new_encrypted_wif P random' self' code (wif_name c') arg' network' = Ok r' ->
  n_seed r = n_seed r' /\
  exists k, ec_private_key P lot pwb ent seed k /\ key_address P a c k (n_address r) /\ key_address P a' c' k (n_address r').
Proof.
  intros P random random' self self' network network' w a w' a' c c' lot ent pw pwb code arg arg' seed r r' HP HS HS' A A' Le B PC E E'.
  destruct (C24_key_exists P random self network w a lot c ent pw pwb code arg seed r HP HS A Le B PC E) as (k & _ & (e1 & e2 & S1 & S2 & FK) & AD & _).
  destruct (C24_key_exists P random' self' network' w' a' lot c' ent pw pwb code arg' seed r' HP HS' A' Le B PC E') as (k' & _ & (e1' & e2' & S1' & S2' & FK') & AD' & _).
  destruct (scalar_be2z _ _ S1) as [-> _], (scalar_be2z _ _ S1') as [-> _], (scalar_be2z _ _ S2) as [-> _], (scalar_be2z _ _ S2') as [-> _].
  assert (EK : k' = k) by (rewrite (fixed_unique _ _ _ FK), (fixed_unique _ _ _ FK'); reflexivity). subst k'.
  split.
  - destruct (C28_output P random self network w a code _ arg seed r HP HS A E) as (? & ? & ? & ? & ? & ? & ? & ? & ? & ? & ? & ? & _ & _ & _ & _ & _ & _ & _ & _ & _ & _ & N1 & _).
    destruct (C28_output P random' self' network' w' a' code _ arg' seed r' HP HS' A' E') as (? & ? & ? & ? & ? & ? & ? & ? & ? & ? & ? & ? & _ & _ & _ & _ & _ & _ & _ & _ & _ & _ & N2 & _).
    congruence.
  - exists k. split; [exists (be2z (owner_factor P lot pwb ent)), (be2z (sha256d P seed)); auto|auto].
Qed.

(** ** C57: a WIF of another network is not encrypted *)
Theorem C57_other_network : forall P self network w a w' pre pre' c k s pw, prims_ok P -> session self network w a ->
  List.length k = 32%nat -> minimal_bytes w' pre' -> minimal_bytes w pre -> List.length pre' = List.length pre -> w' <> w ->
  wif_text P w' c k s -> encrypt P self s pw network = Raise (Lib CWIFError "Invalid Wallet Import Format (WIF)").
Proof.
  intros P self network w a w' p p' c k s pw HP HS L M' M LL NE T. destruct (session_net_sel _ _ _ _ HS) as (n & N).
  rewrite (encrypt_eq P HP _ _ _ _ _ _ _ N), (C09_other_prefix P w' w p' p c k s HP L M' M LL NE T). reflexivity.
Qed.

(** ** C58: encrypting a decrypted key again *)
(** A block cipher that can be inverted on one side can be inverted on the other:
    there are finitely many blocks. *)
Definition all_byte_list : list byte := List.map (fun n => z2b (Z.of_nat n)) (seq 0 256).
Lemma all_byte_list_in b : In b all_byte_list.
Proof. destruct b; vm_compute; tauto. Qed.
Fixpoint all_blocks (n : nat) : list bytes :=
  match n with
  | O => [[]]
  | S m => List.flat_map (fun b => List.map (cons b) (all_blocks m)) all_byte_list
  end.
Lemma all_blocks_in n l : In l (all_blocks n) <-> List.length l = n.
Proof.
  revert l. induction n as [|n IH]; intros l; cbn [all_blocks].
  - split; [intros [<-|[]]; reflexivity|]. destruct l; [left; reflexivity|discriminate].
  - rewrite in_flat_map. split.
    + intros (b & _ & H). apply in_map_iff in H. destruct H as (r & <- & H). cbn [List.length]. f_equal. apply IH, H.
    + destruct l as [|b r]; [discriminate|]. intros H. exists b. split; [apply all_byte_list_in|]. apply in_map_iff. exists r. split; [reflexivity|]. apply IH. cbn in H. lia.
Qed.
Lemma bytes_dec (a b : bytes) : {a = b} + {a <> b}. Proof. decide equality. apply Byte.byte_eq_dec. Qed.
Lemma left_right_inverse n (f g : bytes -> bytes) :
  (forall b, List.length b = n -> List.length (f b) = n) -> (forall b, List.length b = n -> g (f b) = b) ->
  forall b, List.length b = n -> f (g b) = b.
Proof.
  intros Lf GF b Lb. set (L := nodup bytes_dec (all_blocks n)).
  assert (IN : forall l, In l L <-> List.length l = n) by (intros l; unfold L; rewrite nodup_In; apply all_blocks_in).
  assert (ND : NoDup L) by apply NoDup_nodup.
  assert (NDM : NoDup (List.map f L)).
  { assert (X : forall l, NoDup l -> (forall x, In x l -> List.length x = n) -> NoDup (List.map f l)).
    { induction l as [|x l IHl]; intros N H; [constructor|]. inversion N as [|? ? Nx Nl]. subst. cbn [List.map]. constructor.
      - intros Y. apply in_map_iff in Y. destruct Y as (y & E & Y). apply Nx.
        rewrite <- (GF x), <- E, GF; [exact Y|apply H; right; exact Y|apply H; left; reflexivity].
      - apply IHl; [exact Nl|]. intros y Y. apply H. right. exact Y. }
    apply X; [exact ND|]. intros x. apply IN. }
  assert (INC : incl L (List.map f L)).
  { apply NoDup_length_incl; [exact NDM|rewrite map_length; lia|]. intros x H. apply in_map_iff in H. destruct H as (y & <- & H). apply IN, Lf, IN, H. }
  apply IN in Lb. apply INC, in_map_iff in Lb. destruct Lb as (y & <- & H). rewrite GF; [reflexivity|apply IN, H].
Qed.
Lemma aes_enc_dec P k b : prims_ok P -> List.length k = 32%nat -> List.length b = 16%nat -> h_aes_enc P k (h_aes_dec P k b) = b.
Proof.
  intros HP Lk. revert b. apply left_right_inverse; intros b Lb; [apply (aes_enc_len P HP)|apply (aes_dec_enc P HP)]; assumption.
Qed.

(** decrypt gave the WIF [wif] for the 39 bytes 0x0142, flag, address hash and two
    halves (and any four bytes after them).  Then encrypt gives back exactly those
    39 bytes with their checksum, unless one of the masked halves starts with a zero
    byte: then it raises ValueError. *)
Theorem C58_encrypt_decrypted : forall P self network w a c ah h1 h2 ck s pw pwb wif, prims_ok P -> session self network w a ->
  base58_reads s ([x01; x42] ++ [plain_flag c] ++ ah ++ h1 ++ h2 ++ ck) ->
  List.length ah = 4%nat -> List.length h1 = 16%nat -> List.length h2 = 16%nat -> List.length ck = 4%nat ->
  passphrase_bytes P pw pwb -> decrypt P self s pw network false = Ok (DWif wif) ->
  let key := slice 32 64 (strong_kdf P pwb ah) in
  (first_byte (h_aes_dec P key h1) <> x00 /\ first_byte (h_aes_dec P key h2) <> x00 ->
   exists e, encrypt P self wif pw network = Ok e /\
     base58check_text P bitcoin_alphabet ([x01; x42] ++ [plain_flag c] ++ ah ++ h1 ++ h2) e) /\
  (first_byte (h_aes_dec P key h1) = x00 \/ first_byte (h_aes_dec P key h2) = x00 ->
   encrypt P self wif pw network = Raise (Builtin ValueError)).
Proof.
  intros P self network w a c ah h1 h2 ck s pw pwb wif HP HS D La L1 L2 Lc B E key. to_code. destruct (session_net_sel _ _ _ _ HS) as (n & N).
  pose proof (ns_w _ _ _ _ _ N) as Hw. pose proof (ns_a _ _ _ _ _ N) as Ha.
  destruct (C50_plain_outcome P self network w a c ah h1 h2 ck s pw pwb false HP HS (proj2 (reads58 _ _) D) La L1 L2 Lc B) as (O1 & O2 & O3). cbv zeta in *.
  destruct (kdf_parts P HP pwb ah) as (K1 & K2 & K3 & K4). change (strong_kdf P pwb ah) with (kdf P pwb ah) in *.
  assert (Lk : List.length (plain_unmask P pwb ah h1 h2) = 32%nat).
  { unfold plain_unmask. cbv zeta. change (strong_kdf P pwb ah) with (kdf P pwb ah). rewrite xor_length; rewrite app_length, !(aes_dec_len P HP) by assumption; [reflexivity|].
    rewrite K1. reflexivity. }
  remember (plain_unmask P pwb ah h1 h2) as k eqn:Ek.
  destruct (Z_le_dec 1 (be_value k)) as [R1|R1]; [|rewrite O1 in E by (left; rewrite be_value_be2z in *; pose proof (be2z_bound k); lia); discriminate].
  destruct (Z_lt_dec (be_value k) secp_n) as [R2|R2]; [|rewrite O1 in E by (right; lia); discriminate].
  destruct (Byte.byte_eq_dec (first_byte k) x00) as [Z|Z]; [rewrite (O2 (conj R1 R2) Z) in E; discriminate|].
  destruct (O3 (conj R1 R2) Z) as (address & KA & W1 & W2). clear O1 O2 O3.
  destruct (list_eq_dec Byte.byte_eq_dec (address_hash P address) ah) as [EH|EH]; [|rewrite (W1 EH) in E; discriminate].
  destruct (W2 EH) as (d & (WT & _) & _ & _ & _ & E'). rewrite E' in E. apply Ok_inj in E. assert (EW : d_wif d = wif) by congruence. rewrite EW in WT. clear W1 W2 E E' EW d.
  apply key_address_iff in KA; [|exact Ha]. destruct KA as [K EA].
  rewrite (encrypt_wif P self network n w a c k wif pw HP N Lk WT). unfold encrypt_result. rewrite K. unfold passphrase_bytes in B. rewrite B. cbv zeta.
  assert (EH' : ahash P a c (pubof (be2z k)) = ah) by (rewrite <- EH, EA; reflexivity). rewrite EH'.
  assert (LD1 : List.length (h_aes_dec P key h1) = 16%nat) by (apply (aes_dec_len P HP); assumption).
  assert (LD2 : List.length (h_aes_dec P key h2) = 16%nat) by (apply (aes_dec_len P HP); assumption).
  assert (SP : slice 0 16 k = xor (h_aes_dec P key h1) (slice 0 16 (kdf P pwb ah)) /\ slice 16 32 k = xor (h_aes_dec P key h2) (slice 16 32 (kdf P pwb ah))).
  { rewrite Ek. unfold plain_unmask. cbv zeta. change (strong_kdf P pwb ah) with (kdf P pwb ah). fold key.
    rewrite <- (slice_app2 (kdf P pwb ah)), xor_app by congruence.
    set (u := xor _ _). set (v := xor (h_aes_dec P key h2) _).
    assert (Lu : List.length u = 16%nat) by (unfold u; rewrite xor_length; congruence). assert (Lv : List.length v = 16%nat) by (unfold v; rewrite xor_length; congruence).
    split; [apply (slice_app 0 16 [] u v); [reflexivity|exact Lu]|]. rewrite <- (app_nil_r (u ++ v)), <- app_assoc. apply (slice_app 16 32 u v []); assumption. }
  destruct SP as [P1 P2].
  assert (M1 : mask1 P k pwb ah = h_aes_dec P key h1) by (unfold mask1; rewrite P1; apply xor_cancel; congruence).
  assert (M2 : mask2 P k pwb ah = h_aes_dec P key h2) by (unfold mask2; rewrite P2; apply xor_cancel; congruence).
  rewrite M1, M2. split.
  - intros [Z1 Z2]. apply zero_first_false in Z1, Z2. rewrite Z1, Z2. cbn [orb]. eexists. split; [reflexivity|].
    unfold body_no_ec. rewrite M1, M2. fold key. rewrite !aes_enc_dec by assumption. apply b58c_text.
  - intros [Z1|Z1]; apply zero_first_spec in Z1; rewrite Z1, ?orb_true_r; reflexivity.
Qed.
(** In particular for a text made by any conforming program. *)
Theorem C58_conforming_reproduced : forall P self network w a c k s pw pwb address e, prims_ok P -> session self network w a ->
  plain_encrypted P a c k pw e -> first_byte k <> x00 ->
  decrypt P self e pw network false = Ok (DWif s) -> passphrase_bytes P pw pwb -> key_address P a c k address ->
  let S := strong_kdf P pwb (address_hash P address) in
  (nth 0 k x00 <> nth 0 S x00 /\ nth 16 k x00 <> nth 16 S x00 -> encrypt P self s pw network = Ok e) /\
  (nth 0 k x00 = nth 0 S x00 \/ nth 16 k x00 = nth 16 S x00 -> encrypt P self s pw network = Raise (Builtin ValueError)).
Proof.
  intros P self network w a c k s pw pwb address e HP HS R Z D B KA S. destruct (session_net_sel _ _ _ _ HS) as (n & N).
  pose proof (ns_w _ _ _ _ _ N) as Hw. pose proof (ns_a _ _ _ _ _ N) as Ha.
  assert (K : key_okb k = true) by (apply key_address_iff in KA; [apply KA|exact Ha]). destruct (key_okb_range _ K) as [Lk _].
  destruct (C48_conforming_key P self network w a c k (wif_of P w c k) pw e HP HS R (wif_of_text P w c k Hw)) as [H _]. destruct (H Z) as [H' _].
  rewrite H' in D. apply Ok_inj in D. assert (ES : wif_of P w c k = s) by congruence. clear D H H'.
  assert (WT : wif_text P w c k s) by (rewrite <- ES; apply wif_of_text, Hw).
  destruct (C13_encrypt_succeeds_iff P self network w a c k (be2z k) s pw pwb address HP HS (proj1 (key_okb_spec k) K) WT B KA) as [X Y].
  split; [|exact Y]. intros G. apply X in G. destruct G as [e' E']. rewrite E'. f_equal.
  pose proof (C14_encrypt_wif P self network w a c k s pw e' HP HS Lk WT E') as R'.
  apply plain_encrypted_iff in R; [|exact Ha]. apply plain_encrypted_iff in R'; [|exact Ha].
  destruct R as (_ & pwb1 & B1 & ->), R' as (_ & pwb2 & B2 & ->). unfold passphrase_bytes in *. rewrite B1 in B2. apply Ok_inj in B2. subst. reflexivity.
Qed.
