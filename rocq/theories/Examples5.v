(** * Examples for C75 and later properties, with the toy functions of Toy.v *)
From Coq Require Import Lia ZifyBool ZifyNat ZifyN.
From Verif Require Import Py Prims Const Spec PyFacts Utils UtilsFacts Base58 Base58Facts
  Curve SpecCurve CurveFacts CurveFacts2 Secp256k1 SecpFacts Cryptocurrencies Wif Bip38 SpecBip38 SpecRecords SpecSession SpecInterop
  CodecFacts CodecFacts2 Bip38Facts Bip38Facts2 Sessions RecordFacts ECFacts Toy PropEncrypt PropIntermediate PropDecrypt PropCreate PropEC SpecReads ReadFacts
  PropInterop PropUnique PropErrors PropRecreate SpecOutcome PropOutcome Examples.

(** ** C75: the two keys of C24, with and without a lot *)
Lemma created_reads P random network w a lot c ent pw code arg seed r : prims_ok P -> session btc network w a -> argument_bytes random arg seed ->
  List.length ent = 8%nat -> passphrase_code P lot ent pw code ->
  create_new_encrypted_wif P random btc code (wif_name c) arg network = Ok r ->
  exists ah h e2 ck, base58_reads (n_encrypted_wif r) ([x01; x43] ++ [ec_flag lot c] ++ ah ++ ent ++ h ++ e2 ++ ck) /\
    List.length ah = 4%nat /\ List.length h = 8%nat /\ List.length e2 = 16%nat /\ List.length ck = 4%nat.
Proof.
  intros HP HS A Le T E. destruct (C28_output P random btc network w a code (wif_name c) arg seed r HP HS A E)
    as (lot' & c' & ent' & pp & px & py & e & x & y & sr & tail & tail' & D & Le' & O & SC & _ & _ & _ & _ & _ & TN & _ & _ & R & Lt & _).
  destruct (passphrase_code_inv _ _ _ _ _ T) as (pwb & _ & _ & EC).
  apply (reads58check P HP) in D. rewrite EC in D. change bitcoin_alphabet with base58_alphabet in D. rewrite (check_decode_b58c P _ HP) in D. apply Ok_inj in D.
  change (code_magic lot') with (magic_bytes lot') in D.
  assert (lot' = lot).
  { apply (f_equal (fun l => nth 7 l x00)) in D. destruct lot, lot'; trivial; discriminate D. }
  subst lot'. apply app_inv_head in D. apply (f_equal (firstn 8)) in D.
  pose proof (upto_app 8 ent (ser true (pubof (be2z (pass_factor P lot pwb ent)))) Le) as X1. pose proof (upto_app 8 ent' pp Le') as X2.
  unfold upto in X1, X2. rewrite X1, X2 in D. subst ent'.
  assert (c' = c) by (destruct c, c'; trivial; discriminate TN). subst c'.
  exists (address_hash P (n_address r)), (firstn 8 tail), (skipn 8 tail), (checksum4 P ([x01; x43] ++ [ec_flag lot c] ++ address_hash P (n_address r) ++ ent ++ tail)).
  split; [|split; [apply checksum4_length, HP|split; [rewrite firstn_length; lia|split; [rewrite skipn_length; lia|apply checksum4_length, HP]]]].
  apply reads58. apply b58c_unique in R. rewrite R. unfold b58c. change bitcoin_alphabet with base58_alphabet. rewrite decode_b58.
  rewrite <- !app_assoc. rewrite (app_assoc (firstn 8 tail)), firstn_skipn. reflexivity.
Qed.
Example C75_met : exists P ah ent h e2 ck s pw d seed code,
  prims_ok P /\ base58_reads s ([x01; x43] ++ [ec_flag false true] ++ ah ++ ent ++ h ++ e2 ++ ck) /\
  List.length ah = 4%nat /\ List.length ent = 8%nat /\ List.length h = 8%nat /\ List.length e2 = 16%nat /\ List.length ck = 4%nat /\
  decrypt P btc s pw None true = Ok (DDetail d) /\ d_seed d = Some (hex seed) /\ List.length seed = 24%nat /\
  passphrase_code P false ent pw code /\ argument_bytes [] (PBytes seed) seed /\
  exists r, create_new_encrypted_wif P [] btc code (wif_name true) (PBytes seed) None = Ok r.
Proof.
  set (f := repeat x22 32). assert (Lf : List.length f = 32%nat) by reflexivity. exists (world f).
  destruct (plain_creates f seed11 Lf) as (code & r & I & T & E); [discriminate|discriminate|discriminate|vm_compute; reflexivity|vm_compute; reflexivity|].
  destruct (C24_key_exists (world f) [] btc None 0x80 0 false true salt8 pwS pwSb code (PBytes seed11) seed11 r (world_ok f Lf) btc_session seed11_arg eq_refl (pwS_bytes _ _) T E)
    as (k & S & PK & _ & SM).
  pose proof (world_key f false salt8 seed11 k ltac:(auto) Lf owner22_ok ltac:(discriminate) ltac:(discriminate) PK) as Ek. cbv iota in Ek.
  subst k. destruct (mask_of f false salt8 r S Lf SM) as (t & TT & -> & Ht & LT).
  destruct (C24_roundtrip_plain (world f) salt8 [] btc None 0x80 0 true pwS pwSb PNone salt8 code (PBytes seed11) seed11 r (repeat x22 32) _
    (world_ok f Lf) btc_session random_salt eq_refl I seed11_arg eq_refl E (pwS_bytes _ _) PK SM) as (d & D & _ & DS & DD & HX & _);
    [discriminate|destruct Ht as [-> | ->]; vm_compute; congruence|discriminate|].
  destruct (created_reads (world f) [] None 0x80 0 false true salt8 pwS code (PBytes seed11) seed11 r (world_ok f Lf) btc_session seed11_arg eq_refl T E)
    as (ah & h & e2 & ck & R & L1 & L2 & L3 & L4).
  exists ah, salt8, h, e2, ck, (n_encrypted_wif r), pwS, d, seed11, code. split; [apply world_ok, Lf|]. split; [exact R|].
  split; [exact L1|]. split; [reflexivity|]. split; [exact L2|]. split; [exact L3|]. split; [exact L4|]. split; [exact D|].
  split; [rewrite DD, HX; reflexivity|]. split; [reflexivity|]. split; [exact T|]. split; [exact seed11_arg|]. exists r. exact E.
Qed.
Example C75_lot_met : exists P ah ent h e2 ck s pw d seed code,
  prims_ok P /\ base58_reads s ([x01; x43] ++ [ec_flag true false] ++ ah ++ ent ++ h ++ e2 ++ ck) /\
  List.length ah = 4%nat /\ List.length ent = 8%nat /\ List.length h = 8%nat /\ List.length e2 = 16%nat /\ List.length ck = 4%nat /\
  decrypt P btc s pw None true = Ok (DDetail d) /\ d_seed d = Some (hex seed) /\ List.length seed = 24%nat /\
  d_lot d = Some 369861 /\ d_sequence d = Some 1 /\ slice 0 4 salt4 = slice 0 4 ent /\
  intermediate_code P [] pw (Some 369861) (Some 1) (PBytes salt4) = Ok code /\
  exists r, create_new_encrypted_wif P [] btc code (wif_name false) (PBytes seed) None = Ok r.
Proof.
  set (f := repeat x22 32). assert (Lf : List.length f = 32%nat) by reflexivity. exists (world f).
  destruct (key_okb_range _ owner22_ok) as [_ R]. destruct (pubof_ok _ R) as (_ & _ & O). destruct (tag_of _ O) as (t & xs & EP & Ht & Lx).
  destruct (lot_creates f seed11 t xs Lf owner22_ok EP Lx) as (code & r & I & T & E); [discriminate|discriminate|discriminate|destruct Ht as [-> | ->]; vm_compute; reflexivity|].
  destruct (C24_key_exists (world f) [] btc None 0x80 0 true false entL pwS pwSb code (PBytes seed11) seed11 r (world_ok f Lf) btc_session seed11_arg eq_refl (pwS_bytes _ _) T E)
    as (k & S & PK & _ & SM).
  pose proof (world_key f true entL seed11 k ltac:(auto) Lf owner22_ok ltac:(discriminate) ltac:(discriminate) PK) as Ek. cbv iota in Ek. subst k.
  destruct (mask_of f true entL r S Lf SM) as (t' & TT & -> & Ht' & LT).
  destruct (C24_roundtrip_lot (world f) [] [] btc None 0x80 0 false pwS pwSb 369861 1 (PBytes salt4) salt4 entL code (PBytes seed11) seed11 r f _
    (world_ok f Lf) btc_session given_salt (or_introl eq_refl) ltac:(lia) ltac:(lia) entL_ok I seed11_arg eq_refl E (pwS_bytes _ _) PK SM) as (d & D & _ & DS & DD & HX & _ & _ & _ & D1 & D2);
    [discriminate|destruct Ht' as [-> | ->]; vm_compute; congruence|discriminate|].
  destruct (created_reads (world f) [] None 0x80 0 true false entL pwS code (PBytes seed11) seed11 r (world_ok f Lf) btc_session seed11_arg eq_refl T E)
    as (ah & h & e2 & ck & RR & L1 & L2 & L3 & L4).
  exists ah, entL, h, e2, ck, (n_encrypted_wif r), pwS, d, seed11, code. split; [apply world_ok, Lf|]. split; [exact RR|].
  split; [exact L1|]. split; [reflexivity|]. split; [exact L2|]. split; [exact L3|]. split; [exact L4|]. split; [exact D|].
  split; [rewrite DD, HX; reflexivity|]. split; [reflexivity|]. split; [exact D1|]. split; [exact D2|]. split; [vm_compute; reflexivity|]. split; [exact I|].
  exists r. exact E.
Qed.

(** ** C76: a text with a wrong checksum and the marker byte 0x55 is encrypted *)
Example C76_met : exists raw e, base58_reads (b58 raw) raw /\ wif_payload 0x80 true (repeat x11 32) raw /\
  raw = [x80] ++ repeat x11 32 ++ [x55] ++ [x01; x02; x03; x04] /\ encrypt toy btc (b58 raw) pwS None = Ok e.
Proof.
  set (k := repeat x11 32). assert (Lk : List.length k = 32%nat) by reflexivity.
  assert (K : key_okb k = true) by (vm_compute; reflexivity).
  assert (H1 : nth 0 k x00 <> x22) by discriminate. assert (H2 : nth 16 k x00 <> x22) by discriminate.
  clearbody k. set (raw := [x80] ++ k ++ [x55] ++ [x01; x02; x03; x04]). exists raw.
  assert (R : base58_reads (b58 raw) raw) by (apply reads58; apply decode_b58).
  assert (W : wif_payload 0x80 true k raw) by (exists [x80], [x55], [x01; x02; x03; x04]; repeat split; trivial).
  assert (F : Forall (fun x => (x < 128)%N) pwS) by repeat constructor.
  destruct (toy_encrypts toy k (be2z k) true pwS toy_ok eq_refl eq_refl (proj1 (key_okb_spec k) K) F H1 H2) as (s & e & T & E).
  exists e. split; [exact R|]. split; [exact W|]. split; [reflexivity|].
  destruct (session_net_sel _ _ _ _ btc_session) as (n & N).
  rewrite (encrypt_payload toy btc None n 0x80 0 true k raw _ pwS toy_ok N R W), <- E. symmetry. exact (encrypt_wif toy btc None n 0x80 0 true k s pwS toy_ok N Lk T).
Qed.
(** ** C77: a seed of one byte makes a key, one of 24 bytes 0x22 is refused *)
Definition C77_case (f : bytes) (seed : bytes) (good : bool) : Prop := exists code px py pp kx ky address bx by_,
  prims_ok (world f) /\ session btc None 0x80 0 /\ argument_bytes [] (PBytes seed) seed /\
  base58check_reads (world f) code (code_magic false ++ salt8 ++ pp) /\ on_curve (Aff px py) /\ sec1_compressed px py pp /\
  scalar (sha256d (world f) seed) 1 /\ ec_multiple (Z.to_N 1) (Aff px py) (Aff kx ky) /\
  address_text (world f) bitcoin_alphabet 0 true kx ky address /\ public_point 1 bx by_ /\ sec1_compressed bx by_ (x02 :: gx) /\
  if good then exists r, create_new_encrypted_wif (world f) [] btc code (wif_name true) (PBytes seed) None = Ok r
  else create_new_encrypted_wif (world f) [] btc code (wif_name true) (PBytes seed) None = Raise (Builtin ValueError).
Lemma code_read f px py pp code : List.length f = 32%nat -> on_curve (Aff px py) -> sec1_compressed px py pp -> code_text (world f) false salt8 px py code ->
  base58check_reads (world f) code (code_magic false ++ salt8 ++ pp).
Proof.
  intros Lf O SC (pp' & SC' & TT). apply (reads58check _ (world_ok f Lf)).
  rewrite (serialised_unique true {| pk_x := px; pk_y := py |} pp O SC), <- (serialised_unique true {| pk_x := px; pk_y := py |} pp' O SC').
  apply b58c_unique in TT. rewrite TT. apply (check_decode_b58c _ _ (world_ok f Lf)).
Qed.
Example C77_met : C77_case (repeat x22 32) [x11] true.
Proof.
  set (f := repeat x22 32). assert (Lf : List.length f = 32%nat) by reflexivity.
  destruct (plain_setup f [x11] Lf ltac:(discriminate) ltac:(discriminate)) as (code & px & py & pp & kx & ky & ad & bx & by_ & t & xs & I & O & SC & CT & Sc & M & AT & Q & SB & EM & Ht & Lx).
  assert (A : argument_bytes [] (PBytes [x11]) [x11]) by (apply given_seed; discriminate).
  exists code, px, py, pp, kx, ky, ad, bx, by_. split; [apply world_ok, Lf|]. split; [exact btc_session|]. split; [exact A|].
  split; [exact (code_read f px py pp code Lf O SC CT)|].
  split; [exact O|]. split; [exact SC|]. split; [exact Sc|]. split; [exact M|]. split; [exact AT|]. split; [exact Q|]. split; [exact SB|].
  apply (C30_short_seed_accepted (world f) [] btc None 0x80 0 false true salt8 px py pp code (PBytes [x11]) [x11] 1 kx ky ad bx by_ (x02 :: gx)
      (world_ok f Lf) btc_session A ltac:(cbn [List.length]; lia) eq_refl O SC CT Sc M AT Q SB); rewrite EM; destruct Ht as [-> | ->]; vm_compute; congruence.
Qed.
Example C77_refused_met : C77_case (repeat x22 32) seed22 false.
Proof.
  set (f := repeat x22 32). assert (Lf : List.length f = 32%nat) by reflexivity.
  destruct (plain_setup f seed22 Lf ltac:(discriminate) ltac:(discriminate)) as (code & px & py & pp & kx & ky & ad & bx & by_ & t & xs & I & O & SC & CT & Sc & M & AT & Q & SB & EM & Ht & Lx).
  exists code, px, py, pp, kx, ky, ad, bx, by_. split; [apply world_ok, Lf|]. split; [exact btc_session|]. split; [exact (given_seed seed22 ltac:(discriminate))|].
  split; [exact (code_read f px py pp code Lf O SC CT)|].
  split; [exact O|]. split; [exact SC|]. split; [exact Sc|]. split; [exact M|]. split; [exact AT|]. split; [exact Q|]. split; [exact SB|].
  apply (C28_succeeds_iff (world f) [] btc None 0x80 0 false true salt8 px py pp code (PBytes seed22) seed22 1 kx ky ad bx by_ (x02 :: gx)
    (world_ok f Lf) btc_session (given_seed seed22 ltac:(discriminate)) eq_refl eq_refl O SC CT Sc M AT Q SB).
  unfold no_zero_block. rewrite EM. intros [H _]. apply H. vm_compute. reflexivity.
Qed.
(** ** C78: a call in each of the two modes, and one refused *)
Example C78_met : prims_ok toy /\ argument_bytes (repeat x01 8) PNone (repeat x01 8) /\
  (exists s, intermediate_code toy (repeat x01 8) (str "Satoshi") None None PNone = Ok s) /\
  (exists s, intermediate_code toy [] (str "Satoshi") (Some 369861) (Some 0) (PBytes [x01; x02; x03; x04]) = Ok s) /\
  exists m, intermediate_code toy [] (str "Satoshi") (Some 99999) (Some 1) (PBytes [x01; x02; x03; x04]) = Raise (Lib CError m).
Proof.
  split; [exact toy_ok|]. split; [left; auto|]. split; [destruct C21_plain_example as (s & E & _); exists s; exact E|]. split; [exact C23_example|].
  eexists. refine (proj1 (proj1 (proj2 (proj2 (proj2 (C78_outcome toy [] (PBytes [x01; x02; x03; x04]) [x01; x02; x03; x04] (str "Satoshi") (Some 99999) (Some 1) toy_ok _)))) _ 99999 1 eq_refl eq_refl _ _) _).
  - right. left. split; [reflexivity|discriminate].
  - left. reflexivity.
  - discriminate.
  - discriminate.
  - lia.
Qed.
