(** * Examples4: concrete cases that meet the hypotheses of the theorems of
    PropUnique.v, PropHistory.v and PropLotText.v, with the toy functions of Toy.v. *)
From Coq Require Import Lia ZifyBool ZifyNat ZifyN.
From Verif Require Import Py Prims Const Spec PyFacts Utils UtilsFacts Base58 Base58Facts
  Curve SpecCurve CurveFacts CurveFacts2 Secp256k1 SecpFacts Cryptocurrencies Wif Bip38 SpecBip38 SpecRecords SpecSession SpecInterop
  CodecFacts CodecFacts2 Bip38Facts Bip38Facts2 Sessions RecordFacts ECFacts Toy PropCodec PropEncrypt PropIntermediate PropDecrypt PropCreate PropEC
  PropShape PropInterop PropUnique History PropHistory LotText PropLotText Examples Examples2 Examples3.

(** ** C53: the keys 0x11..11 and 0x12..12 encrypt, to different texts *)
Lemma toy_enc_ex c k : key_okb k = true -> nth 0 k x00 <> x22 -> nth 16 k x00 <> x22 ->
  exists s e, wif_text toy 0x80 c k s /\ encrypt toy btc s pwS None = Ok e.
Proof.
  intros K H1 H2. assert (F : Forall (fun x => (x < 128)%N) pwS) by repeat constructor.
  exact (toy_encrypts toy k (be2z k) c pwS toy_ok eq_refl eq_refl (proj1 (key_okb_spec k) K) F H1 H2).
Qed.
Example C53_example : exists s s' e e', wif_text toy 0x80 true (repeat x11 32) s /\ wif_text toy 0x80 true (repeat x12 32) s' /\
  encrypt toy btc s pwS None = Ok e /\ encrypt toy btc s' pwS None = Ok e' /\ e <> e'.
Proof.
  destruct (toy_enc_ex true (repeat x11 32)) as (s & e & T & E); [vm_compute; reflexivity|discriminate|discriminate|].
  destruct (toy_enc_ex true (repeat x12 32)) as (s' & e' & T' & E'); [vm_compute; reflexivity|discriminate|discriminate|].
  exists s, s', e, e'. split; [exact T|]. split; [exact T'|]. split; [exact E|]. split; [exact E'|]. intros Q. rewrite <- Q in E'.
  destruct (C53_encrypt_injective toy btc btc None None 0x80 0 0x80 0 true true (repeat x11 32) (repeat x12 32) s s' pwS e
    toy_ok btc_session btc_session eq_refl eq_refl T T' E E') as [_ X]. discriminate X.
Qed.

(** ** C54: the seeds 0x11..11 and 0x12..12 *)
Definition seed12 : bytes := repeat x12 24.
Example C54_example : exists code r r', create_new_encrypted_wif (world fx) [] btc code (wif_name true) (PBytes seed11) None = Ok r /\
  create_new_encrypted_wif (world fx) [] btc code (wif_name true) (PBytes seed12) None = Ok r' /\ n_encrypted_wif r <> n_encrypted_wif r'.
Proof.
  destruct (plain_creates fx seed11 fx_length) as (code & r & I & T & E); [discriminate|discriminate|discriminate|vm_compute; reflexivity|vm_compute; reflexivity|].
  destruct (plain_creates fx seed12 fx_length) as (code' & r' & I' & T' & E'); [discriminate|discriminate|discriminate|vm_compute; reflexivity|vm_compute; reflexivity|].
  rewrite I in I'. apply Ok_inj in I'. subst code'. exists code, r, r'. split; [exact E|]. split; [exact E'|]. intros Q.
  destruct (C54_seed_injective (world fx) [] [] btc btc None None 0x80 0 0x80 0 code _ _ _ _ seed11 seed12 r r' (world_ok fx fx_length) btc_session btc_session
    seed11_arg (given_seed seed12 ltac:(discriminate)) eq_refl eq_refl E E' Q) as [X _]. discriminate X.
Qed.

(** ** C55: a salt of 8 bytes gives the same code as its first 4 bytes, when there is a lot *)
Example C55_lot_example : exists code, intermediate_code (world fx) [] pwS (Some 369861) (Some 1) (PBytes salt4) = Ok code /\
  intermediate_code (world fx) [] pwS (Some 369861) (Some 1) (PBytes salt8) = Ok code.
Proof.
  destruct (lot_code fx (z2be 32 1) fx_length L1_32 owner22_ok) as (code & I & T). exists code. split; [exact I|].
  rewrite (intermediate_lot_eq (world fx) [] (PBytes salt8) salt8 pwS 369861 1 eq_refl) by (auto || lia).
  rewrite <- (I : intermediate_code (world fx) _ _ _ _ _ = _). symmetry.
  rewrite (intermediate_lot_eq (world fx) [] (PBytes salt4) salt4 pwS 369861 1 eq_refl) by (auto || lia). reflexivity.
Qed.
(** one salt given as bytes and as hexadecimal text gives one code *)
Example C55_plain_example : exists code, intermediate_code (world fx) salt8 pwS None None PNone = Ok code /\
  intermediate_code (world fx) [] pwS None None (PStr (str "0101010101010101")) = Ok code /\
  argument_bytes [] (PStr (str "0101010101010101")) salt8.
Proof.
  destruct (plain_code fx (z2be 32 1) fx_length L1_32) as (code & I & T). exists code. split; [exact I|].
  assert (A : argument_bytes [] (PStr (str "0101010101010101")) salt8)
    by (right; right; exists (str "0101010101010101"); repeat split; try discriminate; vm_compute; reflexivity).
  split; [|exact A]. rewrite <- (I : intermediate_code (world fx) _ _ _ _ _ = _). symmetry.
  rewrite (intermediate_plain_eq (world fx) salt8 PNone salt8 pwS None None eq_refl) by (left; auto).
  rewrite (intermediate_plain_eq (world fx) [] (PStr (str "0101010101010101")) salt8 pwS None None eq_refl) by (left; auto). reflexivity.
Qed.
Example C55_kinds_example : exists code code', intermediate_code (world fx) [] pwS (Some 369861) (Some 1) (PBytes salt4) = Ok code /\
  intermediate_code (world fx) salt8 pwS None None PNone = Ok code' /\ code <> code'.
Proof.
  destruct (lot_code fx (z2be 32 1) fx_length L1_32 owner22_ok) as (code & I & T).
  destruct (plain_code fx (z2be 32 1) fx_length L1_32) as (code' & I' & T'). exists code, code'. split; [exact I|]. split; [exact I'|].
  apply (C55_kinds_differ (world fx) [] salt8 (PBytes salt4) PNone salt4 salt8 pwS pwS 369861 1 code code' (world_ok fx fx_length) given_salt random_salt);
    trivial; auto; lia.
Qed.

(** ** C56: one seed on two networks, compressed and not *)
Example C56_example : exists code r r', passphrase_code (world fx) false salt8 pwS code /\
  create_new_encrypted_wif (world fx) [] btc code (wif_name true) (PBytes seed11) None = Ok r /\
  create_new_encrypted_wif (world fx) [] btc code (wif_name false) (PBytes seed11) (Some (str "testnet")) = Ok r'.
Proof.
  destruct (plain_creates fx seed11 fx_length) as (code & r & I & T & E); [discriminate|discriminate|discriminate|vm_compute; reflexivity|vm_compute; reflexivity|].
  destruct owner_point as (x & y & pp & t & xs & Sc & Q & SC & EP & Ht & Lx).
  destruct (key_okb_range _ owner22_ok) as [_ R]. destruct (pubof_ok _ R) as (_ & _ & O). destruct (tag_of _ O) as (t' & xs' & EP' & Ht' & Lx').
  destruct (toy_creates fx 1 fx_length one_ok one_not44 [] (Some (str "testnet")) 0xef 0x6f false false salt8 pwS pwSb code (PBytes seed11) seed11 t' xs' btc_testnet_session seed11_arg eq_refl) as (r' & E');
    trivial; [apply pwS_bytes|discriminate|discriminate|destruct Ht' as [-> | ->]; vm_compute; reflexivity|].
  exists code, r, r'. auto.
Qed.

(** ** C57: a Bitcoin mainnet WIF given to a testnet session *)
Example C57_example : exists s, wif_text toy 0x80 true (repeat x11 32) s /\
  encrypt toy btc s pwS (Some (str "testnet")) = Raise (Lib CWIFError "Invalid Wallet Import Format (WIF)").
Proof.
  assert (M1 : minimal_bytes 0x80 [x80]) by (split; reflexivity). assert (M2 : minimal_bytes 0xef [xef]) by (split; reflexivity).
  assert (T : wif_text toy 0x80 true (repeat x11 32) (b58c toy ([x80] ++ repeat x11 32 ++ [x01]))) by (exists [x80]; split; [exact M1|apply b58c_text]).
  eexists. split; [exact T|].
  apply (C57_other_network toy btc _ 0xef 0x6f 0x80 [xef] [x80] true (repeat x11 32) _ pwS toy_ok btc_testnet_session eq_refl M1 M2 eq_refl); [lia|exact T].
Qed.

(** ** C58: the key 0x11..11 comes back, the key 0x22..22 cannot be encrypted *)
Lemma toy_again k : key_okb k = true -> first_byte k <> x00 -> exists e s, decrypt toy btc e pwS None false = Ok (DWif s) /\
  (nth 0 k x00 <> x22 /\ nth 16 k x00 <> x22 -> encrypt toy btc s pwS None = Ok e) /\
  (nth 0 k x00 = x22 \/ nth 16 k x00 = x22 -> encrypt toy btc s pwS None = Raise (Builtin ValueError)).
Proof.
  intros K Z. destruct (toy_plain true k K) as (e & s & R & T). exists e, s.
  pose proof (C48_conforming_key toy btc None 0x80 0 true k s pwS e toy_ok btc_session R T) as [D _].
  destruct (D Z) as [D' _]. split; [exact D'|].
  assert (KA : key_address toy 0 true k (addr toy 0 true (pubof (be2z k)))) by (apply key_address_iff; [lia|split; [exact K|reflexivity]]).
  pose proof (C58_conforming_reproduced toy btc None 0x80 0 true k s pwS pwSb _ e toy_ok btc_session R Z D' pwS_toy KA) as H. cbv zeta in H.
  rewrite !toy_kdf in H by (trivial; lia). exact H.
Qed.
Example C58_example : exists e s, decrypt toy btc e pwS None false = Ok (DWif s) /\ encrypt toy btc s pwS None = Ok e.
Proof.
  destruct (toy_again (repeat x11 32)) as (e & s & D & H & _); [vm_compute; reflexivity|discriminate|].
  exists e, s. split; [exact D|]. apply H. split; discriminate.
Qed.
Example C58_lost_example : exists e s, decrypt toy btc e pwS None false = Ok (DWif s) /\ encrypt toy btc s pwS None = Raise (Builtin ValueError).
Proof.
  destruct (toy_again (repeat x22 32)) as (e & s & D & _ & H); [vm_compute; reflexivity|discriminate|].
  exists e, s. split; [exact D|]. apply H. left. reflexivity.
Qed.

(** ** C65, C66: a process that makes an object, an intermediate code with a
    random salt and a key with a random seed, twice *)
Definition source1 (k : nat) : byte := if Nat.ltb k 8 then x01 else x11.
Example C66_example : exists code r, let h := [New (CoinClass coin_Bitcoin) (str "mainnet"); Intermediate pwS None None PNone;
    Create 0 code (wif_name true) PNone None; Create 0 code (wif_name true) PNone None] in
  trace (world fx) source1 h = [([], ONew None); (salt8, OIntermediate (Ok code)); (seed11, OCreate (Ok r)); (seed11, OCreate (Ok r))] /\
  wants_random (nth 1 h (New NotAClass [])) /\ nth_error (creations (firstn 2 h)) 0 = Some (CoinClass coin_Bitcoin, str "mainnet").
Proof.
  destruct (plain_creates fx seed11 fx_length) as (code & r & I & T & E); [discriminate|discriminate|discriminate|vm_compute; reflexivity|vm_compute; reflexivity|].
  exists code, r. cbv zeta. split; [|split; [left; reflexivity|reflexivity]].
  assert (X : bip38_init (CoinClass coin_Bitcoin) (str "mainnet") = Ok btc) by (vm_compute; reflexivity).
  assert (N : exists n, select_network btc None = Ok n) by (eexists; vm_compute; reflexivity). destruct N as [n N].
  assert (E' : create_new_encrypted_wif (world fx) seed11 btc code (wif_name true) PNone None = Ok r).
  { rewrite <- E. unfold create_new_encrypted_wif. reflexivity. }
  set (P := world fx) in *. clearbody P. set (b := btc) in *. clearbody b.
  assert (S8 : urandom source1 {| objects := [Ok b]; taken := 0 |} 8 = salt8) by (vm_compute; reflexivity).
  set (s1 := {| objects := [Ok b]; taken := 0 |}) in *.
  assert (S24 : urandom source1 (take s1 8) 24 = seed11) by (vm_compute; reflexivity).
  assert (S24' : urandom source1 (take (take s1 8) 24) 24 = seed11) by (vm_compute; reflexivity).
  unfold trace, initial. cbn [run exec]. rewrite X. cbn [objects taken app]. cbn [truthy]. fold s1. rewrite S8, I. unfold with_object.
  change (nth_error (objects (take s1 8)) 0) with (Some (Ok b)). cbv iota. rewrite N. cbn [truthy]. rewrite S24, E'.
  change (nth_error (objects (take (take s1 8) 24)) 0) with (Some (Ok b)). cbv iota. rewrite N. cbn [truthy]. rewrite S24', E'. reflexivity.
Qed.

(** ** C14, C17, C19, C43, C65: named cases *)
Example C14_example : exists s e, encrypt toy btc s (str "TestingOneTwoThree") None = Ok e /\
  plain_encrypted toy 0 true (repeat x11 32) (str "TestingOneTwoThree") e.
Proof.
  destruct C12_example as (s & e & T & E). assert (L : List.length (repeat x11 32) = 32%nat) by reflexivity.
  revert T L. generalize (repeat x11 32). intros k T L. exists s, e. split; [exact E|].
  exact (C14_encrypt_wif toy btc None 0x80 0 true k s _ e toy_ok btc_session L T E).
Qed.
Example C17_example : exists e d s, decrypt toy btc e (str "TestingOneTwoThree") None true = Ok (DDetail d) /\
  decrypt toy btc e (str "TestingOneTwoThree") None false = Ok (DWif s) /\ s = d_wif d.
Proof.
  destruct C12_example as (s & e & T & E). assert (L : List.length (repeat x11 32) = 32%nat) by reflexivity.
  assert (Z : first_byte (repeat x11 32) <> x00) by (cbn; congruence).
  revert T L Z. generalize (repeat x11 32). intros k T L Z.
  pose proof (proj1 (C12_roundtrip _ _ _ _ _ _ _ _ _ _ toy_ok btc_session L T E Z)) as D.
  pose proof (C17_decrypt_detail toy btc None e (str "TestingOneTwoThree") toy_ok (session_constructed _ _ _ _ btc_session)) as H.
  rewrite D in H. destruct (decrypt toy btc e (str "TestingOneTwoThree") None true) as [[x|d]|x] eqn:Q; [contradiction| |discriminate].
  exists e, d, s. split; [exact Q|]. split; [exact D|]. congruence.
Qed.
Example C19_example : exists e e' s, e <> e' /\ decrypt toy btc e (str "TestingOneTwoThree") None false = Ok (DWif s) /\
  decrypt toy btc e' (str "TestingOneTwoThree") None false = Ok (DWif s).
Proof.
  destruct C12_example as (s & e & T & E). assert (L : List.length (repeat x11 32) = 32%nat) by reflexivity.
  assert (Z : first_byte (repeat x11 32) <> x00) by (cbn; congruence).
  revert T L Z. generalize (repeat x11 32). intros k T L Z.
  pose proof (proj1 (C12_roundtrip _ _ _ _ _ _ _ _ _ _ toy_ok btc_session L T E Z)) as D.
  destruct (C19_damaged_key_accepted toy btc None 0x80 0 true k s _ e (repeat x00 4) toy_ok btc_session L T E Z eq_refl) as (b & e1 & B1 & _ & N1 & D1).
  destruct (C19_damaged_key_accepted toy btc None 0x80 0 true k s _ e (repeat xff 4) toy_ok btc_session L T E Z eq_refl) as (b' & e2 & B2 & _ & N2 & D2).
  destruct (bytes_eqb (checksum4 toy b) (repeat x00 4)) eqn:Q.
  - assert (EB : b' = b).
    { rewrite (b58c_unique toy _ _ B1) in B2. symmetry. apply (b58c_inj toy _ _ toy_ok). apply (b58c_unique toy _ _ B2). }
    subst b'. apply bytes_eqb_spec in Q. exists e, e2, s. split; [|split; [exact D|exact D2]]. intros X. symmetry in X. revert X. apply N2. rewrite Q. discriminate.
  - exists e, e1, s. split; [|split; [exact D|exact D1]]. intros X. symmetry in X. revert X. apply N1. intros X. rewrite <- X in Q.
    rewrite (proj2 (bytes_eqb_spec _ _) eq_refl) in Q. discriminate.
Qed.
Example C43_example : exists code, intermediate_code toy (repeat x01 8) (str "Satoshi") None None PNone = Ok code /\
  intermediate_code toy [] (str "Satoshi") None None (PBytes (repeat x01 8)) = Ok code.
Proof.
  destruct C21_plain_example as (s & E & _). exists s. split; [exact E|].
  rewrite (C43_intermediate_random toy (repeat x01 8)) in E by (auto; discriminate). rewrite <- E.
  apply C43_intermediate_explicit. left. exists (repeat x01 8). split; [reflexivity|discriminate].
Qed.
(** the second of two calls on the second of two objects *)
Example C65_example : let h1 := [New (CoinClass coin_Bitcoin) (str "mainnet"); New (CoinClass coin_Bitcoin) (str "testnet"); Intermediate pwS None None PNone] in
  let o := Decrypt 1 (str "6P") pwS None false in
  object_of o = Some 1%nat /\ nth_error (creations h1) 1 = Some (CoinClass coin_Bitcoin, str "testnet") /\ ~ wants_random o.
Proof. cbv zeta. split; [reflexivity|]. split; [reflexivity|]. intros []. Qed.

(** ** C69: the round trip with lot and sequence given as text *)
Example C69_roundtrip_example : exists f code r d,
  intermediate_code_any (world f) (fun x => x) [] pwS (NText (str "369861")) (NText (str "0001")) (PBytes salt4) = Ok code /\
  create_new_encrypted_wif (world f) [] btc code (wif_name false) (PBytes seed11) None = Ok r /\
  decrypt (world f) btc (n_encrypted_wif r) pwS None true = Ok (DDetail d) /\ d_lot d = Some 369861 /\ d_sequence d = Some 1.
Proof.
  set (f := repeat x22 32). assert (Lf : List.length f = 32%nat) by reflexivity. exists f.
  destruct (key_okb_range _ owner22_ok) as [_ R]. destruct (pubof_ok _ R) as (_ & _ & O). destruct (tag_of _ O) as (t & xs & EP & Ht & Lx).
  destruct (lot_creates f seed11 t xs Lf owner22_ok EP Lx) as (code & r & I & T & E); [discriminate|discriminate|discriminate|destruct Ht as [-> | ->]; vm_compute; reflexivity|].
  destruct (C24_key_exists (world f) [] btc None 0x80 0 true false entL pwS pwSb code (PBytes seed11) seed11 r (world_ok f Lf) btc_session seed11_arg eq_refl (pwS_bytes _ _) T E)
    as (k & S & PK & _ & SM).
  pose proof (world_key f true entL seed11 k ltac:(auto) Lf owner22_ok ltac:(discriminate) ltac:(discriminate) PK) as Ek. cbv iota in Ek. subst k.
  destruct (mask_of f true entL r S Lf SM) as (t' & TT & -> & Ht' & LT).
  destruct C69_texts as (D1 & _).
  assert (D2 : decimal_text (str "0001") 1) by (apply (int_of_str_sound (fun x => x)); [apply ascii_forallb|]; vm_compute; reflexivity).
  assert (G1 : gives (NText (str "369861")) 369861) by (right; eauto). assert (G2 : gives (NText (str "0001")) 1) by (right; eauto).
  rewrite <- (C69_text_or_integer (world f) (fun x => x) [] (PBytes salt4) pwS _ _ 369861 1 G1 G2) in I by discriminate.
  destruct (C69_roundtrip (world f) (fun x => x) [] [] btc None 0x80 0 false pwS pwSb _ _ 369861 1 (PBytes salt4) salt4 entL code (PBytes seed11) seed11 r f _
    (world_ok f Lf) btc_session given_salt (or_introl eq_refl) G1 G2 ltac:(lia) ltac:(lia) entL_ok I seed11_arg eq_refl E (pwS_bytes _ _) PK SM) as (d & D & _ & DS & _ & X1 & X2).
  - discriminate.
  - destruct Ht' as [-> | ->]; vm_compute; congruence.
  - discriminate.
  - exists code, r, d. split; [exact I|]. split; [exact E|]. split; [exact D|]. split; [exact X1|exact X2].
Qed.
