(** * C12-C14: passphrase encryption without EC multiplication (bip38.py) *)
From Coq Require Import Lia ZifyBool ZifyNat ZifyN.
From Verif Require Import Py Prims Const Spec PyFacts Utils UtilsFacts Base58 Base58Facts
  Curve SpecCurve CurveFacts Secp256k1 SecpFacts Cryptocurrencies Wif Bip38 SpecBip38 SpecRecords SpecSession
  CodecFacts CodecFacts2 Bip38Facts Sessions RecordFacts Toy.

Lemma str_wif c : negb (str_eqb (wif_name c) (str "wif")) = c.
Proof. destruct c; reflexivity. Qed.
Lemma encrypt_wif P self network n w a c k s pw : prims_ok P -> net_sel self network n w a ->
  List.length k = 32%nat -> wif_text P w c k s -> encrypt P self s pw network = encrypt_result P a c k pw.
Proof.
  intros HP N L T. pose proof (ns_w _ _ _ _ _ N) as Hw. rewrite (wif_text_unique _ _ _ _ _ T).
  rewrite (encrypt_eq P HP _ _ _ _ _ _ _ N), (decode_wif_of P w c k HP Hw L), str_wif. reflexivity.
Qed.

(** ** C14: whatever encrypt returns is the BIP38 record of the key *)
Theorem C14_encrypt_is_record : forall P self network w a s pw e, prims_ok P -> session self network w a ->
  encrypt P self s pw network = Ok e ->
  exists k compressed ck, decode_wif s w = Ok (k, wif_name compressed, ck) /\ plain_encrypted P a compressed k pw e.
Proof.
  intros P self network w a s pw e HP HS E. destruct (session_net_sel _ _ _ _ HS) as (n & N).
  rewrite (encrypt_eq P HP _ _ _ _ _ _ _ N) in E. destruct (decode_wif s w) as [[[k t] ck]|x] eqn:D; [|discriminate].
  assert (T : exists c, t = wif_name c).
  { destruct (decode_cases s) as [[raw R]|R]; [|unfold decode_wif in D; rewrite R in D; discriminate].
    apply (decode_wif_raw s w raw (ns_w _ _ _ _ _ N) R) in D. destruct D as (_ & _ & [[-> _]|[-> _]]); [exists false|exists true]; reflexivity. }
  destruct T as [c ->]. exists k, c, ck. split; [reflexivity|]. rewrite str_wif in E. unfold encrypt_result in E.
  destruct (key_okb k) eqn:K; [|discriminate]. destruct (utf8_encode (h_nfc P pw)) as [pwb|x] eqn:B; [|discriminate].
  destruct (zero_first _ || zero_first _); [discriminate|]. injection E as <-.
  apply plain_encrypted_iff; [apply (ns_a _ _ _ _ _ N)|]. split; [exact K|]. exists pwb. split; [exact B|reflexivity].
Qed.
Theorem C14_encrypt_wif : forall P self network w a c k s pw e, prims_ok P -> session self network w a ->
  List.length k = 32%nat -> wif_text P w c k s -> encrypt P self s pw network = Ok e -> plain_encrypted P a c k pw e.
Proof.
  intros P self network w a c k s pw e HP HS L T E. destruct (session_net_sel _ _ _ _ HS) as (n & N).
  destruct (C14_encrypt_is_record P self network w a s pw e HP HS E) as (k' & c' & ck & D & R).
  rewrite (wif_text_unique _ _ _ _ _ T), (decode_wif_of P w c k HP (ns_w _ _ _ _ _ N) L) in D. injection D as <- D _.
  destruct c, c'; trivial; discriminate.
Qed.

(** ** C13: when encrypt succeeds *)
(** [k] is a valid key, [S] the scrypt output for the address hash. *)
Theorem C13_encrypt_succeeds_iff : forall P self network w a c k e0 s pw pwb address, prims_ok P ->
  session self network w a -> scalar k e0 -> wif_text P w c k s -> passphrase_bytes P pw pwb ->
  key_address P a c k address ->
  let S := strong_kdf P pwb (address_hash P address) in
  ((exists e, encrypt P self s pw network = Ok e) <-> nth 0 k x00 <> nth 0 S x00 /\ nth 16 k x00 <> nth 16 S x00) /\
  ((nth 0 k x00 = nth 0 S x00 \/ nth 16 k x00 = nth 16 S x00) -> encrypt P self s pw network = Raise (Builtin ValueError)).
Proof.
  intros P self network w a c k e0 s pw pwb address HP HS Sc T B A S. destruct (session_net_sel _ _ _ _ HS) as (n & N).
  destruct (scalar_be2z _ _ Sc) as [_ K]. destruct (key_okb_range _ K) as [Lk Rk].
  rewrite (encrypt_wif P self network n w a c k s pw HP N Lk T). unfold encrypt_result. rewrite K.
  unfold passphrase_bytes in B. rewrite B. apply key_address_iff in A; [|apply (ns_a _ _ _ _ _ N)]. destruct A as [_ ->]. cbv zeta.
  change (address_hash P (addr P a c (pubof (be2z k)))) with (ahash P a c (pubof (be2z k))) in S.
  assert (LS : List.length S = 64%nat) by apply (scrypt_len P HP).
  assert (Z1 : zero_first (mask1 P k pwb (ahash P a c (pubof (be2z k)))) = true <-> nth 0 k x00 = nth 0 S x00).
  { rewrite zero_first_spec. apply first_mask; lia. }
  assert (Z2 : zero_first (mask2 P k pwb (ahash P a c (pubof (be2z k)))) = true <-> nth 16 k x00 = nth 16 S x00).
  { rewrite zero_first_spec. apply first_mask; lia. }
  destruct (zero_first (mask1 _ _ _ _)); destruct (zero_first (mask2 _ _ _ _)); cbn [orb];
    (split; [split; [intros [e E]; try discriminate E|intros [H1 H2]]|intros H]); try reflexivity;
    intuition (try congruence); eauto.
Qed.
(** The key itself must be valid, and the passphrase encodable. *)
Theorem C13_invalid_key : forall P self network w a c k s pw, prims_ok P -> session self network w a ->
  List.length k = 32%nat -> (forall e, ~ scalar k e) -> wif_text P w c k s ->
  encrypt P self s pw network = Raise (Lib CSecp256k1Error "Invalid private key bytes").
Proof.
  intros P self network w a c k s pw HP HS L NS T. destruct (session_net_sel _ _ _ _ HS) as (n & N).
  rewrite (encrypt_wif P self network n w a c k s pw HP N L T). unfold encrypt_result.
  destruct (key_okb k) eqn:K; [|reflexivity]. apply key_okb_spec in K. destruct (NS _ K).
Qed.
Theorem C13_passphrase_not_encodable : forall P self network w a c k e0 s pw, prims_ok P -> session self network w a ->
  scalar k e0 -> (forall pwb, ~ passphrase_bytes P pw pwb) -> wif_text P w c k s ->
  encrypt P self s pw network = Raise (Builtin UnicodeEncodeError).
Proof.
  intros P self network w a c k e0 s pw HP HS Sc NB T. destruct (session_net_sel _ _ _ _ HS) as (n & N).
  destruct (scalar_be2z _ _ Sc) as [_ K]. destruct (key_okb_range _ K) as [Lk _].
  rewrite (encrypt_wif P self network n w a c k s pw HP N Lk T). unfold encrypt_result. rewrite K.
  destruct (utf8_encode (h_nfc P pw)) as [pwb|x] eqn:B; [destruct (NB pwb B)|]. rewrite (utf8_encode_err _ _ B). reflexivity.
Qed.

(** ** C12: round trip *)
Lemma decrypt_value_describes P w a c k seed lot sequence : 0 <= w -> 0 <= a -> key_okb k = true -> exists d,
  decrypt_value P w a c k seed lot sequence true = DDetail d /\ describes P w a c k d /\ d_seed d = option_map hex seed /\
  d_lot d = lot /\ d_sequence d = sequence /\ decrypt_value P w a c k seed lot sequence false = DWif (d_wif d).
Proof.
  intros Hw Ha K. destruct (key_okb_range _ K) as [_ R]. destruct (pubof_ok _ R) as (_ & _ & O).
  eexists. split; [reflexivity|]. split; [|repeat split]. unfold describes. cbn [d_wif d_private_key d_wif_type d_public_key_type d_address d_public_key].
  split; [apply wif_of_text, Hw|]. split; [reflexivity|]. split; [reflexivity|]. split; [reflexivity|].
  split; [apply key_address_iff; auto|]. exists (be2z k), (pk_x (pubof (be2z k))), (pk_y (pubof (be2z k))), (ser c (pubof (be2z k))).
  split; [apply key_okb_spec, K|]. split; [apply pubof_public, R|]. split; [apply ser_serialised, O|reflexivity].
Qed.
Theorem C12_roundtrip : forall P self network w a c k s pw e, prims_ok P -> session self network w a ->
  List.length k = 32%nat -> wif_text P w c k s -> encrypt P self s pw network = Ok e ->
  first_byte k <> x00 ->
  decrypt P self e pw network false = Ok (DWif s) /\
  exists d, decrypt P self e pw network true = Ok (DDetail d) /\ d_wif d = s /\ describes P w a c k d /\
    d_seed d = None /\ d_lot d = None /\ d_sequence d = None.
Proof.
  intros P self network w a c k s pw e HP HS L T E Z. destruct (session_net_sel _ _ _ _ HS) as (n & N).
  pose proof (ns_w _ _ _ _ _ N) as Hw. pose proof (ns_a _ _ _ _ _ N) as Ha.
  pose proof (C14_encrypt_wif _ _ _ _ _ _ _ _ _ _ HP HS L T E) as R. apply plain_encrypted_iff in R; [|exact Ha].
  destruct R as (K & pwb & B & ->). apply zero_first_false in Z.
  rewrite !(decrypt_plain P HP _ _ _ _ _ _ _ _ _ _ N K B), Z.
  destruct (decrypt_value_describes P w a c k None None None Hw Ha K) as (d & E1 & D & S1 & S2 & S3 & E2).
  rewrite E1, E2. assert (Ed : d_wif d = s) by (pose proof D as (W & _); rewrite (wif_text_unique _ _ _ _ _ W), (wif_text_unique _ _ _ _ _ T); reflexivity).
  rewrite Ed. split; [reflexivity|]. exists d. auto 10.
Qed.
(** A key whose first byte is zero cannot be decrypted again. *)
Theorem C12_zero_first_byte_lost : forall P self network w a c k s pw e detail, prims_ok P -> session self network w a ->
  List.length k = 32%nat -> wif_text P w c k s -> encrypt P self s pw network = Ok e ->
  first_byte k = x00 ->
  decrypt P self e pw network detail = Raise (Lib CSecp256k1Error "Invalid private key bytes").
Proof.
  intros P self network w a c k s pw e detail HP HS L T E Z. destruct (session_net_sel _ _ _ _ HS) as (n & N).
  pose proof (C14_encrypt_wif _ _ _ _ _ _ _ _ _ _ HP HS L T E) as R. apply plain_encrypted_iff in R; [|apply (ns_a _ _ _ _ _ N)].
  destruct R as (K & pwb & B & ->). apply zero_first_spec in Z.
  rewrite (decrypt_plain P HP _ _ _ _ _ _ _ _ _ _ N K B), Z. reflexivity.
Qed.

(** ** Concrete cases, with the toy functions of Toy.v: scrypt output starts with 32 bytes 0x22 *)
Lemma toy_kdf P pwb ah i : h_scrypt P = toy_scrypt -> (i < 32)%nat -> nth i (strong_kdf P pwb ah) x00 = x22.
Proof.
  intros HS Hi. unfold strong_kdf. rewrite HS. unfold toy_scrypt. rewrite firstn_app.
  rewrite app_nth1 by (rewrite firstn_length, repeat_length; lia). rewrite firstn_all2 by (rewrite repeat_length; lia).
  do 32 (destruct i as [|i]; [reflexivity|]). lia.
Qed.
Lemma toy_passphrase P pw : h_nfc P = toy_nfc -> Forall (fun x => (x < 128)%N) pw -> passphrase_bytes P pw (List.map n2b (toy_nfc pw)).
Proof.
  intros HN A. unfold passphrase_bytes. rewrite HN. apply utf8_encode_ascii. apply Forall_forall. intros x Hx. apply in_map_iff in Hx. destruct Hx as (y & <- & Hy).
  rewrite Forall_forall in A. specialize (A y Hy). destruct (N.eqb_spec y 0x212B); lia.
Qed.
Lemma toy_encrypts P k e0 c pw : prims_ok P -> h_scrypt P = toy_scrypt -> h_nfc P = toy_nfc ->
  scalar k e0 -> Forall (fun x => (x < 128)%N) pw ->
  nth 0 k x00 <> x22 -> nth 16 k x00 <> x22 ->
  exists s e, wif_text P 0x80 c k s /\ encrypt P btc s pw None = Ok e.
Proof.
  intros HP HSc HN Sc A H1 H2. destruct (scalar_be2z _ _ Sc) as [_ K].
  pose proof (toy_passphrase P pw HN A) as B.
  pose proof (wif_of_text P 0x80 c k ltac:(lia)) as T. exists (wif_of P 0x80 c k).
  assert (KA : key_address P 0 c k (addr P 0 c (pubof (be2z k)))) by (apply key_address_iff; [lia|auto]).
  destruct (C13_encrypt_succeeds_iff P btc None 0x80 0 c k e0 _ pw _ _ HP btc_session Sc T B KA) as [[_ S] _].
  rewrite !toy_kdf in S by (trivial; lia). destruct (S (conj H1 H2)) as [e E]. exists e. auto.
Qed.
Example C12_example : exists s e, wif_text toy 0x80 true (repeat x11 32) s /\ encrypt toy btc s (str "TestingOneTwoThree") None = Ok e.
Proof.
  apply (toy_encrypts _ _ (be2z (repeat x11 32))); try exact toy_ok; try reflexivity; try (vm_compute; congruence).
  - apply key_okb_spec. vm_compute. reflexivity.
  - repeat constructor.
Qed.
(** Key 1 starts with zero bytes; its encrypted key cannot be decrypted. *)
Example C12_zero_example : exists s e, wif_text toy 0x80 false (z2be 32 1) s /\ encrypt toy btc s (str "Satoshi") None = Ok e /\
  decrypt toy btc e (str "Satoshi") None false = Raise (Lib CSecp256k1Error "Invalid private key bytes").
Proof.
  assert (K : key_okb (z2be 32 1) = true) by (vm_compute; reflexivity).
  assert (F : Forall (fun x => (x < 128)%N) (str "Satoshi")) by (repeat constructor).
  assert (H1 : nth 0 (z2be 32 1) x00 <> x22) by (vm_compute; congruence).
  assert (H2 : nth 16 (z2be 32 1) x00 <> x22) by (vm_compute; congruence).
  assert (L : List.length (z2be 32 1) = 32%nat) by (vm_compute; reflexivity).
  assert (Z : first_byte (z2be 32 1) = x00) by (vm_compute; reflexivity).
  revert K H1 H2 L Z. generalize (z2be 32 1). intros k K H1 H2 L Z.
  destruct (toy_encrypts toy k (be2z k) false (str "Satoshi") toy_ok eq_refl eq_refl (proj1 (key_okb_spec k) K) F H1 H2) as (s & e & T & E).
  exists s, e. split; [exact T|]. split; [exact E|].
  exact (C12_zero_first_byte_lost toy btc None 0x80 0 false k s (str "Satoshi") e false toy_ok btc_session L T E Z).
Qed.
(** A key starting with 0x22 is refused by the AES layer here. *)
Example C13_example : exists s, wif_text toy 0x80 false (repeat x22 32) s /\
  encrypt toy btc s (str "Satoshi") None = Raise (Builtin ValueError).
Proof.
  assert (K : key_okb (repeat x22 32) = true) by (vm_compute; reflexivity).
  assert (F : nth 0 (repeat x22 32) x00 = x22) by reflexivity.
  revert K F. generalize (repeat x22 32). intros k K F.
  exists (wif_of toy 0x80 false k). pose proof (wif_of_text toy 0x80 false k ltac:(lia)) as T. split; [exact T|].
  assert (KA : key_address toy 0 false k (addr toy 0 false (pubof (be2z k)))) by (apply key_address_iff; [lia|auto]).
  assert (B : passphrase_bytes toy (str "Satoshi") (List.map n2b (str "Satoshi"))) by (vm_compute; reflexivity).
  pose proof (C13_encrypt_succeeds_iff toy btc None 0x80 0 false k (be2z k) (wif_of toy 0x80 false k) (str "Satoshi") _ _ toy_ok btc_session (proj1 (key_okb_spec k) K) T B KA) as H.
  cbv zeta in H. destruct H as [_ H]. apply H. left. rewrite toy_kdf by (trivial; lia). exact F.
Qed.
