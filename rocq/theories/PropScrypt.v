(** * C90, C91: what scrypt makes of the passphrase (bip38.py) *)
From Coq Require Import Lia ZifyBool ZifyNat ZifyN.
From Verif Require Import Py Prims Const Spec PyFacts Utils UtilsFacts Base58 Base58Facts
  Curve SpecCurve CurveFacts CurveFacts2 Secp256k1 SecpFacts Cryptocurrencies Wif Bip38 SpecBip38 SpecRecords SpecSession SpecInterop
  CodecFacts CodecFacts2 Bip38Facts Bip38Facts2 Sessions RecordFacts ECFacts Toy PropEncrypt PropIntermediate PropDecrypt PropCreate PropEC SpecReads ReadFacts
  PropCodec PropInterop SpecOutcome PropOutcome Sha256 Instances Utf8Facts Unicode UnicodeFacts UnicodeFacts2 PropUnicode.

(** ** What is claimed *)
(** scrypt with N = 16384, r = 8, p = 8 and this salt gives the same [l] bytes for both passphrases. *)
Definition same_strong_hash (P : prims) (pw pw' : pystr) (salt : bytes) (l : nat) : Prop :=
  exists b b', passphrase_bytes P pw b /\ passphrase_bytes P pw' b' /\
    h_scrypt P b salt 16384 8 8 l = h_scrypt P b' salt 16384 8 8 l.
(** No call tells the two passphrases apart. *)
Definition interchangeable (P : prims) (pw pw' : pystr) : Prop :=
  (forall random lot sequence salt, intermediate_code P random pw lot sequence salt = intermediate_code P random pw' lot sequence salt) /\
  (forall self wif network, encrypt P self wif pw network = encrypt P self wif pw' network) /\
  (forall self code network detail, confirm_code P self pw code network detail = confirm_code P self pw' code network detail) /\
  (forall self s network detail, decrypt P self s pw network detail = decrypt P self s pw' network detail).
(** Lot and sequence are both given and not zero. *)
Definition numbered (lot sequence : option Z) : Prop := exists l q, lot = Some l /\ sequence = Some q /\ l <> 0 /\ q <> 0.
(** The salt a code or key with this entropy is hashed with *)
Definition salt_of (lot : bool) (entropy : bytes) : bytes := if lot then firstn 4 entropy else entropy.

(** ** Proofs *)
Lemma same_str P pw pw' salt l : same_strong_hash P pw pw' salt l -> scrypt_str P pw salt 16384 8 8 l = scrypt_str P pw' salt 16384 8 8 l.
Proof. intros (b & b' & B & B' & E). rewrite !scrypt_str_eq, B, B', E. reflexivity. Qed.
Lemma all_same P pw pw' : (forall salt l, scrypt_str P pw salt 16384 8 8 l = scrypt_str P pw' salt 16384 8 8 l) -> interchangeable P pw pw'.
Proof.
  intros S. assert (DF : forall f e, derive_pass_factor P pw f e = derive_pass_factor P pw' f e).
  { intros f e. unfold derive_pass_factor. destruct (if int_in _ _ then _ else _) as [os ls]. rewrite S. reflexivity. }
  split; [|split; [|split]].
  - intros random lot sequence salt. unfold intermediate_code.
    destruct (if truthy salt then get_bytes salt true else Ok random) as [os|e]; cbn [bind]; [|reflexivity]. rewrite !S. reflexivity.
  - intros self wif network. unfold encrypt.
    destruct (select_network self network) as [n|e]; cbn [bind]; [|reflexivity].
    destruct (get_wif_type wif (s_cryptocurrency self) n) as [t|e]; cbn [bind]; [|reflexivity].
    match goal with |- bind ?x _ = _ => destruct x as [[[f k] t']|e]; cbn [bind]; [|reflexivity] end.
    destruct (PrivateKey_public_key k) as [K|e]; cbn [bind]; [|reflexivity].
    destruct (address_of P self n K t') as [ad|e]; cbn [bind]; [|reflexivity].
    destruct (address_hash_of P ad) as [ah|e]; cbn [bind]; [|reflexivity].
    rewrite S. reflexivity.
  - intros self code network detail. unfold confirm_code.
    destruct (select_network self network) as [n|e]; cbn [bind]; [|reflexivity].
    match goal with |- bind ?x _ = _ => destruct x as [d|e]; cbn [bind]; [|reflexivity] end.
    rewrite DF. reflexivity.
  - intros self s network detail. unfold decrypt, decrypt_no_ec, decrypt_ec.
    destruct (select_network self network) as [n|e]; cbn [bind]; [|reflexivity].
    destruct (decode s base58_alphabet) as [d|e]; cbn [bind]; [|reflexivity].
    rewrite S, DF. reflexivity.
Qed.

(** ** C90 *)
Theorem C90_only_through_scrypt : forall P pw pw', (forall salt l, same_strong_hash P pw pw' salt l) -> interchangeable P pw pw'.
Proof. intros P pw pw' H. apply all_same. intros salt l. apply same_str, H. Qed.
Theorem C90_intermediate_code : forall P random arg salt pw pw' lot sequence, argument_bytes random arg salt ->
  (numbered lot sequence -> same_strong_hash P pw pw' (firstn 4 salt) 32) ->
  (~ numbered lot sequence -> same_strong_hash P pw pw' salt 32) ->
  intermediate_code P random pw lot sequence arg = intermediate_code P random pw' lot sequence arg.
Proof.
  intros P random arg salt pw pw' lot sequence A H1 H2. apply argument_entropy in A. unfold entropy_arg in A. unfold intermediate_code. rewrite A. cbn [bind].
  assert (C : numbered lot sequence \/ ~ numbered lot sequence).
  { destruct lot as [l|]; [|right; intros (l & q & E & _); discriminate]. destruct sequence as [q|]; [|right; intros (l' & q & _ & E & _); discriminate].
    destruct (Z.eq_dec l 0); [right; intros (l' & q' & [= <-] & _ & N & _); contradiction|].
    destruct (Z.eq_dec q 0); [right; intros (l' & q' & _ & [= <-] & _ & N); contradiction|]. left. exists l, q. auto. }
  destruct C as [C|C].
  - specialize (H1 C). apply same_str in H1. destruct C as (l & q & -> & -> & N1 & N2).
    assert (T1 : truthy_int (Some l) = true) by (cbn; destruct (Z.eqb_spec l 0); [contradiction|reflexivity]).
    assert (T2 : truthy_int (Some q) = true) by (cbn; destruct (Z.eqb_spec q 0); [contradiction|reflexivity]).
    rewrite T1, T2. cbn [andb]. change (upto 4 salt) with (firstn 4 salt). rewrite H1. reflexivity.
  - specialize (H2 C). apply same_str in H2. rewrite H2.
    assert (T : truthy_int lot && truthy_int sequence = false).
    { destruct (truthy_int lot && truthy_int sequence) eqn:T; [|reflexivity]. destruct C. apply andb_prop in T. destruct T as [T1 T2].
      destruct lot as [l|]; [|discriminate]. destruct sequence as [q|]; [|discriminate]. cbn in T1, T2. exists l, q. repeat split; lia. }
    rewrite T. reflexivity.
Qed.
Theorem C90_encrypt : forall P self network w a s raw c k address pw pw', prims_ok P -> session self network w a ->
  base58_reads s raw -> wif_payload w c k raw -> key_address P a c k address ->
  same_strong_hash P pw pw' (address_hash P address) 64 ->
  encrypt P self s pw network = encrypt P self s pw' network.
Proof.
  intros P self network w a s raw c k address pw pw' HP HS D W KA (b & b' & B & B' & E).
  destruct (session_net_sel _ _ _ _ HS) as (n & N). pose proof (ns_a _ _ _ _ _ N) as Ha.
  rewrite !(encrypt_payload P self network n w a c k raw s _ HP N D W). unfold encrypt_result.
  apply key_address_iff in KA; [|exact Ha]. destruct KA as [K ->]. rewrite K. unfold passphrase_bytes in B, B'. rewrite B, B'. cbv zeta.
  change (address_hash P (addr P a c (pubof (be2z k)))) with (ahash P a c (pubof (be2z k))) in E.
  assert (E' : kdf P b (ahash P a c (pubof (be2z k))) = kdf P b' (ahash P a c (pubof (be2z k)))) by exact E.
  unfold mask1, mask2, body_no_ec, mask1, mask2. rewrite E'. reflexivity.
Qed.
Theorem C90_decrypt_plain : forall P self network w a f ah rest s pw pw' detail, prims_ok P -> session self network w a ->
  base58_reads s ([x01; x42] ++ [f] ++ ah ++ rest) -> List.length ah = 4%nat -> List.length rest = 36%nat ->
  same_strong_hash P pw pw' ah 64 ->
  decrypt P self s pw network detail = decrypt P self s pw' network detail.
Proof.
  intros P self network w a f ah rest s pw pw' detail HP HS D La Lr (b & b' & B & B' & E). to_code. destruct (session_net_sel _ _ _ _ HS) as (n & N).
  destruct (cut 16 rest ltac:(lia)) as (e1 & r1 & -> & L1). rewrite app_length in Lr. destruct (cut 16 r1 ltac:(lia)) as (e2 & ck & -> & L2). rewrite app_length in Lr.
  rewrite !(decrypt_eq P HP _ _ _ _ _ _ _ _ _ _ _ _ _ detail N D) by (trivial; lia).
  replace (bytes_eqb [x01; x42] [x01; x42]) with true by reflexivity. unfold decrypt_no_ec_result. unfold passphrase_bytes in B, B'. rewrite B, B'.
  assert (E' : kdf P b ah = kdf P b' ah) by exact E. rewrite E'. reflexivity.
Qed.
Theorem C90_decrypt_ec : forall P self network w a f lot c ah ent rest s pw pw' detail, prims_ok P -> session self network w a ->
  base58_reads s ([x01; x43] ++ [f] ++ ah ++ ent ++ rest) -> flag_meaning f lot c ->
  List.length ah = 4%nat -> List.length ent = 8%nat -> List.length rest = 28%nat ->
  same_strong_hash P pw pw' (salt_of lot ent) 32 ->
  decrypt P self s pw network detail = decrypt P self s pw' network detail.
Proof.
  intros P self network w a f lot c ah ent rest s pw pw' detail HP HS D M La Le Lr (b & b' & B & B' & E). to_code. destruct (session_net_sel _ _ _ _ HS) as (n & N).
  destruct (flag_meaning_eq _ _ _ M) as [M1 _].
  destruct (cut 8 rest ltac:(lia)) as (h & r1 & -> & L1). rewrite app_length in Lr. destruct (cut 16 r1 ltac:(lia)) as (e2 & ck & -> & L2). rewrite app_length in Lr.
  rewrite (app_assoc ent) in D.
  rewrite !(decrypt_eq P HP _ _ _ _ _ _ _ _ _ _ _ _ _ detail N D) by (rewrite ?app_length; trivial; lia).
  replace (bytes_eqb [x01; x43] [x01; x42]) with false by reflexivity. replace (bytes_eqb [x01; x43] [x01; x43]) with true by reflexivity.
  rewrite (upto_app 8 ent h Le). unfold decrypt_ec_result. unfold passphrase_bytes in B, B'. rewrite B, B'.
  assert (E' : pass_factor P (lotb f) b ent = pass_factor P (lotb f) b' ent).
  { rewrite M1. unfold pass_factor. cbv zeta. unfold salt_of in E. change (firstn 4 ent) with (upto 4 ent) in E. rewrite E. reflexivity. }
  rewrite E'. reflexivity.
Qed.
Theorem C90_confirm_code : forall P self network w a f lot c ah ent rest s pw pw' detail, prims_ok P -> session self network w a ->
  base58check_reads P s ([x64; x3b; xf6; xa8; x9a] ++ [f] ++ ah ++ ent ++ rest) -> flag_meaning f lot c ->
  List.length ah = 4%nat -> List.length ent = 8%nat -> List.length rest = 33%nat ->
  same_strong_hash P pw pw' (salt_of lot ent) 32 ->
  confirm_code P self pw s network detail = confirm_code P self pw' s network detail.
Proof.
  intros P self network w a f lot c ah ent rest s pw pw' detail HP HS D M La Le Lr (b & b' & B & B' & E). to_code. destruct (session_net_sel _ _ _ _ HS) as (n & N).
  destruct (flag_meaning_eq _ _ _ M) as [M1 _].
  destruct rest as [|b0 r0]; [discriminate|]. cbn [List.length] in Lr. destruct (cut 16 r0 ltac:(lia)) as (q1 & q2 & -> & L1). rewrite app_length in Lr.
  change (b0 :: q1 ++ q2) with ([b0] ++ q1 ++ q2) in D.
  rewrite !(confirm_eq P HP _ _ _ _ _ _ _ _ _ _ _ _ _ _ detail N D) by (trivial; lia).
  unfold confirm_core. unfold passphrase_bytes in B, B'. rewrite B, B'.
  assert (E' : pass_factor P (lotb f) b ent = pass_factor P (lotb f) b' ent).
  { rewrite M1. unfold pass_factor. cbv zeta. unfold salt_of in E. change (firstn 4 ent) with (upto 4 ent) in E. rewrite E. reflexivity. }
  rewrite E'. reflexivity.
Qed.

(** ** C91: the published scrypt *)
Lemma hmac_nul key n m : (List.length key + n <= 64)%nat -> hmac (key ++ repeat x00 n) m = hmac key m.
Proof.
  intros L. unfold hmac. rewrite app_length, repeat_length.
  destruct (Nat.ltb_spec 64 (List.length key + n)); [lia|]. destruct (Nat.ltb_spec 64 (List.length key)); [lia|].
  assert (E : pad_right 64 (key ++ repeat x00 n) = pad_right 64 key).
  { unfold pad_right. rewrite app_length, repeat_length, <- app_assoc, <- repeat_app. do 2 f_equal. lia. }
  rewrite E. reflexivity.
Qed.
Lemma hmac_long key m : (64 < List.length key)%nat -> hmac key m = hmac (Sha256.sha256 key) m.
Proof.
  intros L. unfold hmac. rewrite (sha256_length key). destruct (Nat.ltb_spec 64 (List.length key)); [|lia]. destruct (Nat.ltb_spec 64 32); [lia|reflexivity].
Qed.
Lemma scrypt_hmac b b' : (forall m, hmac b m = hmac b' m) -> forall salt n r p l, scrypt b salt n r p l = scrypt b' salt n r p l.
Proof.
  intros H. assert (K : forall salt l, pbkdf2 b salt l = pbkdf2 b' salt l).
  { intros salt l. unfold pbkdf2. f_equal. f_equal. apply map_ext. intros i. apply H. }
  intros salt n r p l. unfold scrypt. rewrite K. rewrite (K salt). reflexivity.
Qed.
Lemma insert_nul c l : insert c (l ++ [0%N]) = insert c l ++ [0%N].
Proof. induction l as [|d l IH]; cbn [app insert]; [reflexivity|]. destruct (_ && _); [rewrite IH|]; reflexivity. Qed.
Lemma nfd_nul s : nfd (s ++ [0%N]) = nfd s ++ [0%N].
Proof.
  unfold nfd. rewrite flat_map_app. change (flat_map full [0%N]) with [0%N]. unfold reorder. rewrite fold_right_app. change (fold_right insert [] [0%N]) with [0%N].
  induction (flat_map full s) as [|c l IH]; cbn [fold_right app]; [reflexivity|]. rewrite IH. apply insert_nul.
Qed.
Lemma pair_nul s : pair s 0%N = None.
Proof. destruct (pair s 0%N) as [p|] eqn:E; [|reflexivity]. apply pair_second in E. lia. Qed.
Lemma compose_from_nul l : forall s acc k, compose_from s acc k (l ++ [0%N]) = compose_from s acc k l ++ [0%N].
Proof.
  induction l as [|c l IH]; intros s acc k; cbn [app compose_from].
  - rewrite pair_nul. destruct (match acc with [] => true | _ => _ end); reflexivity.
  - destruct (if match acc with [] => true | _ => _ end then pair s c else None) as [p|]; [apply IH|].
    destruct (class c =? 0)%N; [|apply IH]. rewrite IH. cbn [app]. rewrite <- app_assoc. reflexivity.
Qed.
Lemma compose_nul l : compose (l ++ [0%N]) = compose l ++ [0%N].
Proof. induction l as [|c l IH]; cbn [app compose]; [reflexivity|]. destruct (class c =? 0)%N; [apply compose_from_nul|]. rewrite IH. reflexivity. Qed.
Lemma nfc_nul n : forall s, nfc (s ++ repeat 0%N n) = nfc s ++ repeat 0%N n.
Proof.
  induction n as [|n IH]; intros s; cbn [repeat]; [rewrite !app_nil_r; reflexivity|].
  replace (s ++ 0%N :: repeat 0%N n) with ((s ++ [0%N]) ++ repeat 0%N n) by (rewrite <- app_assoc; reflexivity). rewrite IH.
  unfold nfc at 1. rewrite nfd_nul, compose_nul, <- app_assoc. reflexivity.
Qed.
Lemma utf8_nul n : forall s b, utf8_encode s = Ok b -> utf8_encode (s ++ repeat 0%N n) = Ok (b ++ repeat x00 n).
Proof.
  assert (Z : utf8_opt (repeat 0%N n) = Some (repeat x00 n)).
  { induction n as [|n IH]; [reflexivity|]. cbn [repeat utf8_opt]. rewrite IH. reflexivity. }
  assert (A : forall s b, utf8_opt s = Some b -> utf8_opt (s ++ repeat 0%N n) = Some (b ++ repeat x00 n)).
  { induction s as [|c s IH]; intros b; cbn [utf8_opt app].
    - intros H. apply Utf8Facts.some_inj in H. subst b. exact Z.
    - destruct (utf8_char c) as [x|]; [|discriminate]. destruct (utf8_opt s) as [y|]; [|discriminate]. intros H. apply Utf8Facts.some_inj in H. subst b.
      rewrite (IH y eq_refl). rewrite <- app_assoc. reflexivity. }
  intros s b. unfold utf8_encode. destruct (utf8_opt s) as [y|] eqn:E; [|discriminate]. intros H. apply Ok_inj in H. subst y. rewrite (A _ _ E). reflexivity.
Qed.
(** The functions installed with the package: scrypt of RFC 7914 (over HMAC-SHA-256) and NFC. *)
Definition published (P : prims) : Prop :=
  (forall pw salt n r p l, h_scrypt P pw salt n r p l = scrypt pw salt n r p l) /\ forall s, h_nfc P s = nfc s.
Theorem C91_trailing_nul : forall P pw b n, published P -> passphrase_bytes P pw b -> (List.length b + n <= 64)%nat ->
  interchangeable P pw (pw ++ repeat 0%N n).
Proof.
  intros P pw b n [HS HN] B L. apply C90_only_through_scrypt. intros salt l. exists b, (b ++ repeat x00 n). split; [exact B|]. split.
  - unfold passphrase_bytes in *. rewrite HN in *. rewrite nfc_nul. apply utf8_nul, B.
  - rewrite !HS. apply scrypt_hmac. intros m. symmetry. apply hmac_nul, L.
Qed.
Theorem C91_long : forall P pw pw' b, published P -> passphrase_bytes P pw b -> (64 < List.length b)%nat ->
  passphrase_bytes P pw' (Sha256.sha256 b) -> interchangeable P pw pw'.
Proof.
  intros P pw pw' b [HS HN] B L B'. apply C90_only_through_scrypt. intros salt l. exists b, (Sha256.sha256 b). split; [exact B|]. split; [exact B'|].
  rewrite !HS. apply scrypt_hmac. intros m. apply hmac_long, L.
Qed.
(** Two long passphrases with the same SHA-256 are one. *)
Theorem C91_long_digest : forall P pw pw' b b', published P -> passphrase_bytes P pw b -> passphrase_bytes P pw' b' ->
  (64 < List.length b)%nat -> (64 < List.length b')%nat -> Sha256.sha256 b = Sha256.sha256 b' -> interchangeable P pw pw'.
Proof.
  intros P pw pw' b b' [HS HN] B B' L L' E. apply C90_only_through_scrypt. intros salt l. exists b, b'. split; [exact B|]. split; [exact B'|].
  rewrite !HS. apply scrypt_hmac. intros m. rewrite (hmac_long b), (hmac_long b'), E by assumption. reflexivity.
Qed.

(** ** The hypotheses are met *)
Example C91_published : forall r, published (standard r nfc).
Proof. intros r. split; reflexivity. Qed.
Example C91_nul : interchangeable (standard true nfc) (str "correct horse") (str "correct horse" ++ [0%N; 0%N])%list.
Proof. apply (C91_trailing_nul _ _ (list_byte_of_string "correct horse") 2 (C91_published true)); [vm_compute; reflexivity|cbn; lia]. Qed.
(** A passphrase of 74 letters, and the 28 characters of its digest *)
Definition long_passphrase : pystr := str "a passphrase of more than sixty-four bytes is hashed before use:1006013911".
Definition its_digest : pystr := [82; 9; 76; 77; 107; 117; 25; 17; 15894; 58; 27; 54; 79; 123; 91; 22; 70; 30; 13652; 97; 85; 41; 7; 46; 103; 23; 30; 114]%N.
Example C91_digest : interchangeable (standard true nfc) long_passphrase its_digest.
Proof.
  apply (C91_long _ _ _ (list_byte_of_string "a passphrase of more than sixty-four bytes is hashed before use:1006013911") (C91_published true));
    [vm_compute; reflexivity|cbn; lia|vm_compute; reflexivity].
Qed.
Example C90_hash : forall salt l, same_strong_hash (standard true nfc) (str "correct horse") (str "correct horse" ++ [0%N])%list salt l.
Proof.
  intros salt l. exists (list_byte_of_string "correct horse"), (list_byte_of_string "correct horse" ++ [x00]). split; [vm_compute; reflexivity|].
  split; [vm_compute; reflexivity|]. apply scrypt_hmac. intros m. symmetry. exact (hmac_nul (list_byte_of_string "correct horse") 1 m ltac:(cbn; lia)).
Qed.
