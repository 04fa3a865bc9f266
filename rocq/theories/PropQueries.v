(** * C93: the questions put to scrypt (bip38.py:137,142,207,314,415,423,532,587,595) *)
From Coq Require Import Lia ZifyBool ZifyNat ZifyN.
From Verif Require Import Py Prims Const Exceptions Spec PyFacts Utils UtilsFacts Base58 Base58Facts Crypto
  Curve SpecCurve CurveFacts CurveFacts2 Secp256k1 SecpFacts Cryptocurrencies Wif Bip38 SpecBip38 SpecRecords SpecSession SpecInterop
  CodecFacts CodecFacts2 Bip38Facts Bip38Facts2 Sessions RecordFacts ECFacts Toy PropEncrypt PropIntermediate PropDecrypt PropCreate PropEC SpecReads ReadFacts
  PropCodec PropInterop SpecOutcome PropOutcome PropScrypt.

(** ** What is claimed *)
(** The same installation with another scrypt: any function giving the number of bytes asked for *)
Definition hash_function := bytes -> bytes -> Z -> Z -> Z -> nat -> bytes.
Definition with_scrypt (P : prims) (h : hash_function) : prims :=
  {| h_sha256 := h_sha256 P; h_ripemd160 := h_ripemd160 P; h_scrypt := h;
     h_aes_enc := h_aes_enc P; h_aes_dec := h_aes_dec P; h_nfc := h_nfc P |}.
Definition lengths_right (h : hash_function) : Prop := forall pw salt n r p l, List.length (h pw salt n r p l) = l.
(** Both give the same answer to the expensive question N = 16384, r = 8, p = 8 about this passphrase. *)
Definition same_strong_answer (P : prims) (h : hash_function) (pw : pystr) (salt : bytes) (l : nat) : Prop :=
  forall b, passphrase_bytes P pw b -> h b salt 16384 8 8 l = h_scrypt P b salt 16384 8 8 l.
(** Both give the same answer to the cheap question N = 1024, r = 1, p = 1 about this point. *)
Definition same_weak_answer (P : prims) (h : hash_function) (point salt : bytes) : Prop :=
  h point salt 1024 1 1 64%nat = h_scrypt P point salt 1024 1 1 64%nat.
(** The 33 bytes of the point that belongs to the passphrase and this entropy *)
Definition pass_point (P : prims) (lot : bool) (pw : pystr) (ent pp : bytes) : Prop :=
  exists b e x y, passphrase_bytes P pw b /\ scalar (owner_factor P lot b ent) e /\ public_point e x y /\ sec1_compressed x y pp.

(** ** Proofs *)
Lemma with_scrypt_ok P h : prims_ok P -> lengths_right h -> prims_ok (with_scrypt P h).
Proof. intros [A B C D E F] L. constructor; assumption. Qed.
Lemma same_strong_str P h pw salt l : same_strong_answer P h pw salt l ->
  scrypt_str (with_scrypt P h) pw salt 16384 8 8 l = scrypt_str P pw salt 16384 8 8 l.
Proof.
  intros S. rewrite !scrypt_str_eq. cbn [h_nfc h_scrypt with_scrypt]. destruct (utf8_encode (h_nfc P pw)) as [b|e] eqn:B; [|reflexivity].
  rewrite (S b B). reflexivity.
Qed.
Lemma same_factor P h pw lot ent b : same_strong_answer P h pw (salt_of lot ent) 32 -> passphrase_bytes P pw b ->
  pass_factor (with_scrypt P h) lot b ent = pass_factor P lot b ent.
Proof.
  intros S B. specialize (S b B). unfold pass_factor, salt_of in *. cbv zeta. change (upto 4 ent) with (firstn 4 ent).
  change (sha256d (with_scrypt P h)) with (sha256d P). cbn [h_scrypt with_scrypt]. rewrite S. reflexivity.
Qed.
Lemma same_kdf2 P h lot pw ent ah b : (forall pp, pass_point P lot pw ent pp -> same_weak_answer P h pp (ah ++ ent)) ->
  passphrase_bytes P pw b -> key_okb (pass_factor P lot b ent) = true ->
  kdf2 (with_scrypt P h) (ser true (pubof (be2z (pass_factor P lot b ent)))) ah ent = kdf2 P (ser true (pubof (be2z (pass_factor P lot b ent)))) ah ent.
Proof.
  intros W B K. apply W. destruct (key_okb_range _ K) as [_ R]. destruct (pubof_ok _ R) as (_ & _ & O).
  exists b, (be2z (pass_factor P lot b ent)), (pk_x (pubof (be2z (pass_factor P lot b ent)))), (pk_y (pubof (be2z (pass_factor P lot b ent)))).
  split; [exact B|]. split; [rewrite owner_factor_eq; apply key_okb_spec, K|]. split; [apply pubof_public, R|]. apply (ser_serialised true), O.
Qed.

(** ** C93: one question for a code or a plain key, two for an EC-multiplied key, the cheap one alone for a new key *)
Theorem C93_intermediate_code : forall P h random arg salt pw lot sequence, argument_bytes random arg salt ->
  (numbered lot sequence -> same_strong_answer P h pw (firstn 4 salt) 32) ->
  (~ numbered lot sequence -> same_strong_answer P h pw salt 32) ->
  intermediate_code (with_scrypt P h) random pw lot sequence arg = intermediate_code P random pw lot sequence arg.
Proof.
  intros P h random arg salt pw lot sequence A H1 H2. apply argument_entropy in A. unfold entropy_arg in A. unfold intermediate_code. rewrite A. cbn [bind].
  assert (C : numbered lot sequence \/ ~ numbered lot sequence).
  { destruct lot as [l|]; [|right; intros (l & q & E & _); discriminate]. destruct sequence as [q|]; [|right; intros (l' & q & _ & E & _); discriminate].
    destruct (Z.eq_dec l 0); [right; intros (l' & q' & [= <-] & _ & N & _); contradiction|].
    destruct (Z.eq_dec q 0); [right; intros (l' & q' & _ & [= <-] & _ & N); contradiction|]. left. exists l, q. auto. }
  destruct C as [C|C].
  - specialize (H1 C). apply same_strong_str in H1. destruct C as (l & q & -> & -> & N1 & N2).
    assert (T1 : truthy_int (Some l) = true) by (cbn; destruct (Z.eqb_spec l 0); [contradiction|reflexivity]).
    assert (T2 : truthy_int (Some q) = true) by (cbn; destruct (Z.eqb_spec q 0); [contradiction|reflexivity]).
    rewrite T1, T2. cbn [andb]. change (upto 4 salt) with (firstn 4 salt). rewrite H1. reflexivity.
  - specialize (H2 C). apply same_strong_str in H2. rewrite H2.
    assert (T : truthy_int lot && truthy_int sequence = false).
    { destruct (truthy_int lot && truthy_int sequence) eqn:T; [|reflexivity]. destruct C. apply andb_prop in T. destruct T as [T1 T2].
      destruct lot as [l|]; [|discriminate]. destruct sequence as [q|]; [|discriminate]. cbn in T1, T2. exists l, q. repeat split; lia. }
    rewrite T. reflexivity.
Qed.
Theorem C93_encrypt : forall P h self network w a s raw c k address pw, prims_ok P -> lengths_right h -> session self network w a ->
  base58_reads s raw -> wif_payload w c k raw -> key_address P a c k address ->
  same_strong_answer P h pw (address_hash P address) 64 ->
  encrypt (with_scrypt P h) self s pw network = encrypt P self s pw network.
Proof.
  intros P h self network w a s raw c k address pw HP HL HS D W KA E.
  destruct (session_net_sel _ _ _ _ HS) as (n & N). pose proof (ns_a _ _ _ _ _ N) as Ha.
  rewrite (encrypt_payload _ self network n w a c k raw s _ (with_scrypt_ok P h HP HL) N D W), (encrypt_payload P self network n w a c k raw s _ HP N D W).
  unfold encrypt_result. cbn [h_nfc with_scrypt]. destruct (key_okb k); [|reflexivity].
  apply key_address_iff in KA; [|exact Ha]. destruct KA as [_ ->]. destruct (utf8_encode (h_nfc P pw)) as [b|e] eqn:B; [|reflexivity].
  specialize (E b B). cbv zeta. change (ahash (with_scrypt P h)) with (ahash P). change (b58c (with_scrypt P h)) with (b58c P).
  change (address_hash P (addr P a c (pubof (be2z k)))) with (ahash P a c (pubof (be2z k))) in E.
  assert (E' : kdf (with_scrypt P h) b (ahash P a c (pubof (be2z k))) = kdf P b (ahash P a c (pubof (be2z k)))) by exact E.
  unfold mask1, mask2, body_no_ec, mask1, mask2. rewrite E'. reflexivity.
Qed.
Theorem C93_decrypt_plain : forall P h self network w a f ah rest s pw detail, prims_ok P -> lengths_right h -> session self network w a ->
  base58_reads s ([x01; x42] ++ [f] ++ ah ++ rest) -> List.length ah = 4%nat -> List.length rest = 36%nat ->
  same_strong_answer P h pw ah 64 ->
  decrypt (with_scrypt P h) self s pw network detail = decrypt P self s pw network detail.
Proof.
  intros P h self network w a f ah rest s pw detail HP HL HS D La Lr E. to_code. destruct (session_net_sel _ _ _ _ HS) as (n & N).
  destruct (cut 16 rest ltac:(lia)) as (e1 & r1 & -> & L1). rewrite app_length in Lr. destruct (cut 16 r1 ltac:(lia)) as (e2 & ck & -> & L2). rewrite app_length in Lr.
  rewrite (decrypt_eq _ (with_scrypt_ok P h HP HL) _ _ _ _ _ _ _ _ _ _ _ _ _ detail N D) by (trivial; lia).
  rewrite (decrypt_eq P HP _ _ _ _ _ _ _ _ _ _ _ _ _ detail N D) by (trivial; lia).
  replace (bytes_eqb [x01; x42] [x01; x42]) with true by reflexivity. unfold decrypt_no_ec_result. cbn [h_nfc with_scrypt].
  destruct (Byte.eqb f xc0 || Byte.eqb f xe0); [|reflexivity]. cbv zeta.
  destruct (utf8_encode (h_nfc P pw)) as [b|e] eqn:B; [|reflexivity].
  assert (E' : kdf (with_scrypt P h) b ah = kdf P b ah) by exact (E b B). rewrite E'. reflexivity.
Qed.
Theorem C93_decrypt_ec : forall P h self network w a f lot c ah ent rest s pw detail, prims_ok P -> lengths_right h -> session self network w a ->
  base58_reads s ([x01; x43] ++ [f] ++ ah ++ ent ++ rest) -> flag_meaning f lot c ->
  List.length ah = 4%nat -> List.length ent = 8%nat -> List.length rest = 28%nat ->
  same_strong_answer P h pw (salt_of lot ent) 32 ->
  (forall pp, pass_point P lot pw ent pp -> same_weak_answer P h pp (ah ++ ent)) ->
  decrypt (with_scrypt P h) self s pw network detail = decrypt P self s pw network detail.
Proof.
  intros P h self network w a f lot c ah ent rest s pw detail HP HL HS D M La Le Lr E W. to_code. destruct (session_net_sel _ _ _ _ HS) as (n & N).
  destruct (flag_meaning_eq _ _ _ M) as [M1 _].
  destruct (cut 8 rest ltac:(lia)) as (g & r1 & -> & L1). rewrite app_length in Lr. destruct (cut 16 r1 ltac:(lia)) as (e2 & ck & -> & L2). rewrite app_length in Lr.
  rewrite (app_assoc ent) in D.
  rewrite (decrypt_eq _ (with_scrypt_ok P h HP HL) _ _ _ _ _ _ _ _ _ _ _ _ _ detail N D) by (rewrite ?app_length; trivial; lia).
  rewrite (decrypt_eq P HP _ _ _ _ _ _ _ _ _ _ _ _ _ detail N D) by (rewrite ?app_length; trivial; lia).
  replace (bytes_eqb [x01; x43] [x01; x42]) with false by reflexivity. replace (bytes_eqb [x01; x43] [x01; x43]) with true by reflexivity.
  rewrite (upto_app 8 ent g Le). unfold decrypt_ec_result. cbn [h_nfc with_scrypt]. destruct (utf8_encode (h_nfc P pw)) as [b|e] eqn:B; [|reflexivity].
  rewrite M1 in *. cbv zeta. rewrite (same_factor P h pw lot ent b E B).
  destruct (key_okb (pass_factor P lot b ent)) eqn:K; [|reflexivity]. rewrite (same_kdf2 P h lot pw ent ah b W B K). reflexivity.
Qed.
Theorem C93_confirm_code : forall P h self network w a f lot c ah ent rest s pw detail, prims_ok P -> lengths_right h -> session self network w a ->
  base58check_reads P s ([x64; x3b; xf6; xa8; x9a] ++ [f] ++ ah ++ ent ++ rest) -> flag_meaning f lot c ->
  List.length ah = 4%nat -> List.length ent = 8%nat -> List.length rest = 33%nat ->
  same_strong_answer P h pw (salt_of lot ent) 32 ->
  (forall pp, pass_point P lot pw ent pp -> same_weak_answer P h pp (ah ++ ent)) ->
  confirm_code (with_scrypt P h) self pw s network detail = confirm_code P self pw s network detail.
Proof.
  intros P h self network w a f lot c ah ent rest s pw detail HP HL HS D M La Le Lr E W. to_code. destruct (session_net_sel _ _ _ _ HS) as (n & N).
  destruct (flag_meaning_eq _ _ _ M) as [M1 _].
  destruct rest as [|b0 r0]; [discriminate|]. cbn [List.length] in Lr. destruct (cut 16 r0 ltac:(lia)) as (q1 & q2 & -> & L1). rewrite app_length in Lr.
  change (b0 :: q1 ++ q2) with ([b0] ++ q1 ++ q2) in D.
  rewrite (confirm_eq _ (with_scrypt_ok P h HP HL) _ _ _ _ _ _ _ _ _ _ _ _ _ _ detail N D) by (trivial; lia).
  rewrite (confirm_eq P HP _ _ _ _ _ _ _ _ _ _ _ _ _ _ detail N D) by (trivial; lia).
  unfold confirm_core. cbn [h_nfc with_scrypt]. destruct (utf8_encode (h_nfc P pw)) as [b|e] eqn:B; [|reflexivity].
  rewrite M1 in *. cbv zeta. rewrite (same_factor P h pw lot ent b E B).
  destruct (key_okb (pass_factor P lot b ent)) eqn:K; [|reflexivity]. rewrite (same_kdf2 P h lot pw ent ah b W B K). reflexivity.
Qed.
(** Whoever makes keys from a code never pays for the expensive parameters. *)
Theorem C93_create : forall P h random self code t seed network,
  (forall point salt, same_weak_answer P h point salt) ->
  create_new_encrypted_wif (with_scrypt P h) random self code t seed network = create_new_encrypted_wif P random self code t seed network.
Proof.
  intros P h random self code t seed network W. unfold create_new_encrypted_wif.
  cbn [h_scrypt with_scrypt].
  destruct (select_network self network) as [n|e]; cbn [bind]; [|reflexivity].
  match goal with |- bind ?x _ = _ => destruct x as [sd|e]; cbn [bind]; [|reflexivity] end.
  change (check_decode (with_scrypt P h)) with (check_decode P).
  match goal with |- bind ?x _ = _ => destruct x as [d|e]; cbn [bind]; [|reflexivity] end.
  destruct (negb (Nat.eqb (List.length d) 49)); [reflexivity|]. cbv zeta.
  do 4 (match goal with |- bind ?x _ = _ => destruct x as [?|e]; cbn [bind]; [|reflexivity] end).
  change (double_sha256 (with_scrypt P h)) with (double_sha256 P).
  match goal with |- bind ?x _ = _ => destruct x as [fb|e]; cbn [bind]; [|reflexivity] end.
  match goal with |- (if ?c then _ else _) = _ => destruct c; [reflexivity|] end.
  do 2 (match goal with |- bind ?x _ = _ => destruct x as [?|e]; cbn [bind]; [|reflexivity] end).
  change (address_of (with_scrypt P h)) with (address_of P). change (address_hash_of (with_scrypt P h)) with (address_hash_of P).
  do 2 (match goal with |- bind ?x _ = _ => destruct x as [?|e]; cbn [bind]; [|reflexivity] end).
  rewrite W. reflexivity.
Qed.
(** and asks one question only, about the point in the code and the new address. *)
Theorem C93_create_point : forall P h random self network w a lot c ent px py pp code arg seed e kx ky address,
  prims_ok P -> lengths_right h -> session self network w a -> argument_bytes random arg seed ->
  on_curve (Aff px py) -> sec1_compressed px py pp -> code_text P lot ent px py code -> List.length ent = 8%nat ->
  scalar (sha256d P seed) e -> ec_multiple (Z.to_N e) (Aff px py) (Aff kx ky) ->
  address_text P bitcoin_alphabet a c kx ky address ->
  same_weak_answer P h pp (address_hash P address ++ ent) ->
  create_new_encrypted_wif (with_scrypt P h) random self code (wif_name c) arg network =
  create_new_encrypted_wif P random self code (wif_name c) arg network.
Proof.
  intros P h random self network w a lot c ent px py pp code arg seed e kx ky address HP HL HS A O SC T Le S M AT W.
  destruct (session_net_sel _ _ _ _ HS) as (n & N). apply argument_entropy in A.
  set (k := {| pk_x := px; pk_y := py |}). assert (Ok_ : pk_ok k) by exact O.
  rewrite (serialised_unique true k pp Ok_ SC) in *. clear SC.
  destruct (scalar_be2z _ _ S) as [-> K]. destruct (key_okb_range _ K) as [_ R].
  change (Aff px py) with (PublicKey_point k) in M. apply (mulk_multiple k _ _ _ Ok_ R) in M.
  destruct (mulk_ok k _ Ok_ R) as (_ & OK & _). rewrite M in OK.
  apply (address_text_unique P a c {| pk_x := kx; pk_y := ky |} address OK) in AT. subst address.
  apply (code_text_iff P lot ent px py code O) in T. fold k in T.
  assert (D : check_decode P code base58_alphabet = Ok (magic_bytes lot ++ ent ++ ser true k)) by (rewrite T; apply check_decode_b58c, HP).
  assert (D' : check_decode (with_scrypt P h) code base58_alphabet = Ok (magic_bytes lot ++ ent ++ ser true k)) by exact D.
  rewrite (create_valid P random self network n w a lot c ent k code arg seed HP N A D Le).
  rewrite (create_valid _ random self network n w a lot c ent k code arg seed (with_scrypt_ok P h HP HL) N A D' Le).
  unfold create_core. change (sha256d (with_scrypt P h)) with (sha256d P). cbv zeta. rewrite K.
  rewrite (from_bytes_ser _ Ok_). cbn [bind]. rewrite M. change (ahash (with_scrypt P h)) with (ahash P).
  assert (W' : kdf2 (with_scrypt P h) (ser true k) (ahash P a c {| pk_x := kx; pk_y := ky |}) ent = kdf2 P (ser true k) (ahash P a c {| pk_x := kx; pk_y := ky |}) ent) by exact W.
  rewrite W'. reflexivity.
Qed.
(** A record that is not well formed is refused without any question: neither scrypt nor the passphrase matters. *)
Definition not_a_record (raw : bytes) : Prop :=
  List.length raw <> 43%nat \/
  (slice 0 2 raw <> [x01; x42] /\ slice 0 2 raw <> [x01; x43]) \/
  (slice 0 2 raw = [x01; x42] /\ nth 2 raw x00 <> xc0 /\ nth 2 raw x00 <> xe0).
Theorem C93_decrypt_refused : forall P h self network w a s raw pw pw' detail, prims_ok P -> lengths_right h -> session self network w a ->
  base58_reads s raw -> not_a_record raw ->
  exists e, decrypt (with_scrypt P h) self s pw' network detail = Raise e /\ decrypt P self s pw network detail = Raise e.
Proof.
  intros P h self network w a s raw pw pw' detail HP HL HS D B. pose proof (with_scrypt_ok P h HP HL) as HP'.
  destruct (Nat.eq_dec (List.length raw) 43) as [L|L].
  - destruct B as [B|[[B1 B2]|(B1 & B2 & B3)]]; [contradiction| |].
    + eexists. split; [apply (C18_wrong_prefix _ _ _ _ _ _ _ pw' detail HP' HS D L B1 B2)|apply (C18_wrong_prefix _ _ _ _ _ _ _ pw detail HP HS D L B1 B2)].
    + eexists. split; [apply (C18_wrong_flag _ _ _ _ _ _ _ pw' detail HP' HS D L B1 B2 B3)|apply (C18_wrong_flag _ _ _ _ _ _ _ pw detail HP HS D L B1 B2 B3)].
  - eexists. split; [apply (C18_wrong_length _ _ _ _ _ _ _ pw' detail HS D L)|apply (C18_wrong_length _ _ _ _ _ _ _ pw detail HS D L)].
Qed.
(** The same for a confirmation code that is misspelt, has another length or begins otherwise, *)
Theorem C93_confirm_refused : forall P h self network w a s pw pw' detail, prims_ok P -> lengths_right h -> session self network w a ->
  (forall rest, List.length rest = 46%nat -> ~ base58check_reads P s ([x64; x3b; xf6; xa8; x9a] ++ rest)) ->
  exists e, confirm_code (with_scrypt P h) self pw' s network detail = Raise e /\ confirm_code P self pw s network detail = Raise e.
Proof.
  intros P h self network w a s pw pw' detail HP HL HS B. destruct (session_net_sel _ _ _ _ HS) as (n & N).
  destruct (check_decode P s base58_alphabet) as [d|e] eqn:D.
  - destruct (Nat.eq_dec (List.length d) 51) as [L|L].
    + destruct (cut51 d L) as (p & f & ah & ent & b0 & q1 & q2 & -> & Lp & La & Le & L1 & L2).
      assert (E : bytes_eqb [x64; x3b; xf6; xa8; x9a] p = false).
      { apply bytes_eqb_neq. intros <-. apply (B ([f] ++ ah ++ ent ++ [b0] ++ q1 ++ q2)); [rewrite !app_length, La, Le, L1, L2; reflexivity|].
        apply (reads58check P HP). exact D. }
      eexists. split.
      * rewrite (confirm_eq _ (with_scrypt_ok P h HP HL) _ _ _ _ _ _ _ _ _ _ _ _ _ pw' detail N D) by trivial. rewrite E. reflexivity.
      * rewrite (confirm_eq P HP _ _ _ _ _ _ _ _ _ _ _ _ _ pw detail N D) by trivial. rewrite E. reflexivity.
    + unfold confirm_code. rewrite (ns_sel _ _ _ _ _ N). cbn [bind]. change (check_decode (with_scrypt P h)) with (check_decode P). rewrite D. cbn [bind].
      destruct (Nat.eqb_spec (List.length d) 51); [contradiction|]. cbn [negb]. eexists. split; reflexivity.
  - unfold confirm_code. rewrite (ns_sel _ _ _ _ _ N). cbn [bind]. change (check_decode (with_scrypt P h)) with (check_decode P). rewrite D. cbn [bind].
    destruct (is_value_error e); cbn [bind]; eexists; split; reflexivity.
Qed.
(** for a WIF that is not one of the network or whose number is not a private key, *)
Theorem C93_encrypt_refused : forall P h self network w a s pw pw', prims_ok P -> lengths_right h -> session self network w a ->
  (forall raw c k e, base58_reads s raw -> wif_payload w c k raw -> ~ scalar k e) ->
  exists e, encrypt (with_scrypt P h) self s pw' network = Raise e /\ encrypt P self s pw network = Raise e.
Proof.
  intros P h self network w a s pw pw' HP HL HS B. destruct (session_net_sel _ _ _ _ HS) as (n & N).
  rewrite (encrypt_eq _ (with_scrypt_ok P h HP HL) _ _ _ _ _ _ _ N), (encrypt_eq P HP _ _ _ _ _ _ _ N).
  destruct (decode_wif s w) as [[[k t] ck]|e] eqn:D; [|eexists; split; reflexivity].
  unfold encrypt_result. destruct (key_okb k) eqn:K; [exfalso|eexists; split; reflexivity].
  pose proof (ns_w _ _ _ _ _ N) as Hw. apply C09_decode_wif_exact in D; [|exact Hw]. destruct D as (raw & c & R & _ & p & m & M).
  apply (B raw c k (be2z k) R); [|apply key_okb_spec, K]. exists p, m, ck. intuition.
Qed.
(** and for a lot number, sequence number or salt that intermediate_code does not take. *)
Definition code_arguments (salt : bytes) (lot sequence : option Z) : Prop :=
  (List.length salt = 4%nat \/ List.length salt = 8%nat) /\
  (List.length salt = 4%nat -> lot <> None /\ sequence <> None) /\
  (forall l, lot = Some l -> l <> 0 -> sequence <> None) /\
  (forall q, sequence = Some q -> q <> 0 -> lot <> None) /\
  (forall l q, lot = Some l -> sequence = Some q -> l <> 0 -> q <> 0 -> 100000 <= l <= 999999 /\ 0 <= q <= 4095).
Theorem C93_code_refused : forall P h random arg salt pw pw' lot sequence, argument_bytes random arg salt ->
  ~ code_arguments salt lot sequence ->
  exists e, intermediate_code (with_scrypt P h) random pw' lot sequence arg = Raise e /\ intermediate_code P random pw lot sequence arg = Raise e.
Proof.
  intros P h random arg salt pw pw' lot sequence A B. apply argument_entropy in A. unfold entropy_arg in A. unfold intermediate_code. rewrite A. cbn [bind].
  rewrite bytes_to_string_bytes. cbn [bind].
  destruct (negb (Nat.eqb (List.length salt) 4 || Nat.eqb (List.length salt) 8)) eqn:E1; [eexists; split; reflexivity|].
  destruct (Nat.eqb (List.length salt) 4 && (is_none lot || is_none sequence)) eqn:E2; [eexists; split; reflexivity|].
  destruct (truthy_int lot && is_none sequence || is_none lot && truthy_int sequence) eqn:E3; [eexists; split; reflexivity|].
  destruct (truthy_int lot && truthy_int sequence) eqn:E4.
  - destruct lot as [l|]; [|discriminate]. destruct sequence as [q|]; [|rewrite andb_comm in E4; discriminate].
    destruct (negb ((100000 <=? l) && (l <=? 999999))) eqn:E5; [cbn [bind]; eexists; split; reflexivity|].
    destruct (negb ((0 <=? q) && (q <=? 4095))) eqn:E6; [cbn [bind]; eexists; split; reflexivity|].
    exfalso. apply B. split; [lia|]. split; [intros _; split; discriminate|]. split; [discriminate|]. split; [discriminate|].
    intros l' q' [= <-] [= <-] _ _. lia.
  - exfalso. apply B. split; [lia|].
    split; [destruct lot, sequence; cbn [is_none] in E2; intros L; rewrite L in E2; cbn in E2; try discriminate; split; discriminate|].
    split; [intros l -> N ->; cbn [truthy_int is_none] in E3; lia|].
    split; [intros q -> N ->; cbn [truthy_int is_none] in E3; lia|].
    intros l q -> -> N1 N2. cbn [truthy_int] in E4. lia.
Qed.

(** ** The hypotheses are met by functions other than scrypt *)
(** asked about one salt only; every other answer is replaced *)
Definition only_at (P : prims) (q : bytes) : hash_function :=
  fun pw salt n r p l => if bytes_eqb salt q then h_scrypt P pw salt n r p l else repeat xff l.
Lemma only_at_ok P q : prims_ok P -> lengths_right (only_at P q) /\ (forall pw l, same_strong_answer P (only_at P q) pw q l) /\
  forall pw salt n r p l, salt <> q -> only_at P q pw salt n r p l = repeat xff l.
Proof.
  intros HP. assert (E : bytes_eqb q q = true) by (apply bytes_eqb_spec; reflexivity). split; [|split].
  - intros pw salt n r p l. unfold only_at. destruct (bytes_eqb salt q); [apply (scrypt_len P HP)|apply repeat_length].
  - intros pw l b _. unfold only_at. rewrite E. reflexivity.
  - intros pw salt n r p l N. unfold only_at. rewrite (bytes_eqb_neq _ _ N). reflexivity.
Qed.
Example C93_plain : forall P pw, prims_ok P ->
  let s := b58 ([x01; x42] ++ [xe0] ++ [x01; x02; x03; x04] ++ repeat x11 36) in
  decrypt (with_scrypt P (only_at P [x01; x02; x03; x04])) btc s pw None true = decrypt P btc s pw None true.
Proof.
  intros P pw HP s. destruct (only_at_ok P [x01; x02; x03; x04] HP) as (L & S & _).
  exact (C93_decrypt_plain P _ btc None 0x80 0 xe0 [x01; x02; x03; x04] (repeat x11 36) s pw true HP L btc_session (reads_b58 _) eq_refl eq_refl (S pw 64%nat)).
Qed.
(** the two questions of an EC-multiplied key *)
Definition two_questions (P : prims) (q q' : bytes) : hash_function :=
  fun pw salt n r p l => if bytes_eqb salt q || bytes_eqb salt q' then h_scrypt P pw salt n r p l else repeat xff l.
Example C93_ec : forall P pw, prims_ok P ->
  let ah := [x01; x02; x03; x04] in let ent := [x0a; x0b; x0c; x0d; x61; xa8; x00; x01] in
  let s := b58 ([x01; x43] ++ [x24] ++ ah ++ ent ++ repeat x11 28) in
  decrypt (with_scrypt P (two_questions P [x0a; x0b; x0c; x0d] (ah ++ ent))) btc s pw None true = decrypt P btc s pw None true.
Proof.
  intros P pw HP ah ent s.
  assert (M : flag_meaning x24 true true) by (left; split; [vm_compute; reflexivity|split; reflexivity]).
  apply (C93_decrypt_ec P _ btc None 0x80 0 x24 true true ah ent (repeat x11 28) s pw true HP) with (2 := btc_session) (3 := reads_b58 _) (4 := M);
    [|reflexivity|reflexivity|reflexivity| |].
  - intros b salt n r p l. unfold two_questions. destruct (_ || _); [apply (scrypt_len P HP)|apply repeat_length].
  - intros b _. reflexivity.
  - intros pp _. unfold same_weak_answer, two_questions. replace (bytes_eqb (ah ++ ent) (ah ++ ent)) with true by (symmetry; apply bytes_eqb_spec; reflexivity).
    rewrite orb_true_r. reflexivity.
Qed.
(** a function that answers none of the cheap questions rightly but is fit for a code, and the reverse *)
Definition expensive_only (P : prims) : hash_function := fun pw salt n r p l => if n =? 16384 then h_scrypt P pw salt n r p l else repeat xff l.
Definition cheap_only (P : prims) : hash_function := fun pw salt n r p l => if n =? 1024 then h_scrypt P pw salt n r p l else repeat xff l.
Example C93_division : forall P random pw lot sequence arg salt self code t seed network, argument_bytes random arg salt ->
  intermediate_code (with_scrypt P (expensive_only P)) random pw lot sequence arg = intermediate_code P random pw lot sequence arg /\
  create_new_encrypted_wif (with_scrypt P (cheap_only P)) random self code t seed network = create_new_encrypted_wif P random self code t seed network.
Proof.
  intros P random pw lot sequence arg salt self code t seed network A. split.
  - apply (C93_intermediate_code P _ random arg salt pw lot sequence A); intros _ b _; reflexivity.
  - apply C93_create. intros point s. reflexivity.
Qed.
(** refused: a text with the payload of a plain record but a foreign flag, and lot number 7 *)
Example C93_refused : forall P h pw pw', prims_ok P -> lengths_right h ->
  (exists e, decrypt (with_scrypt P h) btc (b58 ([x01; x42; x80] ++ repeat x11 40)) pw' None true = Raise e /\
    decrypt P btc (b58 ([x01; x42; x80] ++ repeat x11 40)) pw None true = Raise e) /\
  (exists e, intermediate_code (with_scrypt P h) (repeat x11 8) pw' (Some 7) (Some 1) PNone = Raise e /\
    intermediate_code P (repeat x11 8) pw (Some 7) (Some 1) PNone = Raise e).
Proof.
  intros P h pw pw' HP HL. split.
  - apply (C93_decrypt_refused P h btc None 0x80 0 _ ([x01; x42; x80] ++ repeat x11 40) pw pw' true HP HL btc_session (reads_b58 _)).
    right. right. split; [reflexivity|]. split; discriminate.
  - apply (C93_code_refused P h (repeat x11 8) PNone (repeat x11 8) pw pw' (Some 7) (Some 1)).
    + left. split; [left|]; reflexivity.
    + intros (_ & _ & _ & _ & H). specialize (H 7 1 eq_refl eq_refl). lia.
Qed.
Example C93_other_network : forall P h pw pw', prims_ok P -> lengths_right h ->
  (exists e, encrypt (with_scrypt P h) btc (b58 (xef :: repeat x11 36)) pw' None = Raise e /\ encrypt P btc (b58 (xef :: repeat x11 36)) pw None = Raise e) /\
  (exists e, confirm_code (with_scrypt P h) btc pw' (b58 (repeat x11 55)) None true = Raise e /\ confirm_code P btc pw (b58 (repeat x11 55)) None true = Raise e).
Proof.
  intros P h pw pw' HP HL. split.
  - apply (C93_encrypt_refused P h btc None 0x80 0 _ pw pw' HP HL btc_session). intros raw c k e R (p & m & ck & M & _ & _ & _ & E) _.
    apply reads_code in R. rewrite (proj1 (reads_code _ _) (reads_b58 _)) in R. apply Ok_inj in R. subst raw.
    apply minimal_unique in M. subst p. discriminate E.
  - apply (C93_confirm_refused P h btc None 0x80 0 _ pw pw' true HP HL btc_session). intros rest L R.
    apply reads_code in R. rewrite (proj1 (reads_code _ _) (reads_b58 _)) in R. apply Ok_inj in R. discriminate R.
Qed.
