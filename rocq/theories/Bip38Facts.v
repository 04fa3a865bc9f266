(** * Bip38Facts: what the methods of BIP38 compute, case by case. *)
From Coq Require Import Lia ZifyBool ZifyNat ZifyN Znumtheory.
From Verif Require Import Exceptions ErrorFacts Py Prims Const Spec PyFacts Utils UtilsFacts Base58 Base58Facts
  SpecRipemd Ripemd160 RipemdFacts Crypto Curve SpecCurve CurveFacts CurveFacts2 Secp256k1 SecpFacts
  Cryptocurrencies P2PKHAddress Wif Bip38 SpecBip38 CodecFacts CodecFacts2.

(** ** Small facts *)
Lemma bytes_eqb_neq a b : a <> b -> bytes_eqb a b = false.
Proof. intros H. apply bytes_eqb_false, H. Qed.
Lemma xor_bytes_eq a b : List.length a = List.length b -> xor_bytes a b = Ok (shortest (xor a b)).
Proof. intros H. unfold xor_bytes. rewrite !bytes_to_integer_be2z. apply lxor_integer_to_bytes_eq, H. Qed.
Lemma xor_bytes_gen a b :
  let n := Nat.max (List.length a) (List.length b) in
  xor_bytes a b = Ok (shortest (xor (pad_left n a) (pad_left n b))).
Proof. intros n. unfold xor_bytes. rewrite !bytes_to_integer_be2z. apply lxor_integer_to_bytes. Qed.
Lemma xor_bytes_total a b : exists x, xor_bytes a b = Ok x.
Proof. rewrite xor_bytes_gen. eexists. reflexivity. Qed.

Lemma aes_new_32 k : List.length k = 32%nat -> aes_new k = Ok k.
Proof. intros H. unfold aes_new. rewrite H. reflexivity. Qed.
Lemma aes_encrypt_ok P k b : List.length b = 16%nat -> aes_encrypt P k b = Ok (h_aes_enc P k b).
Proof. intros H. unfold aes_encrypt. rewrite H. reflexivity. Qed.
Lemma aes_decrypt_ok P k b : List.length b = 16%nat -> aes_decrypt P k b = Ok (h_aes_dec P k b).
Proof. intros H. unfold aes_decrypt. rewrite H. reflexivity. Qed.
Definition zero_first (l : bytes) : bool := Byte.eqb (first_byte l) x00.
Lemma zero_first_spec l : zero_first l = true <-> first_byte l = x00.
Proof. apply byte_eqb_spec. Qed.
Lemma zero_first_false l : zero_first l = false <-> first_byte l <> x00.
Proof. rewrite <- zero_first_spec. destruct (zero_first l); split; congruence. Qed.
Lemma aes_encrypt_shortest P k x : List.length x = 16%nat ->
  aes_encrypt P k (shortest x) = if zero_first x then Raise (Builtin ValueError) else Ok (h_aes_enc P k x).
Proof.
  intros L. destruct (zero_first x) eqn:Z.
  - apply zero_first_spec in Z. unfold aes_encrypt. pose proof (shortest_length_lt x ltac:(lia) Z) as H.
    destruct (Nat.eqb_spec (List.length (shortest x)) 16); [lia|reflexivity].
  - apply zero_first_false in Z. rewrite shortest_id by exact Z. apply aes_encrypt_ok, L.
Qed.

(** ** Private keys *)
Definition key_okb (k : bytes) : bool := (List.length k =? 32)%nat && (1 <=? be2z k) && (be2z k <? secp_n).
Lemma key_okb_spec k : key_okb k = true <-> scalar k (be2z k).
Proof.
  unfold key_okb, scalar, fixed_bytes. rewrite !andb_true_iff, Nat.eqb_eq, be_value_be2z. split; [intros H|intros H]; intuition lia.
Qed.
Lemma scalar_be2z k e : scalar k e -> e = be2z k /\ key_okb k = true.
Proof. intros H. pose proof H as [[_ V] _]. rewrite be_value_be2z in V. subst e. split; [reflexivity|]. apply key_okb_spec, H. Qed.
Lemma PrivateKey_from_bytes_eq k : PrivateKey_from_bytes k =
  if key_okb k then Ok {| secexp := be2z k |} else Raise (Lib CSecp256k1Error "Invalid private key bytes").
Proof.
  destruct (key_okb k) eqn:E.
  - apply PrivateKey_from_bytes_iff. cbn [secexp]. apply key_okb_spec, E.
  - destruct (PrivateKey_from_bytes k) as [s|e] eqn:F.
    + apply PrivateKey_from_bytes_iff in F. apply scalar_be2z in F. destruct F as [_ F]. congruence.
    + rewrite (PrivateKey_from_bytes_err _ _ F). reflexivity.
Qed.
Lemma key_okb_range k : key_okb k = true -> List.length k = 32%nat /\ 1 <= be2z k < G_order.
Proof. unfold key_okb. change secp_n with G_order. lia. Qed.
Definition pubof (e : Z) : pubkey :=
  match ec_mul e G with Aff x y => {| pk_x := x; pk_y := y |} | Inf => {| pk_x := 0; pk_y := 0 |} end.
Lemma pubof_ok e : 1 <= e < G_order ->
  PrivateKey_public_key {| secexp := e |} = Ok (pubof e) /\ PublicKey_point (pubof e) = ec_mul e G /\ pk_ok (pubof e).
Proof.
  intros H. destruct (public_key_ok e H) as (k & E & Q & O). unfold pubof.
  unfold PublicKey_point in Q. rewrite <- Q. rewrite E. destruct k as [x y]. cbn [pk_x pk_y] in *. auto.
Qed.
Lemma raw_of_key k : key_okb k = true -> PrivateKey_raw {| secexp := be2z k |} = k.
Proof. intros H. apply PrivateKey_raw_id. rewrite PrivateKey_from_bytes_eq, H. reflexivity. Qed.
(** Multiplying public keys *)
Lemma pubof_point_inj e k : PublicKey_point k = ec_mul e G -> pubof e = k.
Proof. intros H. unfold pubof. rewrite <- H. destruct k. reflexivity. Qed.
Lemma mul_pub k e : pk_ok k -> 1 <= e < G_order -> exists k', PublicKey_from_point (Point_mul (PublicKey_point k) e) = Ok k' /\ pk_ok k' /\ PublicKey_point k' = ec_mul e (PublicKey_point k).
Proof.
  intros O He. destruct (Point_mul (PublicKey_point k) e) as [|x y] eqn:E; unfold Point_mul in E.
  - exfalso. apply (ec_mul_nz e _ O) in E; [|discriminate]. apply Z.divide_pos_le in E; lia.
  - exists {| pk_x := x; pk_y := y |}. assert (pk_ok {| pk_x := x; pk_y := y |}) as O'.
    { unfold pk_ok, PublicKey_point. cbn [pk_x pk_y]. rewrite <- E. apply ec_mul_on, O. }
    split; [apply PublicKey_from_point_iff; auto|]. split; [exact O'|]. unfold PublicKey_point at 1. cbn [pk_x pk_y]. symmetry; exact E.
Qed.
Lemma mul_pub_pub a b : 1 <= a < G_order -> 1 <= b < G_order ->
  PublicKey_from_point (Point_mul (PublicKey_point (pubof a)) b) = Ok (pubof ((a * b) mod G_order)).
Proof.
  intros Ha Hb. destruct (pubof_ok a Ha) as (_ & Pa & Oa). destruct (mul_pub _ b Oa Hb) as (k' & E & O' & Q).
  rewrite E. f_equal. symmetry. apply pubof_point_inj. rewrite Q, Pa, <- ec_mul_mul by (try lia; apply G_on).
  rewrite (Z.mul_comm b a). rewrite ec_mul_G_mod by nia. reflexivity.
Qed.
Lemma mul_mod_range a b : 1 <= a < G_order -> 1 <= b < G_order -> 1 <= (a * b) mod G_order < G_order.
Proof.
  intros Ha Hb. pose proof n_bounds. pose proof (Z.mod_pos_bound (a * b) G_order ltac:(lia)) as R.
  destruct (Z.eq_dec ((a * b) mod G_order) 0) as [E|]; [|lia]. exfalso.
  apply Z.mod_divide in E; [|lia]. apply (prime_mult _ n_prime) in E. destruct E as [E|E]; apply Z.divide_pos_le in E; lia.
Qed.

(** ** The selected network *)
Record net_sel (self : bip38) (network : option pystr) (n : pystr) (w a : Z) : Prop := {
  ns_sel : select_network self network = Ok n;
  ns_get : dict_get n (c_networks (s_cryptocurrency self)) = Some (w, a);
  ns_w : 0 <= w;
  ns_a : 0 <= a
}.

Section Facts.
Variable P : prims.
Hypothesis HP : prims_ok P.

Definition ahash (a : Z) (c : bool) (k : pubkey) : bytes := checksum4 P (List.map n2b (addr P a c k)).
Lemma ahash_length a c k : List.length (ahash a c k) = 4%nat.
Proof. apply checksum4_length, HP. Qed.
Lemma key_name_compressed c : str_eqb (key_name c) (str "compressed") = c.
Proof. destruct c; reflexivity. Qed.
Lemma address_of_eq self network n w a c k : net_sel self network n w a -> pk_ok k ->
  address_of P self n k (key_name c) = Ok (addr P a c k).
Proof.
  intros N O. unfold address_of. rewrite (address_prefix_eq _ _ _ _ (ns_get _ _ _ _ _ N)). cbn [bind].
  rewrite P2PKH_encode_eq by (trivial; apply (ns_a _ _ _ _ _ N)). rewrite key_name_compressed. reflexivity.
Qed.
Lemma address_hash_of_eq a c k : address_hash_of P (addr P a c k) = Ok (ahash a c k).
Proof.
  unfold address_hash_of. rewrite get_bytes_utf8, utf8_encode_ascii by apply b58_ascii. cbn [bind]. apply get_checksum_eq.
Qed.
Lemma public_raw_eq k c : pk_ok k -> PublicKey_raw k (key_name c) = Ok (ser c k).
Proof. intros O. unfold PublicKey_raw. rewrite key_name_compressed. apply raw_of, O. Qed.
Lemma scrypt_str_eq pw salt n r p l : scrypt_str P pw salt n r p l =
  match utf8_encode (h_nfc P pw) with Ok b => Ok (h_scrypt P b salt n r p l) | Raise e => Raise e end.
Proof. reflexivity. Qed.
Lemma utf8_encode_err s e : utf8_encode s = Raise e -> e = Builtin UnicodeEncodeError.
Proof. unfold utf8_encode. destruct (utf8_opt s); congruence. Qed.

(** ** Non-EC records *)
Definition flag_no_ec (c : bool) : byte := if c then xe0 else xc0.
Definition kdf (pwb ah : bytes) : bytes := h_scrypt P pwb ah 16384 8 8 64.
Lemma kdf_length pwb ah : List.length (kdf pwb ah) = 64%nat.
Proof. apply (scrypt_len P HP). Qed.
Lemma kdf_parts pwb ah : List.length (slice 0 32 (kdf pwb ah)) = 32%nat /\ List.length (slice 32 64 (kdf pwb ah)) = 32%nat /\
  List.length (slice 0 16 (kdf pwb ah)) = 16%nat /\ List.length (slice 16 32 (kdf pwb ah)) = 16%nat.
Proof. repeat split; rewrite slice_length by (rewrite kdf_length; lia); reflexivity. Qed.
Definition mask1 (k pwb ah : bytes) : bytes := xor (slice 0 16 k) (slice 0 16 (kdf pwb ah)).
Definition mask2 (k pwb ah : bytes) : bytes := xor (slice 16 32 k) (slice 16 32 (kdf pwb ah)).
Definition body_no_ec (c : bool) (ah k pwb : bytes) : bytes :=
  [x01; x42] ++ [flag_no_ec c] ++ ah ++ h_aes_enc P (slice 32 64 (kdf pwb ah)) (mask1 k pwb ah)
  ++ h_aes_enc P (slice 32 64 (kdf pwb ah)) (mask2 k pwb ah).

Lemma slice_slice0 {A} (l : list A) : slice 0 16 (slice 0 32 l) = slice 0 16 l.
Proof. unfold slice. change (@skipn A 0) with (fun l : list A => l). cbv beta. rewrite firstn_firstn. reflexivity. Qed.
Lemma slice_slice1 {A} (l : list A) : slice 16 32 (slice 0 32 l) = slice 16 32 l.
Proof. unfold slice. rewrite skipn_firstn_comm, firstn_firstn. reflexivity. Qed.
Lemma slice_app2 {A} (l : list A) : slice 0 16 l ++ slice 16 32 l = slice 0 32 l.
Proof.
  unfold slice. change (@skipn A 0) with (fun l : list A => l). cbv beta. change (32 - 0)%nat with 32%nat.
  rewrite <- (firstn_skipn 16 (firstn 32 l)). rewrite firstn_firstn, skipn_firstn_comm. reflexivity.
Qed.
Lemma slice_full {A} (l : list A) : List.length l = 32%nat -> slice 0 32 l = l.
Proof. intros H. unfold slice. change (skipn 0 l) with l. apply firstn_all2. lia. Qed.

Definition encrypt_result (a : Z) (c : bool) (k : bytes) (pw : pystr) : res pystr :=
  if key_okb k then
    match utf8_encode (h_nfc P pw) with
    | Raise e => Raise e
    | Ok pwb =>
        let ah := ahash a c (pubof (be2z k)) in
        if zero_first (mask1 k pwb ah) || zero_first (mask2 k pwb ah) then Raise (Builtin ValueError)
        else Ok (b58c P (body_no_ec c ah k pwb))
    end
  else Raise (Lib CSecp256k1Error "Invalid private key bytes").

Lemma encrypt_eq self network n w a wif pw : net_sel self network n w a ->
  encrypt P self wif pw network =
  match decode_wif wif w with
  | Raise e => Raise e
  | Ok (k, t, _) => encrypt_result a (negb (str_eqb t (str "wif"))) k pw
  end.
Proof.
  intros N. unfold encrypt. rewrite (ns_sel _ _ _ _ _ N). cbn [bind].
  rewrite (get_wif_type_eq _ _ _ _ _ (ns_get _ _ _ _ _ N)), (wif_to_private_key_eq _ _ _ _ _ (ns_get _ _ _ _ _ N)).
  destruct (decode_wif wif w) as [[[k t] ck]|e]; cbn [bind]; [|reflexivity].
  rewrite get_bytes_tohex. cbn [bind]. rewrite PrivateKey_from_bytes_eq.
  unfold encrypt_result. set (c := negb (str_eqb t (str "wif"))).
  change (integer_to_bytes NO_EC_MULTIPLIED_WIF_FLAG) with (Ok [xc0] : res bytes).
  change (integer_to_bytes NO_EC_MULTIPLIED_WIF_COMPRESSED_FLAG) with (Ok [xe0] : res bytes).
  change (integer_to_bytes NO_EC_MULTIPLIED_PRIVATE_KEY_PREFIX) with (Ok [x01; x42] : res bytes).
  destruct (key_okb k) eqn:K; [|destruct (str_eqb t (str "wif")); reflexivity].
  destruct (key_okb_range k K) as [Lk Rk].
  transitivity (let* (flag, private_key, public_key_type) := Ok ([flag_no_ec c], {| secexp := be2z k |}, key_name c) in
    let* public_key := PrivateKey_public_key private_key in
    let* address := address_of P self n public_key public_key_type in
    let* address_hash := address_hash_of P address in
    let* key := scrypt_str P pw address_hash 16384 8 8 64 in
    let* aes := aes_new (slice 32 64 key) in
    let* m1 := xor_bytes (slice 0 16 (PrivateKey_raw private_key)) (slice 0 16 (slice 0 32 key)) in
    let* encrypted_half_1 := aes_encrypt P aes m1 in
    let* m2 := xor_bytes (slice 16 32 (PrivateKey_raw private_key)) (slice 16 32 (slice 0 32 key)) in
    let* encrypted_half_2 := aes_encrypt P aes m2 in
    let body := [x01; x42] ++ flag ++ address_hash ++ encrypted_half_1 ++ encrypted_half_2 in
    let* chk := get_checksum P (PBytes body) in
    let* s := encode (body ++ chk) base58_alphabet in ensure_string s).
  { unfold c. destruct (str_eqb t (str "wif")); reflexivity. }
  cbn [bind]. destruct (pubof_ok _ Rk) as (E & _ & O). rewrite E. cbn [bind].
  rewrite (address_of_eq _ _ _ _ _ c _ N O). cbn [bind]. rewrite address_hash_of_eq. cbn [bind].
  rewrite scrypt_str_eq. set (ah := ahash a c (pubof (be2z k))). destruct (utf8_encode _) as [pwb|e]; cbn [bind]; [|reflexivity].
  change (h_scrypt P pwb ah 16384 8 8 64) with (kdf pwb ah).
  destruct (kdf_parts pwb ah) as (K1 & K2 & K3 & K4).
  rewrite aes_new_32 by exact K2. cbn [bind]. rewrite raw_of_key by exact K. rewrite slice_slice0, slice_slice1.
  assert (L1 : List.length (slice 0 16 k) = 16%nat) by (rewrite slice_length; lia).
  assert (L2 : List.length (slice 16 32 k) = 16%nat) by (rewrite slice_length; lia).
  rewrite !xor_bytes_eq by congruence. cbn [bind].
  change (xor (slice 0 16 k) (slice 0 16 (kdf pwb ah))) with (mask1 k pwb ah).
  change (xor (slice 16 32 k) (slice 16 32 (kdf pwb ah))) with (mask2 k pwb ah).
  assert (M1 : List.length (mask1 k pwb ah) = 16%nat) by (unfold mask1; rewrite xor_length; congruence).
  assert (M2 : List.length (mask2 k pwb ah) = 16%nat) by (unfold mask2; rewrite xor_length; congruence).
  rewrite !aes_encrypt_shortest by assumption.
  destruct (zero_first (mask1 k pwb ah)); cbn [bind orb]; [reflexivity|].
  destruct (zero_first (mask2 k pwb ah)); cbn [bind]; [reflexivity|].
  cbv zeta. rewrite get_checksum_eq. cbn [bind]. rewrite encode_b58. reflexivity.
Qed.

(** ** decrypt *)
Lemma cut43 (d : bytes) : List.length d = 43%nat -> exists p f ah e1 e2 ck,
  d = p ++ [f] ++ ah ++ e1 ++ e2 ++ ck /\ List.length p = 2%nat /\ List.length ah = 4%nat /\
  List.length e1 = 16%nat /\ List.length e2 = 16%nat /\ List.length ck = 4%nat.
Proof.
  intros L. destruct (cut 2 d ltac:(lia)) as (p & d1 & -> & Lp). rewrite app_length in L.
  destruct d1 as [|f d2]; [cbn in L; lia|]. cbn [List.length] in L.
  destruct (cut 4 d2 ltac:(lia)) as (ah & d3 & -> & La). rewrite app_length in L.
  destruct (cut 16 d3 ltac:(lia)) as (e1 & d4 & -> & L1). rewrite app_length in L.
  destruct (cut 16 d4 ltac:(lia)) as (e2 & ck & -> & L2). rewrite app_length in L.
  exists p, f, ah, e1, e2, ck. repeat split; trivial; lia.
Qed.
Lemma parts43 p (f : byte) ah e1 e2 ck : List.length p = 2%nat -> List.length ah = 4%nat ->
  List.length e1 = 16%nat -> List.length e2 = 16%nat -> List.length ck = 4%nat ->
  let d := p ++ [f] ++ ah ++ e1 ++ e2 ++ ck in
  upto 2 d = p /\ slice 2 3 d = [f] /\ slice 3 7 d = ah /\ slice 7 23 d = e1 /\ slice 23 39 d = e2 /\
  slice 7 15 d = upto 8 e1 /\ slice 15 23 d = from 8 e1 /\ from 23 (upto_neg 4 d) = e2.
Proof.
  intros Lp La L1 L2 Lc d. repeat split.
  - apply upto_app, Lp.
  - apply (slice_app 2 3 p [f]); [exact Lp|reflexivity].
  - unfold d. rewrite app_assoc. apply (slice_app 3 7 (p ++ [f]) ah); [rewrite app_length, Lp; reflexivity|exact La].
  - unfold d. rewrite (app_assoc p), (app_assoc (p ++ _)). apply slice_app; [rewrite !app_length, Lp, La; reflexivity|exact L1].
  - unfold d. rewrite (app_assoc p), (app_assoc (p ++ _)), (app_assoc ((p ++ _) ++ _)).
    apply slice_app; [rewrite !app_length, Lp, La, L1; reflexivity|exact L2].
  - replace d with ((p ++ [f] ++ ah) ++ upto 8 e1 ++ from 8 e1 ++ e2 ++ ck).
    + apply slice_app; [rewrite !app_length, Lp, La; reflexivity|apply upto_length; lia].
    + unfold d. rewrite (app_assoc (upto 8 e1)), upto_from, <- !app_assoc. reflexivity.
  - replace d with ((p ++ [f] ++ ah ++ upto 8 e1) ++ from 8 e1 ++ e2 ++ ck).
    + apply slice_app; [rewrite !app_length, Lp, La, upto_length by lia; reflexivity|rewrite from_length; lia].
    + unfold d. rewrite <- !app_assoc, (app_assoc (upto 8 e1)), upto_from. reflexivity.
  - unfold d. rewrite !app_assoc, upto_neg_app by exact Lc.
    apply from_app. rewrite !app_length, Lp, La, L1; reflexivity.
Qed.

Definition decrypt_value (w a : Z) (c : bool) (k : bytes) (seed : option bytes) (lot sequence : option Z)
    (detail : bool) : decrypt_result :=
  let K := pubof (be2z k) in
  if detail then DDetail {| d_wif := wif_of P w c k;
                            d_private_key := tohex k;
                            d_wif_type := wif_name c;
                            d_public_key := tohex (ser c K);
                            d_public_key_type := key_name c;
                            d_seed := option_map tohex seed;
                            d_address := addr P a c K;
                            d_lot := lot;
                            d_sequence := sequence |}
  else DWif (wif_of P w c k).

Definition decrypt_no_ec_result (w a : Z) (f : byte) (ah e1 e2 : bytes) (pw : pystr) (detail : bool) : res decrypt_result :=
  if Byte.eqb f xc0 || Byte.eqb f xe0 then
    let c := Byte.eqb f xe0 in
    match utf8_encode (h_nfc P pw) with
    | Raise e => Raise e
    | Ok pwb =>
        let key := slice 32 64 (kdf pwb ah) in
        let x := xor (h_aes_dec P key e1 ++ h_aes_dec P key e2) (slice 0 32 (kdf pwb ah)) in
        if (be2z x =? 0) || (N_order <=? be2z x)
        then Raise (Lib CError "Invalid Non-EC encrypted WIF (Wallet Import Format)")
        else if zero_first x then Raise (Lib CSecp256k1Error "Invalid private key bytes")
        else if bytes_eqb (ahash a c (pubof (be2z x))) ah then Ok (decrypt_value w a c x None None None detail)
        else Raise (Lib CPassphraseError "Incorrect passphrase")
    end
  else Raise (Lib CError (error_text "Invalid flag" (str "'c0', 'e0'") (tohex [f]))).

Lemma not_one_of_eq {A} m z1 z2 g b1 b2 : integer_to_bytes z1 = Ok b1 -> integer_to_bytes z2 = Ok b2 ->
  @raise_not_one_of A m z1 z2 g = Raise (Lib CError (error_text m (quoted_list [tohex b1; tohex b2]) (tohex g))).
Proof.
  intros H1 H2. unfold raise_not_one_of. rewrite H1, H2. cbn [bind]. rewrite !bytes_to_string_bytes. cbn [bind].
  rewrite lib_error_list by discriminate. reflexivity.
Qed.
Lemma invalid_flag_eq f : raise_not_one_of "Invalid flag" NO_EC_MULTIPLIED_WIF_FLAG NO_EC_MULTIPLIED_WIF_COMPRESSED_FLAG [f] =
  (Raise (Lib CError (error_text "Invalid flag" (str "'c0', 'e0'") (tohex [f]))) : res (pystr * pystr)).
Proof. rewrite (not_one_of_eq _ _ _ _ [xc0] [xe0]) by reflexivity. reflexivity. Qed.
Lemma bytes1_eqb a b : bytes_eqb [a] [b] = Byte.eqb a b.
Proof. unfold bytes_eqb. cbn [list_eqb]. apply andb_true_r. Qed.
Lemma key_shortest x : List.length x = 32%nat -> be2z x <> 0 -> be2z x < N_order ->
  key_okb (shortest x) = negb (zero_first x).
Proof.
  intros L H0 HN. destruct (zero_first x) eqn:Z; cbn [negb].
  - apply zero_first_spec in Z. pose proof (shortest_length_lt x ltac:(lia) Z) as H. unfold key_okb.
    destruct (Nat.eqb_spec (List.length (shortest x)) 32); [lia|reflexivity].
  - apply zero_first_false in Z. rewrite shortest_id by exact Z. unfold key_okb. rewrite L. cbn [Nat.eqb].
    pose proof (be2z_bound x). change N_order with secp_n in HN. lia.
Qed.
Lemma decrypt_no_ec_eq self network n w a p f ah e1 e2 ck pw detail : net_sel self network n w a ->
  List.length p = 2%nat -> List.length ah = 4%nat ->
  List.length e1 = 16%nat -> List.length e2 = 16%nat -> List.length ck = 4%nat ->
  decrypt_no_ec P self (p ++ [f] ++ ah ++ e1 ++ e2 ++ ck) pw n detail = decrypt_no_ec_result w a f ah e1 e2 pw detail.
Proof.
  intros N Lp La L1 L2 Lc. pose proof (parts43 p f ah e1 e2 ck Lp La L1 L2 Lc) as H. cbv zeta in H.
  destruct H as (_ & Sf & Sa & S1 & S2 & _). unfold decrypt_no_ec, decrypt_no_ec_result.
  rewrite Sf, Sa, S1, S2. 
  change (integer_to_bytes NO_EC_MULTIPLIED_WIF_FLAG) with (Ok [xc0] : res bytes).
  change (integer_to_bytes NO_EC_MULTIPLIED_WIF_COMPRESSED_FLAG) with (Ok [xe0] : res bytes). cbn [bind].
  rewrite !bytes1_eqb. set (c := Byte.eqb f xe0).
  rewrite (invalid_flag_eq f).
  replace (if Byte.eqb f xc0 then Ok (str "wif", str "uncompressed") else if c then Ok (str "wif-compressed", str "compressed") else Raise (Lib CError (error_text "Invalid flag" (str "'c0', 'e0'") (tohex [f]))))
    with (if Byte.eqb f xc0 || c then Ok (wif_name c, key_name c) else Raise (Lib CError (error_text "Invalid flag" (str "'c0', 'e0'") (tohex [f])))).
  2:{ unfold c. destruct (Byte.eqb f xc0) eqn:E; cbn [orb]; [|destruct (Byte.eqb f xe0); reflexivity].
      apply byte_eqb_spec in E. subst f. reflexivity. }
  destruct (Byte.eqb f xc0 || c); cbn [bind]; [|reflexivity]. rewrite scrypt_str_eq.
  destruct (utf8_encode _) as [pwb|e]; cbn [bind]; [|reflexivity]. cbv zeta.
  change (h_scrypt P pwb ah 16384 8 8 64) with (kdf pwb ah).
  destruct (kdf_parts pwb ah) as (K1 & K2 & K3 & K4). rewrite aes_new_32 by exact K2. cbn [bind].
  rewrite !aes_decrypt_ok by assumption. cbn [bind]. set (key := slice 32 64 (kdf pwb ah)).
  assert (Lx : List.length (h_aes_dec P key e1 ++ h_aes_dec P key e2) = 32%nat).
  { rewrite app_length, !(aes_dec_len P HP) by assumption. reflexivity. }
  rewrite xor_bytes_eq by congruence. cbn [bind]. set (x := xor _ (slice 0 32 (kdf pwb ah))).
  assert (Lxx : List.length x = 32%nat) by (unfold x; rewrite xor_length; congruence).
  rewrite !bytes_to_integer_be2z, be2z_shortest.
  destruct (Z.eqb_spec (be2z x) 0) as [E0|E0]; cbn [orb]; [reflexivity|].
  destruct (Z.leb_spec N_order (be2z x)) as [EN|EN]; [reflexivity|].
  rewrite PrivateKey_from_bytes_eq, key_shortest by assumption.
  destruct (zero_first x) eqn:Z; cbn [negb bind]; [reflexivity|]. apply zero_first_false in Z.
  rewrite shortest_id by exact Z.
  assert (Rx : 1 <= be2z x < G_order) by (pose proof (be2z_bound x); change N_order with G_order in EN; lia).
  destruct (pubof_ok _ Rx) as (E & _ & O). rewrite E. cbn [bind].
  rewrite (address_of_eq _ _ _ _ _ c _ N O). cbn [bind]. rewrite address_hash_of_eq. cbn [bind].
  destruct (bytes_eqb _ ah) eqn:A; cbn [negb]; [|reflexivity].
  rewrite (private_key_to_wif_eq P (PBytes x) x c _ _ _ _ (ns_get _ _ _ _ _ N) (ns_w _ _ _ _ _ N) (get_bytes_bytes _ _) Lxx). cbn [bind].
  unfold decrypt_value. cbv zeta. destruct detail; [|reflexivity].
  rewrite !bytes_to_string_bytes. cbn [bind]. rewrite public_raw_eq by exact O. cbn [bind]. rewrite bytes_to_string_bytes. reflexivity.
Qed.

(** ** Pass factors *)
Definition lotb (f : byte) : bool := int_in (b2z f) FLAGS_lot_and_sequence.
Definition compb (f : byte) : bool := int_in (b2z f) FLAGS_compression.
Definition pass_factor (lot : bool) (pwb ent : bytes) : bytes :=
  let s := h_scrypt P pwb (if lot then upto 4 ent else ent) 16384 8 8 32 in
  if lot then sha256d P (s ++ ent) else s.
Lemma pass_factor_length lot pwb ent : List.length (pass_factor lot pwb ent) = 32%nat.
Proof. unfold pass_factor. cbv zeta. destruct lot; [apply sha256d_length, HP|apply (scrypt_len P HP)]. Qed.
Lemma range_okb x : List.length x = 32%nat -> (be2z x =? 0) || (N_order <=? be2z x) = negb (key_okb x).
Proof. intros L. unfold key_okb. rewrite L. change N_order with secp_n. pose proof (be2z_bound x). cbn [Nat.eqb andb]. lia. Qed.
Lemma range_okb' x : List.length x = 32%nat -> (0 <? be2z x) && (be2z x <? N_order) = key_okb x.
Proof. intros L. unfold key_okb. rewrite L. change N_order with secp_n. pose proof (be2z_bound x). cbn [Nat.eqb andb]. lia. Qed.
Lemma be2z_1 f : be2z [f] = b2z f.
Proof. unfold be2z. cbn [fold_left]. lia. Qed.
Definition lot_bytes (lot : bool) (ent : bytes) : option bytes := if lot then Some (from 4 ent) else None.
Lemma derive_eq pw f ent : List.length ent = 8%nat ->
  derive_pass_factor P pw [f] ent =
  match utf8_encode (h_nfc P pw) with
  | Raise e => Raise e
  | Ok pwb => if key_okb (pass_factor (lotb f) pwb ent)
              then Ok (pass_factor (lotb f) pwb ent, lot_bytes (lotb f) ent)
              else Raise (Lib CError "Invalid EC encrypted WIF (Wallet Import Format)")
  end.
Proof.
  intros L. unfold derive_pass_factor. rewrite bytes_to_integer_be2z, be2z_1. fold (lotb f).
  assert (Lf : List.length (from 4 ent) = 4%nat) by (rewrite from_length; lia).
  destruct (lotb f) eqn:F; cbv zeta beta iota; rewrite scrypt_str_eq; (destruct (utf8_encode _) as [pwb|e]; cbn [bind]; [|reflexivity]).
  - cbn [lot_bytes]. destruct (from 4 ent) as [|b r] eqn:E; [discriminate|]. rewrite double_sha256_eq. cbn [bind].
    change (sha256d P (h_scrypt P pwb (upto 4 ent) 16384 8 8 32 ++ ent)) with (pass_factor true pwb ent).
    rewrite bytes_to_integer_be2z, range_okb by apply pass_factor_length. destruct (key_okb _); reflexivity.
  - change (h_scrypt P pwb ent 16384 8 8 32) with (pass_factor false pwb ent).
    rewrite bytes_to_integer_be2z, range_okb by apply pass_factor_length. destruct (key_okb _); reflexivity.
Qed.
Lemma split_eq lot ent : List.length ent = 8%nat ->
  split_lot_sequence (lot_bytes lot ent) =
  if lot then (Some (be2z (from 4 ent) / 4096), Some (be2z (from 4 ent) mod 4096)) else (None, None).
Proof.
  intros L. destruct lot; [|reflexivity]. unfold lot_bytes, split_lot_sequence.
  assert (Lf : List.length (from 4 ent) = 4%nat) by (rewrite from_length; lia).
  destruct (from 4 ent) as [|b r] eqn:E; [discriminate|]. rewrite bytes_to_integer_be2z. cbv zeta. f_equal. f_equal.
  rewrite Z.mod_eq by lia. replace (_ - (_ - _)) with (be2z (b :: r) / 4096 * 4096) by lia. apply Z.div_mul. lia.
Qed.
Definition lot_of (lot : bool) (ent : bytes) : option Z := if lot then Some (be2z (from 4 ent) / 4096) else None.
Definition seq_of (lot : bool) (ent : bytes) : option Z := if lot then Some (be2z (from 4 ent) mod 4096) else None.

(** ** decrypt, EC mode *)
Definition kdf2 (pp ah ent : bytes) : bytes := h_scrypt P pp (ah ++ ent) 1024 1 1 64.
Lemma kdf2_length pp ah ent : List.length (kdf2 pp ah ent) = 64%nat.
Proof. apply (scrypt_len P HP). Qed.
Lemma kdf2_parts pp ah ent : List.length (upto 16 (kdf2 pp ah ent)) = 16%nat /\
  List.length (slice 16 32 (kdf2 pp ah ent)) = 16%nat /\ List.length (from 32 (kdf2 pp ah ent)) = 32%nat.
Proof.
  split; [apply upto_length; rewrite kdf2_length; lia|]. split; [rewrite slice_length by (rewrite kdf2_length; lia); reflexivity|].
  rewrite from_length, kdf2_length. reflexivity.
Qed.
Definition ec_tail (S e2 : bytes) : bytes := shortest (xor (h_aes_dec P (from 32 S) e2) (slice 16 32 S)).
Definition ec_seed (S h e2 : bytes) : bytes :=
  shortest (xor (h_aes_dec P (from 32 S) (h ++ upto 8 (ec_tail S e2))) (upto 16 S)) ++ from 8 (ec_tail S e2).

Definition decrypt_ec_result (w a : Z) (f : byte) (ah ent h e2 : bytes) (pw : pystr) (detail : bool) : res decrypt_result :=
  match utf8_encode (h_nfc P pw) with
  | Raise e => Raise e
  | Ok pwb =>
      let x := pass_factor (lotb f) pwb ent in
      if key_okb x then
        let S := kdf2 (ser true (pubof (be2z x))) ah ent in
        if (8 <=? List.length (ec_tail S e2))%nat then
          let seed := ec_seed S h e2 in
          let fb := sha256d P seed in
          if key_okb fb then
            let k := z2be 32 ((be2z x * be2z fb) mod G_order) in
            if zero_first k then Raise (Lib CSecp256k1Error "Invalid private key bytes")
            else if bytes_eqb (ahash a (compb f) (pubof (be2z k))) ah
            then Ok (decrypt_value w a (compb f) k (Some seed) (lot_of (lotb f) ent) (seq_of (lotb f) ent) detail)
            else Raise (Lib CPassphraseError "Incorrect passphrase")
          else Raise (Lib CError "Invalid EC encrypted WIF (Wallet Import Format)")
        else Raise (Builtin ValueError)
      else Raise (Lib CError "Invalid EC encrypted WIF (Wallet Import Format)")
  end.
Lemma range_256 e : 1 <= e < G_order -> be2z (z2be 32 e) = e.
Proof.
  intros H. apply z2be_small_be2z. pose proof n_bounds as B. assert (G_order < 256 ^ Z.of_nat 32) by (vm_compute; reflexivity). lia.
Qed.

Lemma decrypt_ec_eq self network n w a p f ah e1 e2 ck pw detail : net_sel self network n w a ->
  List.length p = 2%nat -> List.length ah = 4%nat ->
  List.length e1 = 16%nat -> List.length e2 = 16%nat -> List.length ck = 4%nat ->
  decrypt_ec P self (p ++ [f] ++ ah ++ e1 ++ e2 ++ ck) pw n detail =
  decrypt_ec_result w a f ah (upto 8 e1) (from 8 e1) e2 pw detail.
Proof.
  intros N Lp La L1 L2 Lc. pose proof (parts43 p f ah e1 e2 ck Lp La L1 L2 Lc) as H. cbv zeta in H.
  destruct H as (_ & Sf & Sa & _ & _ & Se & Sh & S2). unfold decrypt_ec, decrypt_ec_result.
  rewrite Sf, Sa, Se, Sh, S2. set (ent := upto 8 e1) in *. set (h := from 8 e1) in *.
  assert (Le : List.length ent = 8%nat) by (apply upto_length; lia).
  assert (Lh : List.length h = 8%nat) by (unfold h; rewrite from_length; lia).
  rewrite (derive_eq pw f ent Le). destruct (utf8_encode _) as [pwb|e]; cbn [bind]; [|reflexivity].
  cbv zeta. set (x := pass_factor (lotb f) pwb ent). destruct (key_okb x) eqn:K; cbn [bind]; [|reflexivity].
  rewrite PrivateKey_from_bytes_eq, K. cbn [bind]. destruct (key_okb_range x K) as [Lx Rx].
  destruct (pubof_ok _ Rx) as (E & _ & O). rewrite E. cbn [bind]. rewrite (ser_compressed _ O). cbn [bind].
  change (h_scrypt P (ser true (pubof (be2z x))) (ah ++ ent) 1024 1 1 64) with (kdf2 (ser true (pubof (be2z x))) ah ent).
  set (S := kdf2 _ ah ent). destruct (kdf2_parts (ser true (pubof (be2z x))) ah ent) as (K1 & K2 & K3). fold S in K1, K2, K3.
  rewrite aes_new_32 by exact K3. cbn [bind]. rewrite aes_decrypt_ok by exact L2. cbn [bind].
  assert (Ld : List.length (h_aes_dec P (from 32 S) e2) = 16%nat) by (apply (aes_dec_len P HP); assumption).
  rewrite xor_bytes_eq by congruence. cbn [bind]. fold (ec_tail S e2). set (t := ec_tail S e2).
  assert (Lt : (List.length t <= 16)%nat).
  { unfold t, ec_tail. set (y := xor _ (slice 16 32 S)). assert (List.length y = 16%nat) by (unfold y; rewrite xor_length; congruence).
    pose proof (shortest_length_le y). lia. }
  destruct (Nat.leb_spec 8 (List.length t)) as [T|T].
  2:{ unfold aes_decrypt. rewrite app_length, Lh. unfold upto. rewrite firstn_length.
      destruct (Nat.eqb_spec (8 + Nat.min 8 (List.length t)) 16); [lia|reflexivity]. }
  assert (Lb : List.length (h ++ upto 8 t) = 16%nat) by (rewrite app_length, Lh, upto_length by lia; reflexivity).
  rewrite aes_decrypt_ok by exact Lb. cbn [bind].
  assert (Ld1 : List.length (h_aes_dec P (from 32 S) (h ++ upto 8 t)) = 16%nat) by (apply (aes_dec_len P HP); assumption).
  rewrite xor_bytes_eq by congruence. cbn [bind]. fold (ec_seed S h e2). unfold t. fold (ec_seed S h e2). set (seed := ec_seed S h e2).
  rewrite double_sha256_eq. cbn [bind]. set (fb := sha256d P seed). change bytes_to_integer with be2z.
  rewrite range_okb by (apply sha256d_length, HP). destruct (key_okb fb) eqn:KF; cbn [negb]; [|reflexivity].
  destruct (key_okb_range fb KF) as [_ RF]. change N_order with G_order.
  set (e := (be2z x * be2z fb) mod G_order). assert (Re : 1 <= e < G_order) by (apply mul_mod_range; assumption).
  pose proof (range_256 e Re) as Ve. replace (integer_to_bytes e) with (Ok (shortest (z2be 32 e)) : res bytes) by (rewrite <- integer_to_bytes_be2z, Ve; reflexivity). cbn [bind].
  set (k := z2be 32 e) in *. assert (Lk : List.length k = 32%nat) by apply z2be_length.
  rewrite PrivateKey_from_bytes_eq, key_shortest by (trivial; try lia; change N_order with G_order; lia).
  destruct (zero_first k) eqn:Z; cbn [negb bind]; [reflexivity|]. apply zero_first_false in Z. rewrite shortest_id by exact Z.
  assert (Rk : 1 <= be2z k < G_order) by lia.
  destruct (pubof_ok _ Rk) as (E' & _ & O'). rewrite E'. cbn [bind]. rewrite be2z_1. fold (compb f).
  replace (if compb f then (str "wif-compressed", str "compressed") else (str "wif", str "uncompressed"))
    with (wif_name (compb f), key_name (compb f)) by (destruct (compb f); reflexivity).
  rewrite (address_of_eq _ _ _ _ _ (compb f) _ N O'). cbn [bind]. rewrite address_hash_of_eq. cbn [bind].
  destruct (bytes_eqb _ ah) eqn:A; [|reflexivity].
  rewrite (private_key_to_wif_eq P (PBytes k) k (compb f) _ _ _ _ (ns_get _ _ _ _ _ N) (ns_w _ _ _ _ _ N) (get_bytes_bytes _ _) Lk). cbn [bind].
  rewrite split_eq by exact Le. unfold decrypt_value, lot_of, seq_of. cbv zeta.
  destruct detail; [|reflexivity].
  rewrite !bytes_to_string_bytes. cbn [bind]. rewrite public_raw_eq by exact O'. cbn [bind]. rewrite !bytes_to_string_bytes.
  destruct (lotb f); reflexivity.
Qed.

(** ** decrypt, all of it *)
Lemma decrypt_eq self network n w a s p f ah e1 e2 ck pw detail : net_sel self network n w a ->
  decode s base58_alphabet = Ok (p ++ [f] ++ ah ++ e1 ++ e2 ++ ck) ->
  List.length p = 2%nat -> List.length ah = 4%nat ->
  List.length e1 = 16%nat -> List.length e2 = 16%nat -> List.length ck = 4%nat ->
  decrypt P self s pw network detail =
  if bytes_eqb p [x01; x42] then decrypt_no_ec_result w a f ah e1 e2 pw detail
  else if bytes_eqb p [x01; x43] then decrypt_ec_result w a f ah (upto 8 e1) (from 8 e1) e2 pw detail
  else Raise (Lib CError (error_text "Invalid prefix" (str "'0142', '0143'") (tohex p))).
Proof.
  intros N D Lp La L1 L2 Lc. unfold decrypt. rewrite (ns_sel _ _ _ _ _ N). cbn [bind]. rewrite D. cbn [bind].
  replace (Nat.eqb _ 43) with true by (rewrite !app_length, Lp, La, L1, L2, Lc; reflexivity). cbn [negb].
  change (integer_to_bytes NO_EC_MULTIPLIED_PRIVATE_KEY_PREFIX) with (Ok [x01; x42] : res bytes).
  change (integer_to_bytes EC_MULTIPLIED_PRIVATE_KEY_PREFIX) with (Ok [x01; x43] : res bytes). cbn [bind].
  rewrite upto_app by exact Lp. rewrite (decrypt_no_ec_eq _ _ _ _ _ _ _ _ _ _ _ _ _ N), (decrypt_ec_eq _ _ _ _ _ _ _ _ _ _ _ _ _ N) by assumption.
  rewrite (not_one_of_eq _ _ _ _ [x01; x42] [x01; x43]) by reflexivity.
  replace (quoted_list [tohex [x01; x42]; tohex [x01; x43]]) with (str "'0142', '0143'") by reflexivity. reflexivity.
Qed.
Lemma decrypt_bad_length self network n w a s d pw detail : net_sel self network n w a ->
  decode s base58_alphabet = Ok d -> List.length d <> 43%nat ->
  decrypt P self s pw network detail = Raise (Lib CWIFError (error_text "Invalid encrypted WIF length" (str "43") (dec (zlen d)))).
Proof.
  intros N D L. unfold decrypt. rewrite (ns_sel _ _ _ _ _ N). cbn [bind]. rewrite D. cbn [bind].
  destruct (Nat.eqb_spec (List.length d) 43); [contradiction|]. cbn [negb]. rewrite lib_error_other. reflexivity.
Qed.
Lemma decrypt_non_ascii self network n w a s pw detail : net_sel self network n w a -> ~ is_ascii s ->
  decrypt P self s pw network detail = Raise (Builtin UnicodeEncodeError).
Proof.
  intros N D. unfold decrypt. rewrite (ns_sel _ _ _ _ _ N). cbn [bind]. rewrite (decode_non_ascii58 _ D). reflexivity.
Qed.
End Facts.
