(** * C84: the library under Python 3.14 and later *)
From Coq Require Import Lia ZifyBool ZifyNat ZifyN.
From Verif Require Import Exceptions ErrorFacts Py Prims Const Spec PyFacts Utils UtilsFacts Base58 Crypto
  Curve SpecCurve Secp256k1 P2PKHAddress Cryptocurrencies Wif Bip38 SpecBip38 SpecRecords SpecReads SpecSession ReadFacts Bip38Facts Bip38Facts2 Sessions PropUtils PropIntermediate
  Python314.

(** ** What is claimed *)
(** Bytes that are hexadecimal text in ASCII: pairs of digits, white space between them *)
Definition ascii_hex (b : bytes) : Prop := b <> [] /\ exists k, hex_string (List.map Byte.to_N b) k.
(** How Python 3.14 shows the byte string [b]: as itself if it is hexadecimal text, as
    its hexadecimal text if not *)
Definition written_as (b : bytes) (x : written) : Prop :=
  ascii_hex b /\ x = Raw b \/ ~ ascii_hex b /\ x = Text (hex b).
(** The exception [e'] is [e], with the bytes (or their number) in its text written in
    the new way *)
Inductive reworded : exn -> exn -> Prop :=
  | word_same : forall e, reworded e e
  | word_bytes : forall c m x b, ascii_hex b ->
      reworded (Lib c (error_text m x (hex b))) (Lib c (error_text m x (bytes_repr b)))
  | word_count : forall c m x b, ascii_hex b ->
      reworded (Lib c (error_text m x (dec (2 * zlen b)))) (Lib c (error_text m x (dec (zlen b)))).
(** How an error text quotes and counts such a value *)
Definition quote (x : written) : pystr := match x with Text s => s | Raw b => bytes_repr b end.
Definition count (x : written) : Z := match x with Text s => zlen s | Raw b => zlen b end.
(** Both calls return, and [R] relates what they return, or both raise *)
Definition agree {A B} (R : A -> B -> Prop) (x : res A) (y : res B) : Prop :=
  match x, y with
  | Ok a, Ok b => R a b
  | Raise e, Raise e' => reworded e e'
  | _, _ => False
  end.
(** a text, and the same byte string as 3.14 shows it *)
Definition same_bytes (s : pystr) (x : written) : Prop := exists b, s = hex b /\ written_as b x.
Definition same_new (r : new_wif) (r' : new_wif_314) : Prop :=
  m_encrypted_wif r' = n_encrypted_wif r /\ m_confirmation_code r' = n_confirmation_code r /\
  m_public_key r' = Text (n_public_key r) /\ m_public_key_type r' = n_public_key_type r /\ m_address r' = n_address r /\
  same_bytes (n_seed r) (m_seed r').
Definition same_confirmed (r : confirm_result) (r' : confirm_result_314) : Prop :=
  match r, r' with
  | CAddress a, CAddress_314 a' => a' = a
  | CDetail d, CDetail_314 d' =>
      cc_public_key d' = Text (c_public_key d) /\ cc_public_key_type d' = c_public_key_type d /\
      cc_address d' = c_address d /\ cc_lot d' = c_lot d /\ cc_sequence d' = c_sequence d
  | _, _ => False
  end.
Definition same_decrypted (r : decrypt_result) (r' : decrypt_result_314) : Prop :=
  match r, r' with
  | DWif w, DWif_314 w' => w' = w
  | DDetail d, DDetail_314 d' =>
      dd_wif d' = d_wif d /\ dd_wif_type d' = d_wif_type d /\ dd_public_key d' = Text (d_public_key d) /\
      dd_public_key_type d' = d_public_key_type d /\ dd_address d' = d_address d /\
      dd_lot d' = d_lot d /\ dd_sequence d' = d_sequence d /\
      same_bytes (d_private_key d) (dd_private_key d') /\
      match d_seed d, dd_seed d' with
      | None, None => True | Some s, Some x => same_bytes s x | _, _ => False
      end
  | _, _ => False
  end.

(** ** Facts *)
Lemma fromhex_ascii b : b <> [] -> (fromhex_bytes b = None <-> ~ ascii_hex b).
Proof.
  intros N. unfold fromhex_bytes, ascii_hex. destruct (fromhex (List.map Byte.to_N b)) as [k|] eqn:E; split; try discriminate; trivial.
  - intros H. destruct H. split; [exact N|]. exists k. apply fromhex_iff, E.
  - intros _ [_ [k H]]. apply fromhex_iff in H. congruence.
Qed.
Lemma shows b : exists x, bytes_to_string_314 (PBytes b) = Ok x /\ written_as b x.
Proof.
  unfold bytes_to_string_314. destruct b as [|c b]; cbn [truthy negb].
  - exists (Text []). split; [reflexivity|]. right. split; [|reflexivity]. intros [N _]. congruence.
  - pose proof (fromhex_ascii (c :: b) ltac:(discriminate)) as F. destruct (fromhex_bytes (c :: b)) as [k|] eqn:E.
    + exists (Raw (c :: b)). split; [reflexivity|]. left. split; [|reflexivity]. split; [discriminate|]. exists k. apply fromhex_iff, E.
    + exists (Text (tohex (c :: b))). split; [reflexivity|]. right. split; [apply F; reflexivity|reflexivity].
Qed.
Lemma not_first b x : (Byte.to_N x < 9)%N -> ~ ascii_hex (x :: b).
Proof.
  intros L [_ [k H]]. cbn [List.map] in H. inversion H as [|? ? ? I|? ? ? ? ? ? ? V]; subst.
  - cbn [In] in I. lia.
  - unfold hexval in V. repeat (match type of V with (if ?c then _ else _) = _ => destruct c eqn:?E end); try discriminate; lia.
Qed.
Lemma plain_text b x : ~ ascii_hex b -> written_as b x -> x = Text (hex b).
Proof. intros N [[A _]|[_ E]]; [contradiction|exact E]. Qed.
Lemma shows_text b : ~ ascii_hex b -> bytes_to_string_314 (PBytes b) = Ok (Text (hex b)).
Proof. intros N. destruct (shows b) as (x & E & W). rewrite E, (plain_text b x N W). reflexivity. Qed.
Lemma raw_no_hex k t l : PublicKey_raw k t = Ok l -> ~ ascii_hex l.
Proof.
  unfold PublicKey_raw, raw_compressed, raw_uncompressed. destruct (str_eqb _ _).
  - destruct (number_to_string (pk_x k)) as [xs|e]; cbn [bind]; [|discriminate]. intros H. apply Ok_inj in H. subst l.
    destruct (Z.odd _); apply not_first; reflexivity.
  - destruct (number_to_string (pk_x k)) as [xs|e]; cbn [bind]; [|discriminate].
    destruct (number_to_string (pk_y k)) as [ys|e]; cbn [bind]; [|discriminate]. intros H. apply Ok_inj in H. subst l. apply not_first; reflexivity.
Qed.
Lemma raw_shown k t l : PublicKey_raw k t = Ok l -> bytes_to_string_314 (PBytes l) = Ok (Text (hex l)).
Proof. intros H. apply shows_text, (raw_no_hex k t l H). Qed.
Lemma reads_back b x : written_as b x -> get_bytes (as_arg x) true = Ok b.
Proof. intros [[_ ->]|[_ ->]]; cbn [as_arg]; [apply get_bytes_bytes|apply get_bytes_tohex]. Qed.
Lemma agree_refl {A} (R : A -> A -> Prop) x : (forall a, R a a) -> agree R x x.
Proof. intros H. destruct x; cbn [agree]; [apply H|constructor]. Qed.
Lemma raise_agree {A B} (R : A -> B -> Prop) m z1 z2 b1 b2 got :
  integer_to_bytes z1 = Ok b1 -> integer_to_bytes z2 = Ok b2 -> ~ ascii_hex b1 -> ~ ascii_hex b2 ->
  agree R (raise_not_one_of m z1 z2 got) (raise_not_one_of_314 m z1 z2 got).
Proof.
  intros E1 E2 N1 N2. unfold raise_not_one_of, raise_not_one_of_314. rewrite E1, E2. cbn [bind].
  rewrite !bytes_to_string_bytes, (shows_text b1 N1), (shows_text b2 N2). cbn [bind].
  destruct (shows got) as (x & E & W). rewrite E. cbn [bind shown]. rewrite !lib_error_list by discriminate.
  destruct W as [[H ->]|[H ->]]; cbn [shown agree].
  - apply (word_bytes CError m). exact H.
  - apply word_same.
Qed.
Ltac lock :=
  match goal with
  | |- agree _ (bind ?x _) (bind ?x _) => let E := fresh "E" in destruct x as [?a|?e] eqn:E; cbn [bind]; [|constructor]
  | |- agree _ (if ?b then _ else _) (if ?b then _ else _) => let E := fresh "E" in destruct b eqn:E
  | |- agree _ (let '(a, b) := ?x in _) (let '(c, d) := ?x in _) => destruct x as [?a ?b] eqn:?
  | |- agree _ (Raise ?e) (Raise ?e) => apply word_same
  end.
Lemma length_hex b : zlen (hex b) = 2 * zlen b.
Proof. unfold zlen, hex. rewrite tohex_length. lia. Qed.
Lemma count_agree {A B} (R : A -> B -> Prop) c m e b : 
  (forall g, lib_error c (str m) None e g = Lib c (error_text m match e with ExpList l => quoted_list l | ExpOther r _ => r | ExpNone => [] end g)) ->
  agree R (let* h := bytes_to_string (PBytes b) in Raise (lib_error c (str m) None e (dec (zlen h))))
          (let* h := bytes_to_string_314 (PBytes b) in Raise (lib_error c (str m) None e (dec (written_len h)))).
Proof.
  intros Hm. rewrite bytes_to_string_bytes. cbn [bind]. destruct (shows b) as (x & E & W). rewrite E. cbn [bind]. rewrite !Hm.
  destruct W as [[H ->]|[H ->]]; cbn [written_len agree].
  - change (zlen (tohex b)) with (zlen (hex b)). rewrite length_hex. apply (word_count c m). exact H.
  - apply word_same.
Qed.

(** ** Theorems *)
(** bytes_to_string: bytes that are hexadecimal text come back as they are, other bytes
    as their hexadecimal text, and text as before *)
Theorem C84_bytes_to_string : forall b s,
  (exists x, bytes_to_string_314 (PBytes b) = Ok x /\ written_as b x) /\
  bytes_to_string_314 (PStr s) = let* t := bytes_to_string (PStr s) in Ok (Text t).
Proof.
  intros b s. split; [apply shows|]. unfold bytes_to_string_314, bytes_to_string. destruct (negb (truthy (PStr s))); [reflexivity|].
  destruct (fromhex s); [reflexivity|]. destruct (utf8_encode s); reflexivity.
Qed.
(** Whichever of the two it is, the library reads it as the same bytes *)
Theorem C84_read_back : forall P b x, written_as b x ->
  get_bytes (as_arg x) true = Ok b /\
  (forall w, List.length b = 32%nat -> encode_wif P (as_arg x) w = encode_wif P (PBytes b) w) /\
  (b <> [] -> forall random pw lot sequence, intermediate_code P random pw lot sequence (as_arg x) = intermediate_code P random pw lot sequence (PBytes b)) /\
  (b <> [] -> forall random self code t network, create_new_encrypted_wif P random self code t (as_arg x) network = create_new_encrypted_wif P random self code t (PBytes b) network).
Proof.
  intros P b x W. pose proof (reads_back b x W) as G.
  assert (T : b <> [] -> truthy (as_arg x) = truthy (PBytes b)).
  { intros N. destruct W as [[_ ->]|[_ ->]]; [reflexivity|]. destruct b; [congruence|reflexivity]. }
  split; [exact G|]. split; [|split].
  - intros w L. unfold encode_wif. rewrite G, get_bytes_bytes. cbn [bind]. rewrite L. reflexivity.
  - intros N random pw lot sequence. unfold intermediate_code. rewrite T, G, get_bytes_bytes by exact N. reflexivity.
  - intros N random self code t network. unfold create_new_encrypted_wif. rewrite T, G, get_bytes_bytes by exact N. reflexivity.
Qed.
(** wif_to_private_key, get_wif_checksum, P2PKHAddress.decode *)
Theorem C84_wif : forall P wif c n address prefix alphabet,
  agree same_bytes (wif_to_private_key wif c n) (wif_to_private_key_314 wif c n) /\
  agree same_bytes (get_wif_checksum wif c n) (get_wif_checksum_314 wif c n) /\
  agree same_bytes (P2PKH_decode P address prefix alphabet) (P2PKH_decode_314 P address prefix alphabet).
Proof.
  intros P wif c n address prefix alphabet.
  assert (F : forall b, agree same_bytes (bytes_to_string (PBytes b)) (bytes_to_string_314 (PBytes b))).
  { intros b. rewrite bytes_to_string_bytes. destruct (shows b) as (x & E & W). rewrite E. exists b. split; [reflexivity|exact W]. }
  split; [|split].
  - unfold wif_to_private_key, wif_to_private_key_314. lock. lock. destruct a0 as [[k t] ck]. apply F.
  - unfold get_wif_checksum, get_wif_checksum_314. lock. lock. destruct a0 as [[k t] ck]. apply F.
  - unfold P2PKH_decode, P2PKH_decode_314. lock. lock. lock; [lock|]. cbv zeta. lock; [lock|]. apply F.
Qed.
(** encrypt does not notice *)
Theorem C84_encrypt : forall P self wif pw network, encrypt_314 P self wif pw network = encrypt P self wif pw network.
Proof.
  intros P self wif pw network. unfold encrypt_314, encrypt. destruct (select_network self network) as [n|e]; cbn [bind]; [|reflexivity].
  destruct (get_wif_type wif (s_cryptocurrency self) n) as [t|e]; cbn [bind]; [|reflexivity].
  assert (F : forall {A} (f : bytes -> res A),
    (let* h := wif_to_private_key_314 wif (s_cryptocurrency self) n in let* b := get_bytes (as_arg h) true in f b) =
    (let* h := wif_to_private_key wif (s_cryptocurrency self) n in let* b := get_bytes (PStr h) true in f b)).
  { intros A f. unfold wif_to_private_key, wif_to_private_key_314. destruct (wif_prefix_of _ n) as [w|e]; cbn [bind]; [|reflexivity].
    destruct (decode_wif wif w) as [[[k u] ck]|e]; cbn [bind]; [|reflexivity]. destruct (shows k) as (x & E & W).
    rewrite E, bytes_to_string_bytes. cbn [bind]. rewrite (reads_back k x W), get_bytes_tohex. reflexivity. }
  destruct (str_eqb t (str "wif")).
  - destruct (integer_to_bytes NO_EC_MULTIPLIED_WIF_FLAG); cbn [bind]; [|reflexivity].
    rewrite (F _ (fun b => let* sk := PrivateKey_from_bytes b in Ok (a, sk, str "uncompressed"))). reflexivity.
  - destruct (integer_to_bytes NO_EC_MULTIPLIED_WIF_COMPRESSED_FLAG); cbn [bind]; [|reflexivity].
    rewrite (F _ (fun b => let* sk := PrivateKey_from_bytes b in Ok (a, sk, str "compressed"))). reflexivity.
Qed.
(** intermediate_code: the same codes; only an error text that counts the digits of the
    owner salt may differ *)
Theorem C84_intermediate : forall P random pw lot sequence salt,
  agree eq (intermediate_code P random pw lot sequence salt) (intermediate_code_314 P random pw lot sequence salt).
Proof.
  intros P random pw lot sequence salt. unfold intermediate_code, intermediate_code_314. lock. cbv zeta.
  destruct (negb (Nat.eqb (List.length a) 4 || Nat.eqb (List.length a) 8)); [apply count_agree; intros g; apply lib_error_list; discriminate|].
  destruct (Nat.eqb (List.length a) 4 && (is_none lot || is_none sequence)); [apply count_agree; intros g; apply lib_error_other|].
  match goal with |- agree eq ?x ?y => change (agree eq x x) end. apply agree_refl. reflexivity.
Qed.
Lemma lot_magic : exists b, integer_to_bytes MAGIC_LOT_AND_SEQUENCE = Ok b /\ ~ ascii_hex b.
Proof.
  eexists. split; [reflexivity|]. intros [_ [k H]]. apply fromhex_iff in H. revert H. vm_compute. discriminate.
Qed.
Lemma no_lot_magic : exists b, integer_to_bytes MAGIC_NO_LOT_AND_SEQUENCE = Ok b /\ ~ ascii_hex b.
Proof.
  eexists. split; [reflexivity|]. intros [_ [k H]]. apply fromhex_iff in H. revert H. vm_compute. discriminate.
Qed.
Lemma same_new_intro e c p t a b x : written_as b x ->
  same_new {| n_encrypted_wif := e; n_confirmation_code := c; n_public_key := p; n_seed := tohex b; n_public_key_type := t; n_address := a |}
    {| m_encrypted_wif := e; m_confirmation_code := c; m_public_key := Text p; m_seed := x; m_public_key_type := t; m_address := a |}.
Proof. intros W. unfold same_new. cbn. repeat (split; [reflexivity|]). exists b. split; [reflexivity|exact W]. Qed.
(** create_new_encrypted_wif: only how the seed is shown, and the text of the error for
    an unknown magic *)
Theorem C84_create : forall P random self code t seed network,
  agree same_new (create_new_encrypted_wif P random self code t seed network) (create_new_encrypted_wif_314 P random self code t seed network).
Proof.
  intros P random self code t seed network. unfold create_new_encrypted_wif, create_new_encrypted_wif_314.
  lock. lock. lock. lock; [lock|]. cbv zeta. lock. lock. lock.
  assert (F : forall A B (R : A -> B -> Prop) (x : res bytes) (y : res bytes) (f : bytes -> res A) (g : bytes -> res B),
    agree eq x y -> (forall b, x = Ok b -> y = Ok b -> agree R (f b) (g b)) -> agree R (bind x f) (bind y g)).
  { intros A B R x y f g Hxy Hf. destruct x as [b|e], y as [b'|e']; cbn [agree] in Hxy; try contradiction; cbn [bind]; [subst b'; apply Hf; reflexivity|exact Hxy]. }
  apply F.
  { destruct (bytes_eqb (upto 8 a1) a3); [destruct (str_eqb a2 _); apply agree_refl; reflexivity|].
    destruct (bytes_eqb (upto 8 a1) a4); [destruct (str_eqb a2 _); apply agree_refl; reflexivity|].
    destruct lot_magic as (b1 & E1' & N1), no_lot_magic as (b2 & E2' & N2). apply (raise_agree eq _ _ _ b1 b2); assumption. }
  intros fl _ _. repeat lock.
  rewrite !bytes_to_string_bytes. match goal with H : PublicKey_raw ?k ?t = Ok ?l |- _ => rewrite (raw_shown k t l H) end.
  cbn [bind]. destruct (shows a0) as (x & Ex & W). rewrite Ex. cbn [bind agree].
  apply same_new_intro, W.
Qed.
(** confirm_code does not notice *)
Theorem C84_confirm : forall P self pw code network detail,
  match confirm_code P self pw code network detail, confirm_code_314 P self pw code network detail with
  | Ok r, Ok r' => same_confirmed r r'
  | Raise e, Raise e' => e = e'
  | _, _ => False
  end.
Proof.
  intros P self pw code network detail.
  Ltac lock2 :=
  match goal with
  | |- match bind ?x _ with Ok r => match bind ?x _ with _ => _ end | Raise e => _ end => let E := fresh "E" in destruct x as [?a|?e] eqn:E; cbn [bind]; [|reflexivity]
  | |- match (if ?b then _ else _) with Ok r => match (if ?b then _ else _) with _ => _ end | Raise e => _ end => let E := fresh "E" in destruct b eqn:E; [try reflexivity|try reflexivity]
  | |- match (let '(a, b) := ?x in _) with Ok r => match (let '(c, d) := ?x in _) with _ => _ end | Raise e => _ end => destruct x as [?a ?b] eqn:?
  end.
  unfold confirm_code, confirm_code_314. repeat (lock2; cbv zeta).
  rewrite !bytes_to_string_bytes. match goal with H : PublicKey_raw ?k ?t = Ok ?l |- _ => rewrite (raw_shown k t l H) end.
  cbn [bind same_confirmed]. cbn. repeat (split; [reflexivity|]). reflexivity.
Qed.
(** decrypt: only how the private key and the seed are shown, and the texts of the errors
    for an unknown prefix or flag *)
Lemma flags_no_hex : exists b1 b2, integer_to_bytes NO_EC_MULTIPLIED_WIF_FLAG = Ok b1 /\
  integer_to_bytes NO_EC_MULTIPLIED_WIF_COMPRESSED_FLAG = Ok b2 /\ ~ ascii_hex b1 /\ ~ ascii_hex b2.
Proof.
  eexists. eexists. split; [reflexivity|]. split; [reflexivity|].
  split; intros [_ [k H]]; apply fromhex_iff in H; revert H; vm_compute; discriminate.
Qed.
Lemma prefixes_no_hex : exists b1 b2, integer_to_bytes NO_EC_MULTIPLIED_PRIVATE_KEY_PREFIX = Ok b1 /\
  integer_to_bytes EC_MULTIPLIED_PRIVATE_KEY_PREFIX = Ok b2 /\ ~ ascii_hex b1 /\ ~ ascii_hex b2.
Proof.
  eexists. eexists. split; [reflexivity|]. split; [reflexivity|].
  split; intros [_ [k H]]; apply fromhex_iff in H; revert H; vm_compute; discriminate.
Qed.
Lemma agree_raised {A A' B B'} (R : B -> B' -> Prop) (x : res A) (y : res A') f g :
  agree (fun _ _ => False) x y -> agree R (bind x f) (bind y g).
Proof. destruct x, y; cbn [agree bind]; try contradiction; trivial. Qed.
Theorem C84_decrypt : forall P self s pw network detail,
  agree same_decrypted (decrypt P self s pw network detail) (decrypt_314 P self s pw network detail).
Proof.
  intros P self s pw network detail. unfold decrypt, decrypt_314. lock. lock. lock; [lock|]. cbv zeta. lock. lock. lock; [|lock].
  - unfold decrypt_no_ec, decrypt_no_ec_314. cbv zeta. lock. lock.
    assert (G : forall t kt, agree same_decrypted
      (let* key := scrypt_str P pw (slice 3 7 a0) 16384 8 8 64 in
       let* aes := aes_new (slice 32 64 key) in
       let* h2 := aes_decrypt P aes (slice 23 39 a0) in
       let* h1 := aes_decrypt P aes (slice 7 23 a0) in
       let* k := xor_bytes (h1 ++ h2) (slice 0 32 key) in
       if (bytes_to_integer k =? 0) || (N_order <=? bytes_to_integer k)
       then Raise (Lib CError "Invalid Non-EC encrypted WIF (Wallet Import Format)")
       else
       let* sk := PrivateKey_from_bytes k in
       let* pub := PrivateKey_public_key sk in
       let* address := address_of P self a pub kt in
       let* ah := address_hash_of P address in
       if negb (bytes_eqb ah (slice 3 7 a0)) then Raise (Lib CPassphraseError "Incorrect passphrase")
       else
       let* wif := private_key_to_wif P (PBytes k) t (s_cryptocurrency self) a in
       if detail then
         let* pk_s := bytes_to_string (PBytes k) in
         let* pub_r := PublicKey_raw pub kt in
         let* pub_s := bytes_to_string (PBytes pub_r) in
         Ok (DDetail {| d_wif := wif; d_private_key := pk_s; d_wif_type := t; d_public_key := pub_s; d_public_key_type := kt;
                        d_seed := None; d_address := address; d_lot := None; d_sequence := None |})
       else Ok (DWif wif))
      (let* key := scrypt_str P pw (slice 3 7 a0) 16384 8 8 64 in
       let* aes := aes_new (slice 32 64 key) in
       let* h2 := aes_decrypt P aes (slice 23 39 a0) in
       let* h1 := aes_decrypt P aes (slice 7 23 a0) in
       let* k := xor_bytes (h1 ++ h2) (slice 0 32 key) in
       if (bytes_to_integer k =? 0) || (N_order <=? bytes_to_integer k)
       then Raise (Lib CError "Invalid Non-EC encrypted WIF (Wallet Import Format)")
       else
       let* sk := PrivateKey_from_bytes k in
       let* pub := PrivateKey_public_key sk in
       let* address := address_of P self a pub kt in
       let* ah := address_hash_of P address in
       if negb (bytes_eqb ah (slice 3 7 a0)) then Raise (Lib CPassphraseError "Incorrect passphrase")
       else
       let* wif := private_key_to_wif P (PBytes k) t (s_cryptocurrency self) a in
       if detail then
         let* pk_s := bytes_to_string_314 (PBytes k) in
         let* pub_r := PublicKey_raw pub kt in
         let* pub_s := bytes_to_string_314 (PBytes pub_r) in
         Ok (DDetail_314 {| dd_wif := wif; dd_private_key := pk_s; dd_wif_type := t; dd_public_key := pub_s; dd_public_key_type := kt;
                        dd_seed := None; dd_address := address; dd_lot := None; dd_sequence := None |})
       else Ok (DWif_314 wif))).
    { intros t kt. repeat lock.
      - match goal with |- context [bytes_to_string_314 (PBytes ?k)] => destruct (shows k) as (x & Ex & W); rewrite Ex, (bytes_to_string_bytes k) end.
        cbn [bind]. lock. rewrite bytes_to_string_bytes. match goal with H : PublicKey_raw ?k ?t = Ok ?l |- _ => rewrite (raw_shown k t l H) end.
        cbn [bind agree same_decrypted]. cbn. repeat (split; [reflexivity|]). split; [eexists; split; [reflexivity|exact W]|exact I].
      - cbn [agree same_decrypted]. reflexivity. }
    destruct (bytes_eqb (slice 2 3 a0) a3); [apply G|]. destruct (bytes_eqb (slice 2 3 a0) a4); [apply G|].
    destruct flags_no_hex as (b1 & b2 & F1 & F2 & N1 & N2). apply agree_raised, (raise_agree _ _ _ _ b1 b2); assumption.
  - unfold decrypt_ec, decrypt_ec_314. cbv zeta. lock. destruct a3 as [pf ls]. repeat lock.
    + match goal with |- context [bytes_to_string_314 (PBytes ?k)] => destruct (shows k) as (x & Ex & W); rewrite Ex, (bytes_to_string_bytes k) end.
      cbn [bind]. lock. rewrite bytes_to_string_bytes. match goal with H : PublicKey_raw ?k ?t = Ok ?l |- _ => rewrite (raw_shown k t l H) end.
      cbn [bind]. match goal with |- context [bytes_to_string_314 (PBytes ?k)] => destruct (shows k) as (y & Ey & V); rewrite Ey, (bytes_to_string_bytes k) end.
      cbn [bind agree same_decrypted]. cbn. repeat (split; [reflexivity|]). split; eexists; (split; [reflexivity|eassumption]).
    + cbn [agree same_decrypted]. reflexivity.
  - destruct prefixes_no_hex as (b1 & b2 & F1 & F2 & N1 & N2). apply (raise_agree _ _ _ _ b1 b2); assumption.
Qed.

(** Where an error text quotes or counts bytes, it does so in the new way *)
Lemma raise_text {A} m z1 z2 b1 b2 got x : integer_to_bytes z1 = Ok b1 -> integer_to_bytes z2 = Ok b2 -> ~ ascii_hex b1 -> ~ ascii_hex b2 ->
  written_as got x -> @raise_not_one_of_314 A m z1 z2 got = Raise (Lib CError (error_text m (quoted_list [hex b1; hex b2]) (quote x))).
Proof.
  intros E1 E2 N1 N2 W. unfold raise_not_one_of_314. rewrite E1, E2. cbn [bind]. rewrite (shows_text b1 N1), (shows_text b2 N2). cbn [bind].
  destruct (shows got) as (x' & E & W'). rewrite E. cbn [bind shown]. rewrite lib_error_list by discriminate.
  assert (x' = x) as -> by (destruct W as [[H ->]|[H ->]], W' as [[H' ->]|[H' ->]]; try contradiction; reflexivity).
  destruct x; reflexivity.
Qed.
Lemma shown_unique b x : written_as b x -> bytes_to_string_314 (PBytes b) = Ok x.
Proof.
  intros W. destruct (shows b) as (x' & E & W'). rewrite E. f_equal. destruct W as [[H ->]|[H ->]], W' as [[H' ->]|[H' ->]]; try contradiction; reflexivity.
Qed.
Theorem C84_error_texts : forall P self network w a, prims_ok P -> session self network w a -> forall b x, written_as b x ->
  (forall random arg pw lot sequence, argument_bytes random arg b ->
     (List.length b <> 4%nat -> List.length b <> 8%nat ->
      intermediate_code_314 P random pw lot sequence arg = Raise (Lib CError (error_text "Invalid owner salt length" (str "'8', '16'") (dec (count x))))) /\
     (List.length b = 4%nat -> lot = None \/ sequence = None ->
      intermediate_code_314 P random pw lot sequence arg = Raise (Lib CError (error_text "Invalid owner salt length for non lot/sequence" (str "16") (dec (count x)))))) /\
  (forall random code c arg seed rest, argument_bytes random arg seed -> base58check_reads P code (b ++ rest) ->
     List.length b = 8%nat -> List.length rest = 41%nat -> b <> code_magic true -> b <> code_magic false ->
     create_new_encrypted_wif_314 P random self code (wif_name c) arg network =
     Raise (Lib CError (error_text "Invalid magic" (str "'2ce9b3e1ff39e251', '2ce9b3e1ff39e253'") (quote x)))) /\
  (forall s rest pw detail, base58_reads s (b ++ rest) -> List.length b = 2%nat -> List.length rest = 41%nat -> b <> [x01; x42] -> b <> [x01; x43] ->
     decrypt_314 P self s pw network detail = Raise (Lib CError (error_text "Invalid prefix" (str "'0142', '0143'") (quote x)))) /\
  (forall s rest pw detail, base58_reads s ([x01; x42] ++ b ++ rest) -> List.length b = 1%nat -> List.length rest = 40%nat -> b <> [xc0] -> b <> [xe0] ->
     decrypt_314 P self s pw network detail = Raise (Lib CError (error_text "Invalid flag" (str "'c0', 'e0'") (quote x)))).
Proof.
  intros P self network w a HP HS b x W. destruct (session_net_sel _ _ _ _ HS) as (n & N).
  pose proof (shown_unique b x W) as Sb.
  assert (C : dec (written_len x) = dec (count x)) by (destruct x; reflexivity).
  split; [|split; [|split]].
  - intros random arg pw lot sequence A. apply argument_entropy in A. unfold entropy_arg in A. split.
    + intros L1 L2. unfold intermediate_code_314. rewrite A. cbn [bind].
      replace (Nat.eqb (List.length b) 4 || Nat.eqb (List.length b) 8) with false by (symmetry; apply orb_false_iff; split; apply Nat.eqb_neq; assumption).
      cbn [negb]. rewrite Sb. cbn [bind]. rewrite lib_error_list by discriminate. rewrite C. reflexivity.
    + intros L4 LN. unfold intermediate_code_314. rewrite A. cbn [bind]. rewrite L4. cbn [Nat.eqb orb negb andb].
      replace (is_none lot || is_none sequence) with true by (destruct LN as [-> | ->]; [reflexivity|destruct lot; reflexivity]).
      rewrite Sb. cbn [bind]. rewrite lib_error_other, C. reflexivity.
  - intros random code c arg seed rest A R L1 L2 M1 M2. apply argument_entropy in A. unfold entropy_arg in A.
    apply (reads58check P HP) in R. change bitcoin_alphabet with base58_alphabet in R.
    unfold create_new_encrypted_wif_314. rewrite (ns_sel _ _ _ _ _ N). cbn [bind]. rewrite A. cbn [bind]. rewrite R. cbn [bind].
    rewrite app_length, L1, L2. change (Nat.eqb (8 + 41) 49) with true. cbn [negb]. rewrite upto_app by exact L1. cbv zeta.
    destruct lot_magic as (b1 & E1 & N1), no_lot_magic as (b2 & E2 & N2). rewrite E1, E2.
    assert (K : b1 = code_magic true /\ b2 = code_magic false).
    { split; [revert E1|revert E2]; (intros E; apply Ok_inj in E; symmetry; exact E). }
    destruct K as [K1 K2]. 
    assert (T : forall (B : Type) (f : pystr -> res B) z, (forall t, f t = z) -> bind (if str_eqb (wif_name c) (str "wif") then Ok (str "uncompressed") else if str_eqb (wif_name c) (str "wif-compressed") then Ok (str "compressed") else Raise (lib_error CWIFError (str "Invalid wif type") None (ExpList WIF_TYPES) (wif_name c))) f = z)
      by (intros B f z F; destruct c; cbn [wif_name]; apply F).
    apply T. intros t. cbn [bind]. rewrite K1, K2. rewrite (bytes_eqb_neq _ _ M1), (bytes_eqb_neq _ _ M2).
    rewrite (raise_text _ _ _ b1 b2 b x E1 E2 N1 N2 W). cbn [bind]. rewrite K1, K2. reflexivity.
  - intros s rest pw detail R L1 L2 M1 M2. apply reads_code in R. unfold decrypt_314. rewrite (ns_sel _ _ _ _ _ N). cbn [bind]. rewrite R. cbn [bind].
    rewrite app_length, L1, L2. change (Nat.eqb (2 + 41) 43) with true. cbn [negb]. rewrite upto_app by exact L1. cbv zeta.
    destruct prefixes_no_hex as (b1 & b2 & E1 & E2 & N1 & N2). rewrite E1, E2. cbn [bind].
    assert (K : b1 = [x01; x42] /\ b2 = [x01; x43]).
    { split; [revert E1|revert E2]; (intros E; apply Ok_inj in E; symmetry; exact E). }
    destruct K as [-> ->]. rewrite (bytes_eqb_neq _ _ M1), (bytes_eqb_neq _ _ M2).
    rewrite (raise_text _ _ _ _ _ b x E1 E2 N1 N2 W). reflexivity.
  - intros s rest pw detail R L1 L2 M1 M2. apply reads_code in R. unfold decrypt_314. rewrite (ns_sel _ _ _ _ _ N). cbn [bind]. rewrite R. cbn [bind].
    rewrite !app_length, L1, L2. change (Nat.eqb (List.length [x01; x42] + (1 + 40)) 43) with true. cbn [negb]. rewrite upto_app by reflexivity. cbv zeta.
    destruct prefixes_no_hex as (p1 & p2 & F1 & F2 & _ & _). rewrite F1, F2. cbn [bind].
    assert (p1 = [x01; x42]) as -> by (revert F1; intros E; apply Ok_inj in E; symmetry; exact E).
    change (bytes_eqb [x01; x42] [x01; x42]) with true. cbv iota. unfold decrypt_no_ec_314.
    destruct flags_no_hex as (b1 & b2 & E1 & E2 & N1 & N2). rewrite E1, E2. cbn [bind].
    assert (K : b1 = [xc0] /\ b2 = [xe0]).
    { split; [revert E1|revert E2]; (intros E; apply Ok_inj in E; symmetry; exact E). }
    destruct K as [-> ->].
    assert (SL : slice 2 3 ([x01; x42] ++ b ++ rest) = b) by (apply slice_app; [reflexivity|exact L1 || (rewrite L1; reflexivity)]).
    rewrite SL, (bytes_eqb_neq _ _ M1), (bytes_eqb_neq _ _ M2). 
    rewrite (raise_text _ _ _ _ _ b x E1 E2 N1 N2 W). reflexivity.
Qed.
(** ** The cases where it matters *)
(** A private key of 32 ASCII digits: wif_to_private_key returned its hexadecimal text, and now the bytes *)
Definition digits_key : bytes := List.concat (List.repeat [x30; x31; x32; x33; x61; x62; x43; x44] 4).
Example C84_key : exists s, encode ([x80] ++ digits_key ++ [x01] ++ [x00; x00; x00; x00]) base58_alphabet = Ok s /\
  wif_to_private_key s coin_Bitcoin (str "mainnet") = Ok (hex digits_key) /\
  wif_to_private_key_314 s coin_Bitcoin (str "mainnet") = Ok (Raw digits_key).
Proof. eexists. split; [vm_compute; reflexivity|]. split; vm_compute; reflexivity. Qed.
Example C84_ascii : ascii_hex digits_key /\ ascii_hex [x20] /\ ~ ascii_hex [x30] /\ ~ ascii_hex [x80] /\ ~ ascii_hex [].
Proof.
  assert (T : forall b, b <> [] -> forall k, fromhex_bytes b = Some k -> ascii_hex b).
  { intros b N k H. split; [exact N|]. exists k. apply fromhex_iff, H. }
  split; [eapply T; [discriminate|vm_compute; reflexivity]|]. split; [eapply T; [discriminate|vm_compute; reflexivity]|].
  split; [apply fromhex_ascii; [discriminate|reflexivity]|]. split; [apply fromhex_ascii; [discriminate|reflexivity]|]. intros [N _]. congruence.
Qed.
(** The texts of exceptions *)
Example C84_salt : forall P random pw,
  intermediate_code P random pw None None (PBytes [x30; x31]) = Raise (Lib CError (error_text "Invalid owner salt length" (str "'8', '16'") (str "4"))) /\
  intermediate_code_314 P random pw None None (PBytes [x30; x31]) = Raise (Lib CError (error_text "Invalid owner salt length" (str "'8', '16'") (str "2"))).
Proof. intros P random pw. split; vm_compute; reflexivity. Qed.
Example C84_flag : exists s self, encode ([x01; x42; x20] ++ List.repeat x11 40) base58_alphabet = Ok s /\
  bip38_init (CoinClass coin_Bitcoin) (str "mainnet") = Ok self /\ forall P pw,
  decrypt P self s pw None false = Raise (Lib CError (error_text "Invalid flag" (str "'c0', 'e0'") (str "20"))) /\
  decrypt_314 P self s pw None false = Raise (Lib CError (error_text "Invalid flag" (str "'c0', 'e0'") (str "b' '"))).
Proof. eexists. eexists. split; [vm_compute; reflexivity|]. split; [vm_compute; reflexivity|]. intros P pw. split; vm_compute; reflexivity. Qed.
