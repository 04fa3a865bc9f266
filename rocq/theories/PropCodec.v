(** * C07-C11: WIF (wif.py) and P2PKH addresses (p2pkh_address.py) *)
From Coq Require Import Lia ZifyBool ZifyNat ZifyN.
From Verif Require Import ErrorFacts Py Prims Const Spec PyFacts Utils UtilsFacts Base58 Base58Facts
  SpecRipemd Ripemd160 RipemdFacts Crypto Curve SpecCurve CurveFacts CurveFacts2 Secp256k1 SecpFacts
  Cryptocurrencies P2PKHAddress Wif Bip38 SpecBip38 SpecSession CodecFacts CodecFacts2 Bip38Facts Sessions SpecReads ReadFacts.

(** ** C07: WIF round trip *)
(** A 32-byte key given as bytes or as its hexadecimal text. *)
Definition key_argument (arg : pyarg) (k : bytes) : Prop := arg = PBytes k \/ arg = PStr (hex k).
Lemma key_argument_bytes arg k : key_argument arg k -> get_bytes arg true = Ok k.
Proof. intros [-> | ->]; [apply get_bytes_bytes|apply get_bytes_tohex]. Qed.
Theorem C07_wif_roundtrip : forall P coin n w a arg k compressed, prims_ok P -> coin_ok coin ->
  dict_get n (c_networks coin) = Some (w, a) -> key_argument arg k -> List.length k = 32%nat ->
  exists s pre, private_key_to_wif P arg (wif_name compressed) coin n = Ok s /\
    wif_text P w compressed k s /\ minimal_bytes w pre /\
    wif_to_private_key s coin n = Ok (hex k) /\
    get_wif_type s coin n = Ok (wif_name compressed) /\
    get_wif_checksum s coin n = Ok (hex (checksum4 P (pre ++ k ++ if compressed then [x01] else []))).
Proof.
  intros P coin n w a arg k c HP HC D A L. destruct (HC n w a (dict_get_in _ _ _ D)) as [Hw _].
  exists (wif_of P w c k), (pre w). split; [apply (private_key_to_wif_eq P arg k c _ _ _ _ D Hw (key_argument_bytes _ _ A) L)|].
  split; [apply wif_of_text, Hw|]. split; [apply pre_minimal, Hw|].
  rewrite (wif_to_private_key_eq _ _ _ _ _ D), (get_wif_type_eq _ _ _ _ _ D), (get_wif_checksum_eq _ _ _ _ _ D).
  rewrite (decode_wif_of P w c k HP Hw L). repeat split; reflexivity.
Qed.
(** Different keys or types have different WIFs. *)
Theorem C07_wif_injective : forall P coin n w a k k' c c' s, prims_ok P -> coin_ok coin ->
  dict_get n (c_networks coin) = Some (w, a) -> List.length k = 32%nat -> List.length k' = 32%nat ->
  private_key_to_wif P (PBytes k) (wif_name c) coin n = Ok s ->
  private_key_to_wif P (PBytes k') (wif_name c') coin n = Ok s -> k = k' /\ c = c'.
Proof.
  intros P coin n w a k k' c c' s HP HC D L L' E E'. destruct (HC n w a (dict_get_in _ _ _ D)) as [Hw _].
  rewrite (private_key_to_wif_eq P _ k c _ _ _ _ D Hw (get_bytes_bytes _ _) L) in E.
  rewrite (private_key_to_wif_eq P _ k' c' _ _ _ _ D Hw (get_bytes_bytes _ _) L') in E'.
  assert (F : wif_of P w c k = wif_of P w c' k') by congruence. apply wif_of_inj in F; trivial. tauto.
Qed.
(** encode_wif returns the pair of the two texts. *)
Theorem C07_encode_wif : forall P w arg k s t, prims_ok P -> 0 <= w -> key_argument arg k -> List.length k = 32%nat ->
  (encode_wif P arg w = Ok (s, t) <-> wif_text P w false k s /\ wif_text P w true k t).
Proof.
  intros P w arg k s t HP Hw A L. rewrite (encode_wif_eq P arg k w Hw (key_argument_bytes _ _ A) L). split.
  - intros E. injection E as <- <-. split; apply wif_of_text, Hw.
  - intros [E F]. apply wif_text_unique in E, F. congruence.
Qed.

(** ** C08: bad arguments are rejected *)
(** The error counts what was given: bytes, or hexadecimal characters. *)
Theorem C08_key_length : forall P arg b w n, (exists k, arg = PBytes k /\ n = zlen k) \/ (exists h, arg = PStr h /\ n = zlen h) ->
  get_bytes arg true = Ok b -> List.length b <> 32%nat ->
  encode_wif P arg w = Raise (Lib CSecp256k1Error (error_text "Invalid private key length" (str "64") (dec n))).
Proof. intros P arg b w n T G L. apply (encode_wif_bad P arg b w n G L). destruct T as [[k [-> ->]]|[h [-> ->]]]; reflexivity. Qed.
Theorem C08_private_key_to_wif_length : forall P arg b c coin n v m, (exists k, arg = PBytes k /\ m = zlen k) \/ (exists h, arg = PStr h /\ m = zlen h) ->
  get_bytes arg true = Ok b -> List.length b <> 32%nat -> dict_get n (c_networks coin) = Some v ->
  private_key_to_wif P arg (wif_name c) coin n =
    Raise (Lib CSecp256k1Error (error_text "Invalid private key length" (str "64") (dec m))).
Proof.
  intros P arg b c coin n [w a] m T G L D. unfold private_key_to_wif. rewrite wif_name_in. cbn [negb].
  rewrite (wif_prefix_eq _ _ _ _ D). cbn [bind]. rewrite (C08_key_length P arg b w m T G L). reflexivity.
Qed.
Theorem C08_wif_type : forall P arg t coin n, t <> str "wif" -> t <> str "wif-compressed" ->
  private_key_to_wif P arg t coin n = Raise (Lib CWIFError (error_text "Wrong WIF type" (str "'wif', 'wif-compressed'") t)).
Proof.
  intros P arg t coin n H1 H2. unfold private_key_to_wif. destruct (str_in t WIF_TYPES) eqn:E; [|cbn [negb]; rewrite lib_error_list by discriminate; reflexivity].
  exfalso. apply wif_types_spec in E. destruct E as [[|] ->]; [apply H2|apply H1]; reflexivity.
Qed.
(** A str that is not hexadecimal escapes as ValueError, and a missing key as TypeError. *)
Theorem C08_not_hex : forall P s w, s <> [] -> fromhex s = None -> encode_wif P (PStr s) w = Raise (Builtin ValueError).
Proof. intros P s w N F. unfold encode_wif, get_bytes. destruct s; [congruence|]. cbn [truthy negb]. rewrite F. reflexivity. Qed.
Theorem C08_none : forall P w, encode_wif P PNone w = Raise (Builtin TypeError).
Proof. reflexivity. Qed.
Example C08_example : forall P, encode_wif P (PStr (str "00ff")) 0x80 = Raise (Lib CSecp256k1Error "Invalid private key length, (expected: 64 | got: '4')") /\
  encode_wif P (PStr (str "zz")) 0x80 = Raise (Builtin ValueError) /\ encode_wif P (PBytes []) 0x80 = Raise (Lib CSecp256k1Error "Invalid private key length, (expected: 64 | got: '0')").
Proof. intros P. vm_compute. repeat split. Qed.

(** ** C09: what decode_wif accepts *)
(** The decoded bytes of a WIF: prefix, key, a marker byte if compressed, four
    more bytes. *)
Definition wif_bytes (w : Z) (compressed : bool) (k c raw : bytes) : Prop :=
  exists pre marker, minimal_bytes w pre /\ List.length k = 32%nat /\ List.length c = 4%nat /\
    List.length marker = (if compressed then 1 else 0)%nat /\ raw = pre ++ k ++ marker ++ c.
Lemma wif_bytes_raw w c k ck raw : 0 <= w -> (wif_bytes w c k ck raw <-> wif_raw w raw k (wif_name c) ck).
Proof.
  intros Hw. split.
  - intros (p & m & M & Lk & Lc & Lm & ->). rewrite (minimal_unique _ _ M). split; [exact Lk|]. split; [exact Lc|].
    destruct c; [right|left]; (split; [reflexivity|]).
    + destruct m as [|b [|]]; try discriminate. exists b. reflexivity.
    + destruct m; [reflexivity|discriminate].
  - intros (Lk & Lc & H). exists (pre w). destruct c; destruct H as [[T H]|[T H]]; try discriminate T.
    + destruct H as [b ->]. exists [b]. split; [apply pre_minimal, Hw|auto].
    + exists []. split; [apply pre_minimal, Hw|auto].
Qed.
Theorem C09_decode_wif_exact : forall s w k t ck, 0 <= w ->
  (decode_wif s w = Ok (k, t, ck) <->
   exists raw compressed, base58_reads s raw /\ t = wif_name compressed /\ wif_bytes w compressed k ck raw).
Proof.
  intros s w k t ck Hw. setoid_rewrite reads_code. destruct (decode_cases s) as [[raw D]|D].
  - rewrite (decode_wif_raw s w raw Hw D k t ck). split.
    + intros H. pose proof H as (_ & _ & [[-> _]|[-> _]]); [exists raw, false|exists raw, true];
        (split; [exact D|]; split; [reflexivity|]; apply wif_bytes_raw; [exact Hw|exact H]).
    + intros (raw' & c & D' & -> & H). rewrite D in D'. injection D' as <-. apply wif_bytes_raw; assumption.
  - split.
    + unfold decode_wif. rewrite D. discriminate.
    + intros (raw & c & D' & _). congruence.
Qed.
Theorem C09_decode_wif_otherwise : forall s w, 0 <= w -> (forall k t ck, decode_wif s w <> Ok (k, t, ck)) ->
  (is_ascii s -> decode_wif s w = Raise (Lib CWIFError "Invalid Wallet Import Format (WIF)")) /\
  (~ is_ascii s -> decode_wif s w = Raise (Builtin UnicodeEncodeError)).
Proof.
  intros s w Hw H. split; intros A; [|apply decode_wif_non_ascii, A].
  destruct (decode_ascii58 s A) as [raw D]. destruct (decode_wif s w) as [[[k t] c]|e] eqn:E; [destruct (H k t c eq_refl)|].
  rewrite (decode_wif_err _ _ _ _ Hw D E). reflexivity.
Qed.
(** A WIF for another prefix of the same byte length is rejected. *)
Theorem C09_other_prefix : forall P w w' pw pw' c k s, prims_ok P -> List.length k = 32%nat ->
  minimal_bytes w pw -> minimal_bytes w' pw' -> List.length pw = List.length pw' -> w <> w' ->
  wif_text P w c k s -> decode_wif s w' = Raise (Lib CWIFError "Invalid Wallet Import Format (WIF)").
Proof.
  intros P w w' pw pw' c k s HP L M M' LL N T.
  pose proof (minimal_nonneg _ _ M) as Hw. pose proof (minimal_nonneg _ _ M') as Hw'.
  pose proof (wif_text_unique _ _ _ _ _ T) as ->. apply C09_decode_wif_otherwise; [exact Hw'| |apply b58_ascii].
  intros k' t ck E. apply C09_decode_wif_exact in E; [|exact Hw']. destruct E as (raw & c' & D & _ & p & m & Mp & _ & _ & _ & R).
  apply reads_code in D. unfold wif_of, b58c in D. rewrite decode_b58 in D. injection D as D.
  assert (pw = pw').
  { rewrite (minimal_unique _ _ M), (minimal_unique _ _ M'). rewrite (minimal_unique _ _ M), (minimal_unique _ _ M') in LL.
    rewrite (minimal_unique _ _ Mp) in R. rewrite R in D. rewrite <- !app_assoc in D. apply app_inj_l in D; [tauto|auto]. }
  subst pw'. apply N. destruct M as [<- _], M' as [<- _]. reflexivity.
Qed.

(** ** C10: the checksum and the marker byte are not checked *)
Theorem C10_any_checksum : forall s w k marker ck pre, minimal_bytes w pre ->
  List.length k = 32%nat -> (List.length marker <= 1)%nat -> List.length ck = 4%nat ->
  base58_text (pre ++ k ++ marker ++ ck) s ->
  decode_wif s w = Ok (k, wif_name (Nat.eqb (List.length marker) 1), ck).
Proof.
  intros s w k m ck p M Lk Lm Lc T. pose proof (minimal_nonneg _ _ M) as Hw. apply C09_decode_wif_exact; [exact Hw|].
  pose proof (b58_unique _ _ T) as ->. eexists. exists (Nat.eqb (List.length m) 1). split; [apply reads_code, decode_b58|]. split; [reflexivity|].
  exists p, m. repeat split; trivial; try apply M. destruct (Nat.eqb_spec (List.length m) 1); lia.
Qed.
Theorem C10_wif_to_private_key_any_checksum : forall s coin n w a k marker ck pre,
  dict_get n (c_networks coin) = Some (w, a) -> minimal_bytes w pre ->
  List.length k = 32%nat -> (List.length marker <= 1)%nat -> List.length ck = 4%nat ->
  base58_text (pre ++ k ++ marker ++ ck) s ->
  wif_to_private_key s coin n = Ok (hex k) /\ get_wif_checksum s coin n = Ok (hex ck).
Proof.
  intros s coin n w a k m ck p D M Lk Lm Lc T. pose proof (C10_any_checksum s w k m ck p M Lk Lm Lc T) as E.
  rewrite (wif_to_private_key_eq _ _ _ _ _ D), (get_wif_checksum_eq _ _ _ _ _ D), E. split; reflexivity.
Qed.
(** encrypt takes two WIFs that differ only in checksum and marker byte as the same key. *)
Theorem C10_encrypt_any_checksum : forall P self network w a pre k m m' ck ck' s s' pw, prims_ok P ->
  session self network w a -> minimal_bytes w pre -> List.length k = 32%nat ->
  (List.length m <= 1)%nat -> List.length m = List.length m' -> List.length ck = 4%nat -> List.length ck' = 4%nat ->
  base58_text (pre ++ k ++ m ++ ck) s -> base58_text (pre ++ k ++ m' ++ ck') s' ->
  encrypt P self s pw network = encrypt P self s' pw network.
Proof.
  intros P self network w a p k m m' ck ck' s s' pw HP HS M Lk Lm Lmm Lc Lc' T T'.
  destruct (session_net_sel _ _ _ _ HS) as (n & N). rewrite !(encrypt_eq P HP _ _ _ _ _ _ _ N).
  rewrite (C10_any_checksum s w k m ck p M Lk Lm Lc T). rewrite (C10_any_checksum s' w k m' ck' p M Lk ltac:(lia) Lc' T').
  rewrite Lmm. reflexivity.
Qed.
(** A WIF with a wrong checksum exists for every key and is accepted. *)
Theorem C10_wrong_checksum_accepted : forall P w k c, prims_ok P -> 0 <= w -> List.length k = 32%nat ->
  exists s ck, ~ wif_text P w c k s /\ decode_wif s w = Ok (k, wif_name c, ck).
Proof.
  intros P w k c HP Hw L. set (good := checksum4 P (pre w ++ k ++ suffix c)).
  assert (Lg : List.length good = 4%nat) by apply checksum4_length, HP.
  assert (exists bad, List.length bad = 4%nat /\ bad <> good) as (bad & Lb & Nb).
  { destruct (bytes_eqb good [x00; x00; x00; x00]) eqn:E.
    - apply bytes_eqb_spec in E. exists [x01; x00; x00; x00]. split; [reflexivity|]. rewrite E. discriminate.
    - apply bytes_eqb_false in E. exists [x00; x00; x00; x00]. split; [reflexivity|congruence]. }
  exists (b58 (pre w ++ k ++ suffix c ++ bad)), bad. split.
  - intros T. apply wif_text_unique in T. unfold wif_of, b58c in T. apply b58_inj in T.
    rewrite <- !app_assoc in T. do 3 apply app_inv_head in T. exact (Nb T).
  - replace (wif_name c) with (wif_name (Nat.eqb (List.length (suffix c)) 1)) by (destruct c; reflexivity).
    apply (C10_any_checksum _ w k (suffix c) bad (pre w)); trivial; [apply pre_minimal, Hw|destruct c; cbn; lia|apply b58_text].
Qed.

(** ** C11: P2PKH addresses *)
(** A public key argument: an object, or an accepted encoding as bytes or hexadecimal text. *)
Definition public_key_argument (arg : pubkey_arg) (x y : Z) : Prop :=
  arg = PKObj {| pk_x := x; pk_y := y |} \/
  exists l, (arg = PKData (PBytes l) \/ arg = PKData (PStr (hex l))) /\
    (sec1_compressed x y l \/ sec1_uncompressed x y l \/ raw_xy x y l \/ hybrid x y l).
Lemma public_key_argument_key arg x y : on_curve (Aff x y) -> public_key_argument arg x y -> key_arg arg {| pk_x := x; pk_y := y |}.
Proof.
  intros O [-> | (l & A & E)]; [reflexivity|].
  assert (F : PublicKey_from_bytes l = Ok {| pk_x := x; pk_y := y |}) by (apply PublicKey_from_bytes_iff; split; [exact O|exact E]).
  destruct A as [-> | ->]; exists l; (split; [|exact F]); [apply get_bytes_bytes|apply get_bytes_tohex].
Qed.
(** The keyword arguments default to prefix 0, "compressed", Bitcoin's alphabet. *)
Theorem C11_encode : forall P arg x y ap ty al s, prims_ok P -> on_curve (Aff x y) -> public_key_argument arg x y ->
  let prefix := default 0 ap in let A := default bitcoin_alphabet al in
  0 <= prefix -> alphabet_ok A ->
  (P2PKH_encode P arg ap ty al = Ok s <->
   address_text P A prefix (str_eqb (default (str "compressed") ty) (str "compressed")) x y s).
Proof.
  intros P arg x y ap ty al s HP O A prefix Al Hp HA.
  apply (P2PKH_encode_iff P arg {| pk_x := x; pk_y := y |}); trivial. apply public_key_argument_key; assumption.
Qed.
Theorem C11_roundtrip : forall P arg x y ap ty al, prims_ok P -> on_curve (Aff x y) -> public_key_argument arg x y ->
  let prefix := default 0 ap in let A := default bitcoin_alphabet al in
  0 <= prefix -> alphabet_ok A ->
  exists s l, P2PKH_encode P arg ap ty al = Ok s /\
    serialised (str_eqb (default (str "compressed") ty) (str "compressed")) x y l /\
    P2PKH_decode P s ap al = Ok (hex (sha_ripemd P l)).
Proof.
  intros P arg x y ap ty al HP O A prefix Al Hp HA.
  destruct (P2PKH_encode_total P arg {| pk_x := x; pk_y := y |} ap ty al HP Hp HA (public_key_argument_key _ _ _ O A) O) as [s E].
  pose proof (proj1 (C11_encode P arg x y ap ty al s HP O A Hp HA) E) as (p & l & M & S & T).
  exists s, l. split; [exact E|]. split; [exact S|]. apply P2PKH_decode_iff; trivial.
  exists (sha_ripemd P l). split; [apply ripemd_length, HP|]. split; [reflexivity|].
  change (default default_address_prefix ap) with prefix. rewrite <- (minimal_unique prefix _ M).
  apply (check_roundtrip P HP Al HA). apply (check_encode_iff P Al HA). exact T.
Qed.
Theorem C11_decode_exact : forall P s ap al h, prims_ok P ->
  let prefix := default 0 ap in let A := default bitcoin_alphabet al in 0 <= prefix -> alphabet_ok A ->
  (P2PKH_decode P s ap al = Ok h <->
   exists pre h20, minimal_bytes prefix pre /\ List.length h20 = 20%nat /\ h = hex h20 /\
     let payload := pre ++ h20 in base_reads A s (payload ++ checksum4 P payload)).
Proof.
  intros P s ap al h HP prefix A Hp HA. setoid_rewrite <- (decode_reads A HA). rewrite (P2PKH_decode_iff P s ap al h HP Hp).
  change (default default_address_prefix ap) with prefix. fold A. split.
  - intros (h20 & L & -> & D). exists (pre prefix), h20. split; [apply pre_minimal, Hp|]. split; [exact L|]. split; [reflexivity|].
    apply (check_decode_decode P HP A). exact D.
  - intros (p & h20 & M & L & -> & D). exists h20. split; [exact L|]. split; [reflexivity|].
    rewrite <- (minimal_unique prefix _ M). apply (check_decode_decode P HP A). exact D.
Qed.
Theorem C11_decode_otherwise : forall P s ap al e, prims_ok P ->
  let prefix := default 0 ap in let A := default bitcoin_alphabet al in 0 <= prefix -> alphabet_ok A ->
  P2PKH_decode P s ap al = Raise e ->
  (~ is_ascii s /\ e = Builtin UnicodeEncodeError) \/
  (is_ascii s /\ (forall d, ~ base_reads A s (d ++ checksum4 P d)) /\ e = Builtin ValueError) \/
  (exists d pre, base_reads A s (d ++ checksum4 P d) /\ minimal_bytes prefix pre /\
     (List.length d <> (20 + List.length pre)%nat /\
        e = Lib CAddressError (str "Invalid length (expected: " ++ dec (20 + zlen pre) ++ str ", got: " ++ dec (zlen d) ++ str ")")%list \/
      List.length d = (20 + List.length pre)%nat /\ firstn (List.length pre) d <> pre /\
        e = Lib CAddressError (str "Invalid prefix (expected: " ++ bytes_repr pre ++ str ", got: " ++ bytes_repr (firstn (List.length pre) d) ++ str ")")%list)).
Proof.
  intros P s ap al e HP prefix A Hp HA E. setoid_rewrite <- (decode_reads A HA). pose proof E as E0. 
  destruct (check_decode P s A) as [d|e'] eqn:C.
  - right. right. exists d, (pre prefix). split; [apply (check_decode_decode P HP A); exact C|]. split; [apply pre_minimal, Hp|].
    rewrite (P2PKH_decode_eq P s ap al Hp) in E0. change (default bitcoin_alphabet al) with A in E0. rewrite C in E0. cbv zeta in E0.
    change (default default_address_prefix ap) with prefix in E0. change (@firstn byte) with (@upto byte).
    destruct (Nat.eqb_spec (List.length d) (20 + List.length (pre prefix))) as [L|L].
    + right. destruct (bytes_eqb _ _) eqn:B; [discriminate|]. apply bytes_eqb_false in B. split; [exact L|]. split; congruence.
    + left. split; [exact L|]. congruence.
  - assert (Ee : e = e').
    { unfold P2PKH_decode in E0. change (default default_address_prefix ap) with prefix in E0. rewrite (pre_eq _ Hp) in E0. cbn [bind] in E0.
      change (check_decode P s (default Bitcoin_ALPHABET al)) with (check_decode P s A) in E0. rewrite C in E0. cbn [bind] in E0. congruence. }
    subst e'. pose proof (check_decode_err P A HA _ _ C) as [[-> I]|[-> I]].
    + right. left. split; [exact I|]. split; [|reflexivity]. intros d D. apply (check_decode_decode P HP A) in D. congruence.
    + left. auto.
Qed.

(** ** Concrete cases *)
From Verif Require Import Toy.
Definition key11 : bytes := repeat x11 32.
Example C07_example : prims_ok toy /\ coin_ok coin_Bitcoin /\
  dict_get (str "testnet") (c_networks coin_Bitcoin) = Some (0xef, 0x6f) /\ key_argument (PStr (hex key11)) key11 /\
  exists s, private_key_to_wif toy (PStr (hex key11)) (str "wif-compressed") coin_Bitcoin (str "testnet") = Ok s /\
    wif_to_private_key s coin_Bitcoin (str "testnet") = Ok (hex key11).
Proof.
  split; [exact toy_ok|]. split; [exact btc_coin_ok|]. split; [reflexivity|]. split; [right; reflexivity|].
  eexists. split; vm_compute; reflexivity.
Qed.
(** With the real double SHA-256 the checksum of this key's WIF would be fixed;
    any four bytes in its place are accepted. *)
Example C10_example : exists s, encode ([x80] ++ key11 ++ [x77] ++ [xde; xad; xbe; xef]) base58_alphabet = Ok s /\
  decode_wif s 0x80 = Ok (key11, str "wif-compressed", [xde; xad; xbe; xef]) /\
  decode_wif s 0xef = Raise (Lib CWIFError "Invalid Wallet Import Format (WIF)").
Proof. eexists. split; [vm_compute; reflexivity|]. split; vm_compute; reflexivity. Qed.
Example C11_example : on_curve secp_G /\ public_key_argument (PKObj {| pk_x := G_x; pk_y := G_y |}) G_x G_y /\
  exists s, P2PKH_encode toy (PKObj {| pk_x := G_x; pk_y := G_y |}) (Some 0x6f) (Some (str "uncompressed")) None = Ok s /\
    exists h, P2PKH_decode toy s (Some 0x6f) None = Ok h /\
    P2PKH_decode toy s (Some 0x00) None = Raise (Lib CAddressError "Invalid prefix (expected: b'\x00', got: b'o')").
Proof.
  split; [exact G_on|]. split; [left; reflexivity|]. eexists. split; [vm_compute; reflexivity|]. eexists. split; vm_compute; reflexivity.
Qed.
