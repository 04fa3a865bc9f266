(** * CodecFacts: Base58Check, WIF, addresses. *)
From Coq Require Import Lia ZifyBool ZifyNat ZifyN.
From Verif Require Import Py Prims Const Spec PyFacts Utils UtilsFacts Base58 Base58Facts
  SpecRipemd Ripemd160 RipemdFacts Crypto Curve SpecCurve CurveFacts CurveFacts2 Secp256k1 SecpFacts
  Cryptocurrencies P2PKHAddress Wif SpecBip38.

(** ** The alphabets *)
Definition nodupb (l : list N) : bool :=
  (fix go l := match l with [] => true | x :: r => negb (existsb (N.eqb x) r) && go r end) l.
Lemma nodupb_ok l : nodupb l = true -> NoDup l.
Proof.
  induction l as [|x l IH]; [constructor|]. cbn. rewrite andb_true_iff, negb_true_iff. intros [H1 H2].
  constructor; [|apply IH; exact H2]. intros I. assert (existsb (N.eqb x) l = true); [|congruence].
  apply existsb_exists. exists x. split; [exact I|apply N.eqb_refl].
Qed.
Lemma alphabet_okb A : (Nat.leb 2 (List.length A) && nodupb A && forallb (fun c => N.ltb c 128) A)%bool = true -> alphabet_ok A.
Proof.
  rewrite !andb_true_iff. intros [[H1 H2] H3]. split; [apply Nat.leb_le; exact H1|]. split; [apply nodupb_ok; exact H2|].
  apply Forall_forall. rewrite forallb_forall in H3. intros x Hx. apply N.ltb_lt. apply H3, Hx.
Qed.
Lemma base58_alphabet_is : base58_alphabet = bitcoin_alphabet. Proof. reflexivity. Qed.
Lemma Bitcoin_ALPHABET_is : Bitcoin_ALPHABET = bitcoin_alphabet. Proof. reflexivity. Qed.
Lemma bitcoin_ok : alphabet_ok bitcoin_alphabet.
Proof. apply alphabet_okb. vm_compute. reflexivity. Qed.

Lemma is_ascii_dec s : is_ascii s \/ ~ is_ascii s.
Proof.
  unfold is_ascii. destruct (forallb (fun c => N.ltb c 128) s) eqn:F; [left|right].
  - apply Forall_forall. rewrite forallb_forall in F. intros x Hx. apply N.ltb_lt, F, Hx.
  - intros G. assert (forallb (fun c => N.ltb c 128) s = true); [|congruence].
    apply forallb_forall. rewrite Forall_forall in G. intros x Hx. apply N.ltb_lt, G, Hx.
Qed.

(** ** Lengths of hashes *)
Lemma sha256d_length P b : prims_ok P -> List.length (sha256d P b) = 32%nat.
Proof. intros H. apply (sha256_len P H). Qed.
Lemma checksum4_length P b : prims_ok P -> List.length (checksum4 P b) = 4%nat.
Proof. intros H. unfold checksum4. rewrite firstn_length, (sha256d_length P b H). reflexivity. Qed.
Lemma ripemd_length P b : prims_ok P -> List.length (ripemd P b) = 20%nat.
Proof.
  intros H. unfold ripemd. destruct (h_ripemd160 P) as [f|] eqn:E; [|apply rmd160_length].
  destruct (ripemd160_len P H f b E) as (d & -> & L). exact L.
Qed.

(** ** crypto.py *)
Lemma sha256_eq P b : Crypto.sha256 P (PBytes b) = Ok (h_sha256 P b).
Proof. unfold Crypto.sha256. rewrite get_bytes_bytes. reflexivity. Qed.
Lemma double_sha256_eq P b : double_sha256 P (PBytes b) = Ok (sha256d P b).
Proof. unfold double_sha256. rewrite sha256_eq. cbn [bind]. apply sha256_eq. Qed.
Lemma get_checksum_eq P b : get_checksum P (PBytes b) = Ok (checksum4 P b).
Proof. unfold get_checksum. rewrite double_sha256_eq. reflexivity. Qed.
Lemma crypto_ripemd160_eq P b : prims_ok P -> 8 * zlen b < 2 ^ 64 -> crypto_ripemd160 P (PBytes b) = Ok (ripemd P b).
Proof.
  intros HP H. unfold crypto_ripemd160, ripemd. rewrite get_bytes_bytes. cbn [bind].
  destruct (h_ripemd160 P) as [f|] eqn:E; [destruct (ripemd160_len P HP f b E) as (d & -> & _); reflexivity|]. apply ripemd160_is_rmd160, H.
Qed.
Lemma hash160_eq P b : prims_ok P -> hash160 P (PBytes b) = Ok (sha_ripemd P b).
Proof.
  intros H. unfold hash160. rewrite sha256_eq. cbn [bind]. apply crypto_ripemd160_eq; [exact H|].
  unfold zlen. rewrite (sha256_len P H). reflexivity.
Qed.

(** ** Base58Check *)
Section Check.
  Variable P : prims.
  Hypothesis HP : prims_ok P.
  Variable A : pystr.
  Hypothesis HA : alphabet_ok A.

  Lemma check_encode_iff d s : check_encode P d A = Ok s <-> base58check_text P A d s.
  Proof. apply (encode_iff A HA). Qed.
  Lemma check_encode_total d : exists s, check_encode P d A = Ok s.
  Proof. destruct (encode_text A HA (d ++ checksum4 P d)) as [s [E _]]. exists s. exact E. Qed.

  (** Exact behaviour on every string. *)
  Lemma check_decode_decode s d : check_decode P s A = Ok d <-> decode s A = Ok (d ++ checksum4 P d).
  Proof.
    unfold check_decode. destruct (decode s A) as [r|e]; cbn [bind]; [|split; discriminate].
    destruct (bytes_eqb _ _) eqn:E; cbn [negb].
    - apply bytes_eqb_spec in E. change (upto 4 (h_sha256 P (h_sha256 P (upto_neg 4 r)))) with (checksum4 P (upto_neg 4 r)) in E. split.
      + intros H. injection H as <-. rewrite <- E, neg_split. reflexivity.
      + intros H. injection H as ->. f_equal. apply upto_neg_app, checksum4_length, HP.
    - split; [discriminate|]. intros H. injection H as ->. exfalso. apply bytes_eqb_false in E. apply E.
      rewrite from_neg_app, upto_neg_app by apply checksum4_length, HP. reflexivity.
  Qed.
  Lemma check_decode_err s e : check_decode P s A = Raise e ->
    e = Builtin ValueError /\ is_ascii s \/ e = Builtin UnicodeEncodeError /\ ~ is_ascii s.
  Proof.
    unfold check_decode. pose proof (is_ascii_dec s) as D.
    destruct D as [D|D].
    - destruct (decode_ascii A HA s D) as [bs [_ [_ E]]]. rewrite E. cbn [bind].
      destruct (negb _); [|discriminate]. intros H. left. split; [congruence|exact D].
    - rewrite (decode_non_ascii A s D). cbn [bind]. intros H. right. split; [congruence|exact D].
  Qed.
  Lemma check_decode_iff s d : over A s -> (check_decode P s A = Ok d <-> base58check_text P A d s).
  Proof. intros O. rewrite check_decode_decode. apply (decode_iff A HA s _ O). Qed.
  Lemma check_roundtrip d s : check_encode P d A = Ok s -> check_decode P s A = Ok d.
  Proof. intros H. apply check_decode_decode. apply (decode_encode A HA). exact H. Qed.
End Check.

(** ** Functional forms, Bitcoin alphabet *)
Definition b58 (d : bytes) : pystr := match encode d base58_alphabet with Ok s => s | Raise _ => [] end.
Definition b58c (P : prims) (d : bytes) : pystr := b58 (d ++ checksum4 P d).
Lemma encode_b58 d : encode d base58_alphabet = Ok (b58 d).
Proof. unfold b58. destruct (encode_text base58_alphabet bitcoin_ok d) as [s [-> _]]. reflexivity. Qed.
Lemma b58_text d : base58_text d (b58 d).
Proof. apply (encode_iff base58_alphabet bitcoin_ok). apply encode_b58. Qed.
Lemma b58_unique d s : base58_text d s -> s = b58 d.
Proof. intros H. apply (base_text_fun _ bitcoin_ok d); [exact H|apply b58_text]. Qed.
Lemma decode_b58 d : decode (b58 d) base58_alphabet = Ok d.
Proof. apply (decode_encode base58_alphabet bitcoin_ok). apply encode_b58. Qed.
Lemma b58_inj a b : b58 a = b58 b -> a = b.
Proof. intros E. pose proof (decode_b58 a) as H. rewrite E, decode_b58 in H. congruence. Qed.
Lemma b58_ascii d : is_ascii (b58 d).
Proof. apply (over_ascii _ bitcoin_ok). apply (text_over _ bitcoin_ok d). apply b58_text. Qed.
Lemma b58_over d : over bitcoin_alphabet (b58 d).
Proof. apply (text_over _ bitcoin_ok d). apply b58_text. Qed.
Lemma decode_non_ascii58 s : ~ is_ascii s -> decode s base58_alphabet = Raise (Builtin UnicodeEncodeError).
Proof. apply decode_non_ascii. Qed.
Lemma decode_ascii58 s : is_ascii s -> exists d, decode s base58_alphabet = Ok d.
Proof. intros H. destruct (decode_ascii base58_alphabet bitcoin_ok s H) as [bs [_ [_ E]]]. eexists. exact E. Qed.
Lemma decode_cases s : (exists d, decode s base58_alphabet = Ok d) \/ decode s base58_alphabet = Raise (Builtin UnicodeEncodeError).
Proof. destruct (is_ascii_dec s) as [H|H]; [left; apply decode_ascii58, H|right; apply decode_non_ascii58, H]. Qed.
Lemma check_encode_b58c P d : check_encode P d base58_alphabet = Ok (b58c P d).
Proof. apply encode_b58. Qed.
Lemma b58c_text P d : base58check_text P bitcoin_alphabet d (b58c P d).
Proof. apply b58_text. Qed.
Lemma b58c_unique P d s : base58check_text P bitcoin_alphabet d s -> s = b58c P d.
Proof. apply b58_unique. Qed.
Lemma check_decode_b58c P d : prims_ok P -> check_decode P (b58c P d) base58_alphabet = Ok d.
Proof. intros H. apply (check_decode_decode P H). apply decode_b58. Qed.
Lemma b58c_inj P a b : prims_ok P -> b58c P a = b58c P b -> a = b.
Proof.
  intros H E. apply b58_inj in E. apply (f_equal (upto_neg 4)) in E.
  rewrite !upto_neg_app in E by apply checksum4_length, H. exact E.
Qed.

Definition pre (z : Z) : bytes := match integer_to_bytes z with Ok l => l | Raise _ => [] end.
Lemma pre_eq z : 0 <= z -> integer_to_bytes z = Ok (pre z).
Proof. intros H. unfold pre. destruct (integer_to_bytes_nonneg z H) as [l [-> _]]. reflexivity. Qed.
Lemma pre_minimal z : 0 <= z -> minimal_bytes z (pre z).
Proof.
  intros H. unfold pre, minimal_bytes. destruct (integer_to_bytes_nonneg z H) as [l [-> [E [S _]]]].
  rewrite be_value_be2z. auto.
Qed.
Lemma minimal_unique z l : minimal_bytes z l -> l = pre z.
Proof.
  intros [E S]. rewrite be_value_be2z in E. unfold pre. rewrite <- E, integer_to_bytes_be2z. symmetry. exact S.
Qed.
Lemma minimal_nonneg z l : minimal_bytes z l -> 0 <= z.
Proof. intros [E _]. rewrite be_value_be2z in E. pose proof (be2z_bound l). lia. Qed.
Lemma pre_inj a b : 0 <= a -> 0 <= b -> pre a = pre b -> a = b.
Proof.
  intros Ha Hb E. destruct (pre_minimal a Ha) as [E1 _]. destruct (pre_minimal b Hb) as [E2 _]. congruence.
Qed.
Lemma pre_nonempty z : 0 <= z -> pre z <> [].
Proof. intros H. destruct (pre_minimal z H) as [_ S]. rewrite <- S. apply shortest_nonempty. Qed.

(** ** WIF *)
Definition suffix (compressed : bool) : bytes := if compressed then [x01] else [].
Definition wif_of (P : prims) (wp : Z) (compressed : bool) (k : bytes) : pystr := b58c P (pre wp ++ k ++ suffix compressed).
Lemma wif_of_text P wp c k : 0 <= wp -> wif_text P wp c k (wif_of P wp c k).
Proof. intros H. exists (pre wp). split; [apply pre_minimal, H|apply b58c_text]. Qed.
Lemma wif_text_unique P wp c k s : wif_text P wp c k s -> s = wif_of P wp c k.
Proof. intros (l & M & T). rewrite (minimal_unique _ _ M) in T. apply b58c_unique in T. exact T. Qed.

Lemma encode_wif_eq P d k wp : 0 <= wp -> get_bytes d true = Ok k -> List.length k = 32%nat ->
  encode_wif P d wp = Ok (wif_of P wp false k, wif_of P wp true k).
Proof.
  intros Hw Hd Hk. unfold encode_wif. rewrite Hd. cbn [bind]. rewrite Hk. cbn [Nat.eqb negb].
  rewrite (pre_eq wp Hw). cbn [bind]. change (integer_to_bytes COMPRESSED_PRIVATE_KEY_PREFIX) with (Ok [x01] : res bytes).
  cbn [bind]. rewrite !get_checksum_eq. cbn [bind]. rewrite !encode_b58. cbn [bind].
  unfold wif_of, b58c, suffix. rewrite app_nil_r. reflexivity.
Qed.

Lemma bytes_eqb_sym a b : bytes_eqb a b = bytes_eqb b a.
Proof.
  destruct (bytes_eqb a b) eqn:E, (bytes_eqb b a) eqn:F; trivial.
  - apply bytes_eqb_spec in E. apply bytes_eqb_false in F. congruence.
  - apply bytes_eqb_spec in F. apply bytes_eqb_false in E. congruence.
Qed.
Lemma startswith_spec p l : startswith p l = true <-> exists r, l = p ++ r.
Proof.
  unfold startswith. rewrite bytes_eqb_spec. split.
  - intros E. exists (skipn (List.length p) l). rewrite <- E at 1. rewrite firstn_skipn. reflexivity.
  - intros [r ->]. rewrite firstn_app, Nat.sub_diag. cbn [firstn]. rewrite firstn_all, app_nil_r. reflexivity.
Qed.

(** What the decoded bytes must look like. *)
Definition wif_raw (wp : Z) (raw k : bytes) (t : pystr) (c : bytes) : Prop :=
  List.length k = 32%nat /\ List.length c = 4%nat /\
  (t = str "wif" /\ raw = pre wp ++ k ++ c \/
   t = str "wif-compressed" /\ exists b, raw = pre wp ++ k ++ [b] ++ c).

Lemma decode_wif_raw s wp raw : 0 <= wp -> decode s base58_alphabet = Ok raw -> forall k t c,
  decode_wif s wp = Ok (k, t, c) <-> wif_raw wp raw k t c.
Proof.
  intros Hw Hd k t c. unfold decode_wif. rewrite Hd. cbn [bind]. rewrite (pre_eq wp Hw). cbn [bind].
  set (p := pre wp). destruct (startswith p raw) eqn:S; cbn [negb].
  - apply startswith_spec in S. destruct S as [r ->].
    rewrite upto_app by reflexivity. rewrite bytes_eqb_refl. cbn [negb]. rewrite from_app by reflexivity. cbv zeta.
    pose proof (neg_split 4 r) as Er. set (pk := upto_neg 4 r) in *. set (ck := from_neg 4 r) in *.
    destruct (Nat.eqb_spec (List.length pk) 33) as [E33|E33]; cbn [orb negb].
    + change (integer_to_bytes COMPRESSED_PRIVATE_KEY_PREFIX) with (Ok [x01] : res bytes). cbn [bind List.length].
      assert (Lr : (4 <= List.length r)%nat).
      { unfold pk in E33. rewrite upto_neg_length in E33. lia. }
      assert (Lc : List.length ck = 4%nat) by (unfold ck; rewrite from_neg_length; lia).
      pose proof (neg_split 1 pk) as Ep. assert (L1 : List.length (from_neg 1 pk) = 1%nat) by (rewrite from_neg_length; lia).
      assert (L32 : List.length (upto_neg 1 pk) = 32%nat) by (rewrite upto_neg_length; lia).
      destruct (from_neg 1 pk) as [|b [|? ?]] eqn:Eb; try discriminate L1.
      split.
      * intros H. injection H as <- <- <-. split; [exact L32|]. split; [exact Lc|]. right. split; [reflexivity|].
        exists b. rewrite (app_assoc (upto_neg 1 pk)), Ep, Er. reflexivity.
      * intros (Lk & Lcc & [[_ E]|[-> [b' E]]]).
        -- exfalso. apply app_inv_head in E. apply (f_equal (@List.length byte)) in E.
           rewrite <- Er, !app_length in E. lia.
        -- apply app_inv_head in E. rewrite app_assoc in E. rewrite <- Er in E.
           apply app_inj_r in E; [|lia]. destruct E as [E ->]. rewrite E. rewrite upto_neg_app by reflexivity. reflexivity.
    + destruct (Nat.eqb_spec (List.length pk) 32) as [E32|E32]; cbn [negb].
      * assert (Lr : (4 <= List.length r)%nat).
        { unfold pk in E32. rewrite upto_neg_length in E32. lia. }
        assert (Lc : List.length ck = 4%nat) by (unfold ck; rewrite from_neg_length; lia).
        split.
        -- intros H. injection H as <- <- <-. split; [exact E32|]. split; [exact Lc|]. left. split; [reflexivity|]. rewrite Er. reflexivity.
        -- intros (Lk & Lcc & [[-> E]|[_ [b' E]]]).
           ++ apply app_inv_head in E. rewrite <- Er in E. apply app_inj_r in E; [|lia]. destruct E as [-> ->]. reflexivity.
           ++ exfalso. apply app_inv_head in E. apply (f_equal (@List.length byte)) in E.
              rewrite <- Er, !app_length in E. cbn in E. lia.
      * split; [discriminate|]. intros (Lk & Lcc & [[_ E]|[_ [b' E]]]); exfalso; apply app_inv_head in E.
        -- apply E32. unfold pk. rewrite E, upto_neg_app by exact Lcc. exact Lk.
        -- apply E33. unfold pk. rewrite E, app_assoc, upto_neg_app by exact Lcc. rewrite app_length, Lk. reflexivity.
  - split; [discriminate|]. intros (_ & _ & H). exfalso.
    assert (startswith p raw = true); [|congruence]. apply startswith_spec.
    destruct H as [[_ ->]|[_ [b ->]]]; eexists; reflexivity.
Qed.
Lemma decode_wif_err s wp raw e : 0 <= wp -> decode s base58_alphabet = Ok raw ->
  decode_wif s wp = Raise e -> e = Lib CWIFError "Invalid Wallet Import Format (WIF)".
Proof.
  intros Hw Hd. unfold decode_wif. rewrite Hd. cbn [bind]. rewrite (pre_eq wp Hw). cbn [bind].
  set (p := pre wp). destruct (startswith p raw) eqn:S; cbn [negb]; [|congruence].
  apply startswith_spec in S. destruct S as [r ->].
  rewrite upto_app by reflexivity. rewrite bytes_eqb_refl. cbn [negb]. cbv zeta.
  destruct (negb (_ || _)); [congruence|]. destruct (Nat.eqb _ 33); [|discriminate].
  change (integer_to_bytes COMPRESSED_PRIVATE_KEY_PREFIX) with (Ok [x01] : res bytes). discriminate.
Qed.
Lemma decode_wif_non_ascii s wp : ~ is_ascii s -> decode_wif s wp = Raise (Builtin UnicodeEncodeError).
Proof. intros H. unfold decode_wif. rewrite (decode_non_ascii58 s H). reflexivity. Qed.
Lemma decode_wif_of P wp c k : prims_ok P -> 0 <= wp -> List.length k = 32%nat ->
  decode_wif (wif_of P wp c k) wp = Ok (k, wif_name c, checksum4 P (pre wp ++ k ++ suffix c)).
Proof.
  intros HP Hw Hk. apply (decode_wif_raw _ _ _ Hw (decode_b58 _)). split; [exact Hk|].
  split; [apply checksum4_length, HP|]. unfold suffix, wif_name. rewrite <- !app_assoc. destruct c.
  - right. split; [reflexivity|]. exists x01. reflexivity.
  - left. split; [reflexivity|]. reflexivity.
Qed.
Lemma wif_of_inj P wp c c' k k' : prims_ok P -> 0 <= wp -> List.length k = 32%nat -> List.length k' = 32%nat ->
  wif_of P wp c k = wif_of P wp c' k' -> c = c' /\ k = k'.
Proof.
  intros HP Hw Hk Hk' E. pose proof (decode_wif_of P wp c k HP Hw Hk) as H. rewrite E, decode_wif_of in H by assumption.
  injection H as <- Hn _. split; [|reflexivity]. destruct c, c'; trivial; discriminate.
Qed.

(** ** Addresses *)
Definition ser (compressed : bool) (k : pubkey) : bytes :=
  if compressed then (if Z.odd (pk_y k) then x03 else x02) :: z2be 32 (pk_x k)
  else x04 :: z2be 32 (pk_x k) ++ z2be 32 (pk_y k).
Lemma ser_compressed k : pk_ok k -> raw_compressed k = Ok (ser true k).
Proof.
  intros O. pose proof (on_curve_x _ _ O) as Hx. unfold raw_compressed. rewrite number_to_string_ok by apply range_p, Hx. reflexivity.
Qed.
Lemma ser_uncompressed k : pk_ok k -> raw_uncompressed k = Ok (ser false k).
Proof.
  intros O. pose proof (on_curve_x _ _ O) as Hx. pose proof (on_curve_y _ _ O) as Hy. unfold raw_uncompressed.
  rewrite !number_to_string_ok by (apply range_p; lia). reflexivity.
Qed.
Lemma ser_serialised c k : pk_ok k -> serialised c (pk_x k) (pk_y k) (ser c k).
Proof.
  intros O. destruct c; cbn [serialised].
  - apply (raw_compressed_iff k _ O). apply ser_compressed, O.
  - apply (raw_uncompressed_iff k _ O). apply ser_uncompressed, O.
Qed.
Lemma serialised_unique c k l : pk_ok k -> serialised c (pk_x k) (pk_y k) l -> l = ser c k.
Proof.
  intros O H. pose proof (ser_serialised c k O) as H'. destruct c.
  - apply (sec1_compressed_fun _ _ _ _ H H').
  - apply (sec1_uncompressed_fun _ _ _ _ H H').
Qed.
Definition addr (P : prims) (ap : Z) (compressed : bool) (k : pubkey) : pystr :=
  b58c P (pre ap ++ sha_ripemd P (ser compressed k)).
Lemma addr_text P ap c k : 0 <= ap -> pk_ok k -> address_text P bitcoin_alphabet ap c (pk_x k) (pk_y k) (addr P ap c k).
Proof.
  intros H O. exists (pre ap), (ser c k). split; [apply pre_minimal, H|]. split; [apply ser_serialised, O|apply b58c_text].
Qed.
Lemma address_text_unique P ap c k s : pk_ok k -> address_text P bitcoin_alphabet ap c (pk_x k) (pk_y k) s -> s = addr P ap c k.
Proof.
  intros O (p & l & M & S & T). rewrite (minimal_unique _ _ M), (serialised_unique _ _ _ O S) in T. apply b58c_unique, T.
Qed.
(** [public_key_type == "compressed"] decides. *)
Lemma P2PKH_encode_eq P k ap ty : prims_ok P -> 0 <= ap -> pk_ok k ->
  P2PKH_encode P (PKObj k) (Some ap) (Some ty) None = Ok (addr P ap (str_eqb ty (str "compressed")) k).
Proof.
  intros HP H O. unfold P2PKH_encode. cbn [default]. rewrite (pre_eq ap H). cbn [bind].
  rewrite (ser_compressed k O), (ser_uncompressed k O).
  destruct (str_eqb ty (str "compressed")); cbn [bind]; rewrite hash160_eq by exact HP; cbn [bind];
  rewrite Bitcoin_ALPHABET_is, <- base58_alphabet_is, check_encode_b58c; reflexivity.
Qed.
