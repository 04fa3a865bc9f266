(** * CodecFacts2: WIF helpers with a coin, address decoding, shapes of texts. *)
From Coq Require Import Lia ZifyBool ZifyNat ZifyN.
From Verif Require Import ErrorFacts Py Prims Const Spec PyFacts Utils UtilsFacts Base58 Base58Facts
  SpecRipemd Ripemd160 RipemdFacts Crypto Curve SpecCurve CurveFacts CurveFacts2 Secp256k1 SecpFacts
  Cryptocurrencies P2PKHAddress Wif SpecBip38 CodecFacts.

(** ** wif.py with a coin and a network *)
Lemma wif_prefix_eq c n w a : dict_get n (c_networks c) = Some (w, a) -> wif_prefix_of c n = Ok w.
Proof. intros H. unfold wif_prefix_of. rewrite H. reflexivity. Qed.
Lemma address_prefix_eq c n w a : dict_get n (c_networks c) = Some (w, a) -> address_prefix_of c n = Ok a.
Proof. intros H. unfold address_prefix_of. rewrite H. reflexivity. Qed.
Lemma dict_get_none {A} n (d : list (pystr * A)) : dict_get n d = None <-> ~ In n (List.map fst d).
Proof.
  induction d as [|[k v] d IH]; cbn [dict_get List.map fst In]; [tauto|].
  destruct (str_eqb n k) eqn:E.
  - apply str_eqb_spec in E. split; [discriminate|intros H; exfalso; apply H; left; congruence].
  - apply str_eqb_false in E. rewrite IH. intuition congruence.
Qed.
Lemma dict_get_in {A} n (d : list (pystr * A)) v : dict_get n d = Some v -> In (n, v) d.
Proof.
  induction d as [|[k u] d IH]; cbn [dict_get In]; [discriminate|].
  destruct (str_eqb n k) eqn:E; [apply str_eqb_spec in E; intros H; left; congruence|auto].
Qed.

Lemma wif_name_in c : str_in (wif_name c) WIF_TYPES = true.
Proof. destruct c; reflexivity. Qed.
Lemma wif_types_spec t : str_in t WIF_TYPES = true <-> exists c, t = wif_name c.
Proof.
  split; [|intros [c ->]; apply wif_name_in]. intros H. apply str_in_spec in H. cbn [WIF_TYPES In] in H.
  destruct H as [H|[H|[]]]; [exists false|exists true]; symmetry; exact H.
Qed.
Lemma private_key_to_wif_eq P d k ty c n w a : dict_get n (c_networks c) = Some (w, a) -> 0 <= w ->
  get_bytes d true = Ok k -> List.length k = 32%nat -> private_key_to_wif P d (wif_name ty) c n = Ok (wif_of P w ty k).
Proof.
  intros Hn Hw Hd Hk. unfold private_key_to_wif. rewrite wif_name_in. cbn [negb]. rewrite (wif_prefix_eq _ _ _ _ Hn). cbn [bind].
  rewrite (encode_wif_eq _ _ _ _ Hw Hd Hk). cbn [bind]. destruct ty; reflexivity.
Qed.
Lemma wif_to_private_key_eq s c n w a : dict_get n (c_networks c) = Some (w, a) ->
  wif_to_private_key s c n = let* (k, t, ck) := decode_wif s w in Ok (tohex k).
Proof.
  intros Hn. unfold wif_to_private_key. rewrite (wif_prefix_eq _ _ _ _ Hn). cbn [bind].
  destruct (decode_wif s w) as [[[k t] ck]|e]; cbn [bind]; [apply bytes_to_string_bytes|reflexivity].
Qed.
Lemma get_wif_type_eq s c n w a : dict_get n (c_networks c) = Some (w, a) ->
  get_wif_type s c n = let* (k, t, ck) := decode_wif s w in Ok t.
Proof. intros Hn. unfold get_wif_type. rewrite (wif_prefix_eq _ _ _ _ Hn). reflexivity. Qed.
Lemma get_wif_checksum_eq s c n w a : dict_get n (c_networks c) = Some (w, a) ->
  get_wif_checksum s c n = let* (k, t, ck) := decode_wif s w in Ok (tohex ck).
Proof.
  intros Hn. unfold get_wif_checksum. rewrite (wif_prefix_eq _ _ _ _ Hn). cbn [bind].
  destruct (decode_wif s w) as [[[k t] ck]|e]; cbn [bind]; [apply bytes_to_string_bytes|reflexivity].
Qed.

(** encode_wif with a wrong length *)
Lemma encode_wif_bad P d k wp n : get_bytes d true = Ok k -> List.length k <> 32%nat -> py_len d = Ok n ->
  encode_wif P d wp = Raise (Lib CSecp256k1Error (error_text "Invalid private key length" (str "64") (dec n))).
Proof.
  intros Hd Hk Hl. unfold encode_wif. rewrite Hd. cbn [bind].
  destruct (Nat.eqb_spec (List.length k) 32); [contradiction|]. cbn [negb]. rewrite Hl. cbn [bind]. rewrite lib_error_other. reflexivity.
Qed.

(** ** Addresses, in general *)
(** Reading of the public_key argument *)
Definition key_arg (a : pubkey_arg) (k : pubkey) : Prop :=
  match a with
  | PKObj k' => k' = k
  | PKData d => exists b, get_bytes d true = Ok b /\ PublicKey_from_bytes b = Ok k
  end.
Lemma raw_of k (c : bool) : pk_ok k -> (if c then raw_compressed k else raw_uncompressed k) = Ok (ser c k).
Proof. intros O. destruct c; [apply ser_compressed, O|apply ser_uncompressed, O]. Qed.
Lemma P2PKH_encode_iff P arg k ap ty al s : prims_ok P -> 0 <= default default_address_prefix ap ->
  alphabet_ok (default bitcoin_alphabet al) -> key_arg arg k -> pk_ok k ->
  (P2PKH_encode P arg ap ty al = Ok s <->
   address_text P (default bitcoin_alphabet al) (default default_address_prefix ap)
     (str_eqb (default (str "compressed") ty) (str "compressed")) (pk_x k) (pk_y k) s).
Proof.
  intros HP H HA Hk O. unfold P2PKH_encode. rewrite (pre_eq _ H). cbn [bind].
  replace (match arg with PKObj k0 => Ok k0 | PKData d => let* b := get_bytes d true in PublicKey_from_bytes b end) with (Ok k : res pubkey).
  2:{ destruct arg as [k'|d]; cbn [key_arg] in Hk; [congruence|]. destruct Hk as (b & -> & E). cbn [bind]. symmetry; exact E. }
  cbn [bind]. rewrite raw_of by exact O. cbn [bind]. rewrite hash160_eq by exact HP. cbn [bind].
  rewrite Bitcoin_ALPHABET_is. set (A := default bitcoin_alphabet al) in *. set (c := str_eqb _ _).
  set (z := default default_address_prefix ap) in *.
  unfold ensure_string. transitivity (check_encode P (pre z ++ sha_ripemd P (ser c k)) A = Ok s).
  { destruct (check_encode _ _ _); reflexivity. }
  rewrite (check_encode_iff P A HA). unfold address_text. split.
  - intros T. exists (pre z), (ser c k). split; [apply pre_minimal, H|]. split; [apply ser_serialised, O|exact T].
  - intros (p & l & M & S & T). rewrite (minimal_unique _ _ M), (serialised_unique _ _ _ O S) in T. exact T.
Qed.
Lemma P2PKH_encode_total P arg k ap ty al : prims_ok P -> 0 <= default default_address_prefix ap ->
  alphabet_ok (default bitcoin_alphabet al) -> key_arg arg k -> pk_ok k -> exists s, P2PKH_encode P arg ap ty al = Ok s.
Proof.
  intros HP H HA Hk O.
  destruct (check_encode_total P _ HA (pre (default default_address_prefix ap) ++ sha_ripemd P (ser (str_eqb (default (str "compressed") ty) (str "compressed")) k))) as [s E].
  exists s. apply (P2PKH_encode_iff P arg k); trivial. apply (check_encode_iff P _ HA) in E.
  eexists _, _. split; [apply pre_minimal, H|]. split; [apply ser_serialised, O|exact E].
Qed.

Lemma P2PKH_decode_iff P s ap al h : prims_ok P -> 0 <= default default_address_prefix ap ->
  (P2PKH_decode P s ap al = Ok h <->
   exists h20, List.length h20 = 20%nat /\ h = tohex h20 /\
     check_decode P s (default bitcoin_alphabet al) = Ok (pre (default default_address_prefix ap) ++ h20)).
Proof.
  intros HP H. unfold P2PKH_decode. rewrite (pre_eq _ H). cbn [bind]. rewrite Bitcoin_ALPHABET_is.
  set (z := default default_address_prefix ap) in *. destruct (check_decode P s _) as [d|e]; cbn [bind].
  - destruct (Nat.eqb_spec (List.length d) (20 + List.length (pre z))) as [L|L]; cbn [negb].
    + cbv zeta. destruct (bytes_eqb (pre z) (upto (List.length (pre z)) d)) eqn:E; cbn [negb].
      * apply bytes_eqb_spec in E. rewrite bytes_to_string_bytes. split.
        -- intros X. exists (from (List.length (pre z)) d). split; [rewrite from_length; lia|]. split; [congruence|].
           f_equal. rewrite E at 1. symmetry. apply upto_from.
        -- intros (h20 & _ & -> & X). injection X as ->. rewrite from_app by reflexivity. reflexivity.
      * split; [discriminate|]. intros (h20 & _ & _ & X). injection X as ->. apply bytes_eqb_false in E. exfalso. apply E.
        symmetry. apply upto_app. reflexivity.
    + split; [discriminate|]. intros (h20 & L20 & _ & X). injection X as ->. exfalso. apply L. rewrite app_length. lia.
  - split; [discriminate|]. intros (h20 & _ & _ & X). discriminate.
Qed.
Lemma P2PKH_decode_eq P s ap al : 0 <= default default_address_prefix ap ->
  P2PKH_decode P s ap al =
  match check_decode P s (default bitcoin_alphabet al) with
  | Raise e => Raise e
  | Ok d =>
      let p := pre (default default_address_prefix ap) in
      if Nat.eqb (List.length d) (20 + List.length p) then
        if bytes_eqb p (upto (List.length p) d) then Ok (tohex (from (List.length p) d))
        else Raise (Lib CAddressError (str "Invalid prefix (expected: " ++ bytes_repr p ++ str ", got: " ++ bytes_repr (upto (List.length p) d) ++ str ")")%list)
      else Raise (Lib CAddressError (str "Invalid length (expected: " ++ dec (20 + zlen p) ++ str ", got: " ++ dec (zlen d) ++ str ")")%list)
  end.
Proof.
  intros H. unfold P2PKH_decode. rewrite (pre_eq _ H). cbn [bind]. rewrite Bitcoin_ALPHABET_is.
  destruct (check_decode P s _) as [d|e']; cbn [bind]; [|reflexivity]. cbv zeta.
  replace (Z.of_nat (20 + List.length (pre (default default_address_prefix ap)))) with (20 + zlen (pre (default default_address_prefix ap))) by (unfold zlen; lia).
  destruct (Nat.eqb _ _); cbn [negb]; [|reflexivity]. destruct (bytes_eqb _ _); cbn [negb]; [|reflexivity].
  apply bytes_to_string_bytes.
Qed.

(** ** Shapes of Base58 texts *)
Lemma base_text_digits d s : first_byte d <> x00 -> base58_text d s ->
  exists ds, canonical 58 ds /\ digits_value 58 ds = be2z d /\ s = List.map (letter bitcoin_alphabet) ds.
Proof.
  intros F (k & body & ds & E & _ & C & V & ->). change (zlen bitcoin_alphabet) with 58 in *.
  destruct k as [|k]; [|exfalso; apply F; rewrite E; reflexivity]. exists ds. cbn [repeat app] in *. subst body.
  split; [exact C|]. split; [rewrite V; apply be_value_be2z|reflexivity].
Qed.
Lemma digits58_length d s n lo hi : first_byte d <> x00 -> base58_text d s -> 0 <= n ->
  lo <= be2z d <= hi -> 58 ^ n <= lo -> hi < 58 ^ (n + 1) -> zlen s = n + 1.
Proof.
  intros F T Hn B H1 H2. destruct (base_text_digits d s F T) as (ds & C & V & ->). unfold zlen. rewrite map_length.
  apply (canonical_len_bounds 58 ds n); [lia|exact C|exact Hn|lia].
Qed.
Lemma digits58_prefix d s n lo hi (pd : list Z) : first_byte d <> x00 -> base58_text d s -> 0 <= n ->
  lo <= be2z d <= hi -> 58 ^ n <= lo -> hi < 58 ^ (n + 1) -> zlen pd <= n + 1 ->
  Forall (fun x => 0 <= x < 58) pd ->
  lo / 58 ^ (n + 1 - zlen pd) = digits_value 58 pd -> hi / 58 ^ (n + 1 - zlen pd) = digits_value 58 pd ->
  zlen s = n + 1 /\ exists t, s = List.map (letter bitcoin_alphabet) pd ++ t.
Proof.
  intros F T Hn B H1 H2 Hk Fp E1 E2. split; [apply (digits58_length d s n lo hi); assumption|].
  destruct (base_text_digits d s F T) as (ds & C & V & ->).
  assert (L : zlen ds = n + 1) by (apply (canonical_len_bounds 58 ds n); [lia|exact C|exact Hn|lia]).
  set (k := List.length pd). assert (Hk' : (k <= List.length ds)%nat) by (unfold k, zlen in *; lia).
  exists (List.map (letter bitcoin_alphabet) (skipn k ds)). rewrite <- map_app. f_equal.
  rewrite <- (firstn_skipn k ds) at 1. f_equal.
  assert (Lf : List.length (firstn k ds) = k) by (apply firstn_length_le; exact Hk').
  apply (digits_value_inj 58); [lia| |exact Fp|exact Lf|].
  - destruct C as [Fd _]. rewrite <- (firstn_skipn k ds) in Fd. apply Forall_app in Fd. apply Fd.
  - rewrite (digits_prefix 58 ds k) by (try lia; apply C).
    replace (zlen (skipn k ds)) with (n + 1 - zlen pd) by (unfold zlen in *; rewrite skipn_length; lia).
    rewrite V. assert (0 < 58 ^ (n + 1 - zlen pd)) by (apply Z.pow_pos_nonneg; lia).
    pose proof (Z.div_le_mono lo (be2z d) (58 ^ (n + 1 - zlen pd)) ltac:(lia) ltac:(lia)).
    pose proof (Z.div_le_mono (be2z d) hi (58 ^ (n + 1 - zlen pd)) ltac:(lia) ltac:(lia)). lia.
Qed.
Lemma be2z_prefix_bounds p r : be2z p * 256 ^ zlen r <= be2z (p ++ r) <= (be2z p + 1) * 256 ^ zlen r - 1.
Proof. rewrite be2z_app. pose proof (be2z_bound r). lia. Qed.

(** [shape p r n pd]: p ++ (any r bytes) has n base-58 digits, the first ones pd *)
Definition shape (p : bytes) (r n : Z) (pd : list Z) : bool :=
  let lo := be2z p * 256 ^ r in let hi := (be2z p + 1) * 256 ^ r - 1 in
  (58 ^ (n - 1) <=? lo) && (hi <? 58 ^ n) && (zlen pd <=? n) && forallb (fun x => (0 <=? x) && (x <? 58)) pd &&
  (lo / 58 ^ (n - zlen pd) =? digits_value 58 pd) && (hi / 58 ^ (n - zlen pd) =? digits_value 58 pd).
Lemma shape_ok p r n pd l s : 1 <= n -> shape p r n pd = true -> first_byte (p ++ l) <> x00 -> zlen l = r ->
  base58_text (p ++ l) s -> zlen s = n /\ exists t, s = List.map (letter bitcoin_alphabet) pd ++ t.
Proof.
  unfold shape. cbv zeta. rewrite !andb_true_iff, !Z.leb_le, !Z.eqb_eq, Z.ltb_lt. intros Hn [[[[[H1 H2] H3] H4] H5] H6] F <- T.
  replace n with (n - 1 + 1) by lia. 
  apply (digits58_prefix (p ++ l) s (n - 1) (be2z p * 256 ^ zlen l) ((be2z p + 1) * 256 ^ zlen l - 1) pd);
    try replace (n - 1 + 1) with n by lia; trivial; try lia.
  - apply be2z_prefix_bounds.
  - apply Forall_forall. intros x Hx. rewrite forallb_forall in H4. specialize (H4 x Hx). lia.
Qed.
Definition char_digits (s : pystr) : list Z := List.map (digit bitcoin_alphabet) s.
Lemma letters_of s : List.map (letter bitcoin_alphabet) (char_digits (str s)) = str s ->
  forall p r n l t, 1 <= n -> shape p r n (char_digits (str s)) = true -> first_byte (p ++ l) <> x00 -> zlen l = r ->
  base58_text (p ++ l) t -> zlen t = n /\ exists u, t = str s ++ u.
Proof.
  intros E p r n l t Hn S F L T. destruct (shape_ok p r n _ l t Hn S F L T) as [H [u ->]]. split; [exact H|].
  exists u. rewrite E. reflexivity.
Qed.
(** The four shapes of BIP38 *)
Definition shape_table : list (bytes * string) :=
  [([x01; x42; xc0], "6PR"); ([x01; x42; xe0], "6PY"); ([x01; x43; x00], "6Pf");
   ([x01; x43; x04], "6Pg"); ([x01; x43; x20], "6Pn"); ([x01; x43; x24], "6Po")]%string.
Lemma shape_6P p q l t : In (p, q) shape_table -> zlen l = 40 -> base58_text (p ++ l) t ->
  zlen t = 58 /\ exists u, t = str q ++ u.
Proof.
  intros Hp L T. cbn [shape_table In] in Hp.
  repeat (destruct Hp as [Hp|Hp]; [injection Hp as <- <-;
    (refine (letters_of _ _ _ 40 58 l t _ _ _ L T);
      [vm_compute; reflexivity|lia|vm_compute; reflexivity|discriminate])|]).
  destruct Hp.
Qed.
Lemma shape_cfrm38 l t : zlen l = 50 -> base58_text ([x64; x3b; xf6; xa8; x9a] ++ l) t ->
  zlen t = 75 /\ exists u, t = str "cfrm38" ++ u.
Proof.
  intros L T. refine (letters_of "cfrm38" _ _ 50 75 l t _ _ _ L T);
  [vm_compute; reflexivity|lia|vm_compute; reflexivity|discriminate].
Qed.
Lemma shape_passphrase m l t : m = x51 \/ m = x53 -> zlen l = 45 ->
  base58_text ([x2c; xe9; xb3; xe1; xff; x39; xe2; m] ++ l) t ->
  zlen t = 72 /\ exists u, t = str "passphrase" ++ u.
Proof.
  intros Hm L T. destruct Hm as [-> | ->]; refine (letters_of "passphrase" _ _ 45 72 l t _ _ _ L T);
  (vm_compute; reflexivity) || lia || discriminate.
Qed.
(** WIFs: one prefix byte of at least 0x80 *)
Lemma shape_wif b l t : 128 <= b2z b -> base58_text (b :: l) t ->
  (zlen l = 36 -> zlen t = 51) /\ (zlen l = 37 -> zlen t = 52).
Proof.
  intros Hb T. assert (F : first_byte (b :: l) <> x00) by (cbn [first_byte]; intros ->; cbn in Hb; lia).
  pose proof (be2z_bound l) as Bl. pose proof (b2z_range b) as Rb. split; intros L.
  - apply (digits58_length (b :: l) t 50 (128 * 256 ^ 36) (256 ^ 37 - 1)); trivial; try lia.
    rewrite be2z_cons, L in *. lia.
  - apply (digits58_length (b :: l) t 51 (128 * 256 ^ 37) (256 ^ 38 - 1)); trivial; try lia.
    rewrite be2z_cons, L in *. lia.
Qed.
Lemma shape_wif_small b l t : 1 <= b2z b -> base58_text (b :: l) t ->
  (zlen l = 36 -> 50 <= zlen t <= 51) /\ (zlen l = 37 -> 51 <= zlen t <= 52).
Proof.
  intros Hb T. assert (F : first_byte (b :: l) <> x00) by (cbn [first_byte]; intros ->; cbn in Hb; lia).
  pose proof (be2z_bound l) as Bl. pose proof (b2z_range b) as Rb. pose proof (be2z_cons b l) as V.
  split; intros L; rewrite L in *.
  - destruct (Z_lt_le_dec (be2z (b :: l)) (58 ^ 50)).
    + rewrite (digits58_length (b :: l) t 49 (256 ^ 36) (58 ^ 50 - 1)); trivial; try lia.
    + rewrite (digits58_length (b :: l) t 50 (58 ^ 50) (256 ^ 37 - 1)); trivial; try lia.
  - destruct (Z_lt_le_dec (be2z (b :: l)) (58 ^ 51)).
    + rewrite (digits58_length (b :: l) t 50 (256 ^ 37) (58 ^ 51 - 1)); trivial; try lia.
    + rewrite (digits58_length (b :: l) t 51 (58 ^ 51) (256 ^ 38 - 1)); trivial; try lia.
Qed.
