(** * Bip38Facts2: intermediate codes, new encrypted keys, confirmation codes. *)
From Coq Require Import Lia ZifyBool ZifyNat ZifyN Znumtheory.
From Verif Require Import Exceptions ErrorFacts Py Prims Const Spec PyFacts Utils UtilsFacts Base58 Base58Facts
  SpecRipemd Ripemd160 RipemdFacts Crypto Curve SpecCurve CurveFacts CurveFacts2 Secp256k1 SecpFacts
  Cryptocurrencies P2PKHAddress Wif Bip38 SpecBip38 CodecFacts CodecFacts2 Bip38Facts.

Section Facts.
Variable P : prims.
Hypothesis HP : prims_ok P.

Definition magic_bytes (lot : bool) : bytes := [x2c; xe9; xb3; xe1; xff; x39; xe2; if lot then x51 else x53].
Definition entropy_arg (urandom : bytes) (arg : pyarg) : res bytes := if truthy arg then get_bytes arg true else Ok urandom.

(** ** intermediate_code *)
Definition intermediate_result (lot : bool) (pw : pystr) (ent : bytes) : res pystr :=
  match utf8_encode (h_nfc P pw) with
  | Raise e => Raise e
  | Ok pwb =>
      let x := pass_factor P lot pwb ent in
      if key_okb x then Ok (b58c P (magic_bytes lot ++ ent ++ ser true (pubof (be2z x))))
      else Raise (Lib CSecp256k1Error "Invalid private key bytes")
  end.
Lemma intermediate_tail lot x ent :
  (let* sk := PrivateKey_from_bytes x in
   let* pass_point := PrivateKey_public_key sk in
   let* pp := raw_compressed pass_point in
   let* s := check_encode P (magic_bytes lot ++ ent ++ pp) base58_alphabet in
   ensure_string s) =
  if key_okb x then Ok (b58c P (magic_bytes lot ++ ent ++ ser true (pubof (be2z x))))
  else Raise (Lib CSecp256k1Error "Invalid private key bytes").
Proof.
  rewrite PrivateKey_from_bytes_eq. destruct (key_okb x) eqn:K; [|reflexivity]. cbn [bind].
  destruct (key_okb_range x K) as [_ R]. destruct (pubof_ok _ R) as (E & _ & O). rewrite E. cbn [bind].
  rewrite (ser_compressed _ O). cbn [bind]. rewrite check_encode_b58c. reflexivity.
Qed.
Lemma lot_seq_bytes lot sequence : 100000 <= lot <= 999999 -> 0 <= sequence <= 4095 ->
  integer_to_bytes_n (lot * 4096 + sequence) 4 = Ok (z2be 4 (lot * 4096 + sequence)).
Proof.
  intros Hl Hs. apply (integer_to_bytes_n_ok _ 4); [lia|]. change (256 ^ 4) with 4294967296. lia.
Qed.
Lemma intermediate_lot_eq urandom arg salt pw lot sequence :
  entropy_arg urandom arg = Ok salt -> List.length salt = 4%nat \/ List.length salt = 8%nat ->
  100000 <= lot <= 999999 -> 1 <= sequence <= 4095 ->
  intermediate_code P urandom pw (Some lot) (Some sequence) arg =
  intermediate_result true pw (upto 4 salt ++ z2be 4 (lot * 4096 + sequence)).
Proof.
  intros Hs Hn Hl Hq. unfold intermediate_code. fold (entropy_arg urandom arg). rewrite Hs. cbn [bind].
  replace (Nat.eqb (List.length salt) 4 || Nat.eqb (List.length salt) 8) with true by (destruct Hn as [-> | ->]; reflexivity).
  cbn [negb is_none truthy_int orb andb].
  destruct (Z.eqb_spec lot 0); [lia|]. destruct (Z.eqb_spec sequence 0); [lia|]. cbn [negb orb andb].
  rewrite andb_false_r. cbv beta iota.
  destruct (Z.leb_spec 100000 lot); [|lia]. destruct (Z.leb_spec lot 999999); [|lia].
  destruct (Z.leb_spec 0 sequence); [|lia]. destruct (Z.leb_spec sequence 4095); [|lia]. cbn [andb negb].
  unfold intermediate_result. rewrite scrypt_str_eq. destruct (utf8_encode _) as [pwb|e]; [|reflexivity]. cbn [bind].
  rewrite lot_seq_bytes by lia. cbn [bind]. rewrite double_sha256_eq. cbn [bind].
  change (integer_to_bytes MAGIC_LOT_AND_SEQUENCE) with (Ok (magic_bytes true) : res bytes). cbn [bind].
  set (ent := upto 4 salt ++ z2be 4 (lot * 4096 + sequence)). cbv zeta.
  replace (sha256d P (h_scrypt P pwb (upto 4 salt) 16384 8 8 32 ++ ent)) with (pass_factor P true pwb ent).
  - apply intermediate_tail.
  - unfold pass_factor. cbv zeta beta iota. unfold ent at 1. rewrite upto_app; [reflexivity|apply upto_length; destruct Hn; lia].
Qed.
Lemma intermediate_plain_eq urandom arg salt pw lot sequence :
  entropy_arg urandom arg = Ok salt ->
  List.length salt = 8%nat /\ (lot = None \/ lot = Some 0) /\ (sequence = None \/ sequence = Some 0) \/
  (List.length salt = 4%nat \/ List.length salt = 8%nat) /\ (exists l q, lot = Some l /\ sequence = Some q /\ (l = 0 \/ q = 0)) ->
  intermediate_code P urandom pw lot sequence arg = intermediate_result false pw salt.
Proof.
  intros Hs Hn. unfold intermediate_code. fold (entropy_arg urandom arg). rewrite Hs. cbn [bind].
  assert (C : negb (Nat.eqb (List.length salt) 4 || Nat.eqb (List.length salt) 8) = false /\
              Nat.eqb (List.length salt) 4 && (is_none lot || is_none sequence) = false /\
              (truthy_int lot && is_none sequence) || (is_none lot && truthy_int sequence) = false /\
              truthy_int lot && truthy_int sequence = false).
  { destruct Hn as [(L & Hl & Hq)|(L & l & q & -> & -> & Z)].
    - rewrite L. destruct Hl as [-> | ->], Hq as [-> | ->]; repeat split; reflexivity.
    - cbn [is_none truthy_int]. rewrite !andb_false_r. cbn [orb andb]. repeat split.
      + destruct L as [-> | ->]; reflexivity.
      + destruct Z as [-> | ->]; cbn; [reflexivity|apply andb_false_r]. }
  destruct C as (-> & -> & -> & ->). cbv beta iota.
  unfold intermediate_result. rewrite scrypt_str_eq. destruct (utf8_encode _) as [pwb|e]; [|reflexivity]. cbn [bind].
  change (integer_to_bytes MAGIC_NO_LOT_AND_SEQUENCE) with (Ok (magic_bytes false) : res bytes). cbn [bind].
  apply intermediate_tail.
Qed.

(** ** create_new_encrypted_wif *)
Definition flag_ec (lot c : bool) : byte :=
  match lot, c with true, false => x04 | true, true => x24 | false, false => x00 | false, true => x20 end.
Definition mulk (k : pubkey) (e : Z) : pubkey :=
  match ec_mul e (PublicKey_point k) with Aff x y => {| pk_x := x; pk_y := y |} | Inf => {| pk_x := 0; pk_y := 0 |} end.
Lemma mulk_ok k e : pk_ok k -> 1 <= e < G_order ->
  PublicKey_from_point (Point_mul (PublicKey_point k) e) = Ok (mulk k e) /\ pk_ok (mulk k e) /\ PublicKey_point (mulk k e) = ec_mul e (PublicKey_point k).
Proof.
  intros O He. destruct (mul_pub k e O He) as (k' & E & O' & Q). unfold mulk.
  rewrite <- Q. destruct k' as [x y]. unfold PublicKey_point at 2 4 5. cbn [pk_x pk_y]. rewrite E. auto.
Qed.
Lemma mulk_pubof a b : 1 <= a < G_order -> 1 <= b < G_order -> mulk (pubof a) b = pubof ((a * b) mod G_order).
Proof.
  intros Ha Hb. destruct (pubof_ok a Ha) as (_ & _ & Oa). destruct (mulk_ok _ b Oa Hb) as (E & _).
  rewrite (mul_pub_pub a b Ha Hb) in E. congruence.
Qed.
(** exclusive or of strings of any length, right-aligned *)
Definition xor_right (a b : bytes) : bytes :=
  let n := Nat.max (List.length a) (List.length b) in xor (pad_left n a) (pad_left n b).
Lemma xor_right_eq a b : List.length a = List.length b -> xor_right a b = xor a b.
Proof.
  intros L. unfold xor_right. cbv zeta. rewrite L, Nat.max_id. unfold pad_left. rewrite L, Nat.sub_diag. reflexivity.
Qed.
Lemma xor_bytes_right a b : xor_bytes a b = Ok (shortest (xor_right a b)).
Proof. apply xor_bytes_gen. Qed.
Definition enc_block (key m : bytes) : res bytes :=
  if Nat.eqb (List.length (shortest m)) 16 then Ok (h_aes_enc P key (shortest m)) else Raise (Builtin ValueError).
Lemma enc_block_eq key m : aes_encrypt P key (shortest m) = enc_block key m.
Proof. reflexivity. Qed.
Lemma enc_block_16 key m : List.length m = 16%nat ->
  enc_block key m = if zero_first m then Raise (Builtin ValueError) else Ok (h_aes_enc P key m).
Proof. intros L. rewrite <- enc_block_eq. apply aes_encrypt_shortest, L. Qed.

Definition low_bit (b : byte) : byte := if Z.odd (b2z b) then x01 else x00.
Definition last64 (S : bytes) : byte := nth 63 S x00.
Lemma from63 S : List.length S = 64%nat -> from 63 S = [last64 S].
Proof.
  intros L. unfold from, last64. destruct (cut 63 S ltac:(lia)) as (a & b & -> & La). rewrite app_length, La in L.
  destruct b as [|x [|]]; cbn in L; try lia. change (skipn 63 (a ++ [x])) with (from 63 (a ++ [x])). rewrite from_app by exact La.
  rewrite app_nth2, La by lia. reflexivity.
Qed.
Lemma land1 b : Z.land (b2z b) 1 = b2z (low_bit b).
Proof. unfold low_bit. change 1 with (Z.ones 1). rewrite Z.land_ones by lia. change (2 ^ 1) with 2. rewrite Zmod_odd. destruct (Z.odd (b2z b)); reflexivity. Qed.
Lemma one_byte b : integer_to_bytes (b2z b) = Ok [b].
Proof.
  rewrite <- be2z_1, integer_to_bytes_be2z. f_equal. unfold shortest. cbn [strip_zeros].
  destruct (Byte.eqb b x00) eqn:E; [apply byte_eqb_spec in E; subst b|]; reflexivity.
Qed.

Record created := { cr_key : pubkey; cr_ah : bytes; cr_S : bytes; cr_E1 : bytes; cr_E2 : bytes; cr_Q1 : bytes; cr_Q2 : bytes }.
(** The record returned, from its ingredients. *)
Definition new_wif_of (a : Z) (lot c : bool) (ent seed : bytes) (r : created) : new_wif :=
  let B := ser true (pubof (be2z (sha256d P seed))) in
  {| n_encrypted_wif := b58c P ([x01; x43] ++ [flag_ec lot c] ++ cr_ah r ++ ent ++ upto 8 (cr_E1 r) ++ cr_E2 r);
     n_confirmation_code := b58c P ([x64; x3b; xf6; xa8; x9a] ++ [flag_ec lot c] ++ cr_ah r ++ ent
        ++ [byte_xor (low_bit (last64 (cr_S r))) (first_byte B)] ++ cr_Q1 r ++ cr_Q2 r);
     n_public_key := tohex (ser c (cr_key r));
     n_seed := tohex seed;
     n_public_key_type := key_name c;
     n_address := addr P a c (cr_key r) |}.
Definition create_core (a : Z) (lot c : bool) (ent pp seed : bytes) : res new_wif :=
  let fb := sha256d P seed in
  if key_okb fb then
    let* ppk := PublicKey_from_bytes pp in
    let K := mulk ppk (be2z fb) in
    let ah := ahash P a c K in
    let S := kdf2 P pp ah ent in
    let key := from 32 S in
    let B := ser true (pubof (be2z fb)) in
    let* E1 := enc_block key (xor_right (upto 16 seed) (upto 16 S)) in
    let* E2 := enc_block key (xor_right (from 8 E1 ++ from 16 seed) (slice 16 32 S)) in
    let* Q1 := enc_block key (xor (slice 1 17 B) (upto 16 S)) in
    let* Q2 := enc_block key (xor (from 17 B) (slice 16 32 S)) in
    Ok (new_wif_of a lot c ent seed {| cr_key := K; cr_ah := ah; cr_S := S; cr_E1 := E1; cr_E2 := E2; cr_Q1 := Q1; cr_Q2 := Q2 |})
  else Raise (Lib CError "Invalid EC encrypted WIF (Wallet Import Format)").
Definition type_of (t : pystr) : option bool :=
  if str_eqb t (str "wif") then Some false else if str_eqb t (str "wif-compressed") then Some true else None.
Definition magic_of (m : bytes) : option bool :=
  if bytes_eqb m (magic_bytes true) then Some true else if bytes_eqb m (magic_bytes false) then Some false else None.
Definition create_result (a : Z) (t : pystr) (seed d : bytes) : res new_wif :=
  if Nat.eqb (List.length d) 49 then
    match type_of t with
    | None => Raise (Lib CWIFError (error_text "Invalid wif type" (str "'wif', 'wif-compressed'") t))
    | Some c =>
        match magic_of (upto 8 d) with
        | None => Raise (Lib CError (error_text "Invalid magic" (str "'2ce9b3e1ff39e251', '2ce9b3e1ff39e253'") (tohex (upto 8 d))))
        | Some lot => create_core a lot c (slice 8 16 d) (from 16 d) seed
        end
    end
  else Raise (Lib CPassphraseError (error_text "Invalid intermediate passphrase length" (str "49") (dec (zlen d)))).
Lemma ser_true_length k : List.length (ser true k) = 33%nat.
Proof. unfold ser. cbn [List.length]. rewrite z2be_length. reflexivity. Qed.

Lemma create_eq urandom self network n w a code t arg :
  net_sel self network n w a ->
  create_new_encrypted_wif P urandom self code t arg network =
  match entropy_arg urandom arg with
  | Raise e => Raise e
  | Ok seed =>
      match check_decode P code base58_alphabet with
      | Raise _ => Raise (Lib CPassphraseError "Invalid intermediate passphrase")
      | Ok d => create_result a t seed d
      end
  end.
Proof.
  intros N. unfold create_new_encrypted_wif. rewrite (ns_sel _ _ _ _ _ N). cbn [bind]. fold (entropy_arg urandom arg).
  destruct (entropy_arg urandom arg) as [seed|e]; cbn [bind]; [|reflexivity].
  destruct (check_decode P code base58_alphabet) as [d|e] eqn:D.
  2:{ apply (check_decode_err P _ bitcoin_ok) in D. destruct D as [[-> _]|[-> _]]; reflexivity. }
  cbn [bind]. unfold create_result. destruct (Nat.eqb_spec (List.length d) 49) as [L|L]; cbn [negb]; [|rewrite lib_error_other; reflexivity].
  cbv zeta. unfold type_of.
  rewrite (lib_error_list CWIFError "Invalid wif type" WIF_TYPES) by discriminate.
  replace (quoted_list WIF_TYPES) with (str "'wif', 'wif-compressed'") by reflexivity.
  replace (if str_eqb t (str "wif") then Ok (str "uncompressed")
     else if str_eqb t (str "wif-compressed") then Ok (str "compressed") else Raise (Lib CWIFError (error_text "Invalid wif type" (str "'wif', 'wif-compressed'") t)))
  with (match type_of t with None => Raise (Lib CWIFError (error_text "Invalid wif type" (str "'wif', 'wif-compressed'") t)) | Some c => Ok (key_name c) end).
  2:{ unfold type_of. destruct (str_eqb t (str "wif")); [reflexivity|]. destruct (str_eqb t _); reflexivity. }
  fold (type_of t). destruct (type_of t) as [c|]; cbn [bind]; [|reflexivity].
  rewrite (not_one_of_eq "Invalid magic" _ _ _ (magic_bytes true) (magic_bytes false)) by reflexivity.
  replace (quoted_list [tohex (magic_bytes true); tohex (magic_bytes false)]) with (str "'2ce9b3e1ff39e251', '2ce9b3e1ff39e253'") by reflexivity.
  change (integer_to_bytes MAGIC_LOT_AND_SEQUENCE) with (Ok (magic_bytes true) : res bytes).
  change (integer_to_bytes MAGIC_NO_LOT_AND_SEQUENCE) with (Ok (magic_bytes false) : res bytes). cbn [bind].
  transitivity (
    let* flag := match magic_of (upto 8 d) with None => Raise (Lib CError (error_text "Invalid magic" (str "'2ce9b3e1ff39e251', '2ce9b3e1ff39e253'") (tohex (upto 8 d)))) | Some lot => Ok [flag_ec lot c] end in
    match magic_of (upto 8 d) with None => Raise (Lib CError (error_text "Invalid magic" (str "'2ce9b3e1ff39e251', '2ce9b3e1ff39e253'") (tohex (upto 8 d)))) | Some lot => create_core a lot c (slice 8 16 d) (from 16 d) seed end).
  2:{ destruct (magic_of (upto 8 d)); reflexivity. }
  transitivity (
    let* flag := match magic_of (upto 8 d) with None => Raise (Lib CError (error_text "Invalid magic" (str "'2ce9b3e1ff39e251', '2ce9b3e1ff39e253'") (tohex (upto 8 d)))) | Some lot => Ok [flag_ec lot c] end in
    let ent := slice 8 16 d in let pp := from 16 d in
    let* factor_b := double_sha256 P (PBytes seed) in
    if negb ((0 <? bytes_to_integer factor_b) && (bytes_to_integer factor_b <? N_order))
    then Raise (Lib CError "Invalid EC encrypted WIF (Wallet Import Format)")
    else
    let* ppk := PublicKey_from_bytes pp in
    let* public_key := PublicKey_from_point (Point_mul (PublicKey_point ppk) (bytes_to_integer factor_b)) in
    let* address := address_of P self n public_key (key_name c) in
    let* address_hash := address_hash_of P address in
    let S := h_scrypt P pp (address_hash ++ ent) 1024 1 1 64 in
    let* aes := aes_new (from 32 S) in
    let* m1 := xor_bytes (upto 16 seed) (upto 16 S) in
    let* E1 := aes_encrypt P aes m1 in
    let* m2 := xor_bytes (from 8 E1 ++ from 16 seed) (slice 16 32 S) in
    let* E2 := aes_encrypt P aes m2 in
    let* ec_prefix := integer_to_bytes EC_MULTIPLIED_PRIVATE_KEY_PREFIX in
    let* ew := check_encode P (ec_prefix ++ flag ++ address_hash ++ ent ++ upto 8 E1 ++ E2) base58_alphabet in
    let* encrypted_wif := ensure_string ew in
    let* fb := PrivateKey_from_bytes factor_b in
    let* fbp := PrivateKey_public_key fb in
    let* point_b := raw_compressed fbp in
    let* point_b_prefix :=
      integer_to_bytes (Z.lxor (Z.land (bytes_to_integer (from 63 S)) 1) (bytes_to_integer (upto 1 point_b))) in
    let* m3 := xor_bytes (slice 1 17 point_b) (upto 16 S) in
    let* Q1 := aes_encrypt P aes m3 in
    let* m4 := xor_bytes (from 17 point_b) (slice 16 32 S) in
    let* Q2 := aes_encrypt P aes m4 in
    let* cfrm_prefix := integer_to_bytes CONFIRMATION_CODE_PREFIX in
    let* cc := check_encode P (cfrm_prefix ++ flag ++ address_hash ++ ent ++ point_b_prefix ++ Q1 ++ Q2) base58_alphabet in
    let* confirmation_code := ensure_string cc in
    let* pkr := PublicKey_raw public_key (key_name c) in
    let* pks := bytes_to_string (PBytes pkr) in
    let* seed_s := bytes_to_string (PBytes seed) in
    Ok {| n_encrypted_wif := encrypted_wif; n_confirmation_code := confirmation_code; n_public_key := pks;
          n_seed := seed_s; n_public_key_type := key_name c; n_address := address |}).
  { unfold magic_of. destruct (bytes_eqb (upto 8 d) (magic_bytes true)); [destruct c; reflexivity|].
    destruct (bytes_eqb (upto 8 d) (magic_bytes false)); [destruct c; reflexivity|reflexivity]. }
  destruct (magic_of (upto 8 d)) as [lot|]; cbn [bind]; [|reflexivity]. cbv zeta.
  unfold create_core. set (ent := slice 8 16 d). set (pp := from 16 d).
  rewrite double_sha256_eq. cbn [bind]. set (fb := sha256d P seed). change bytes_to_integer with be2z.
  rewrite range_okb' by (apply sha256d_length, HP). destruct (key_okb fb) eqn:KF; cbn [negb]; [|reflexivity].
  destruct (key_okb_range fb KF) as [Lfb RF].
  destruct (PublicKey_from_bytes pp) as [ppk|e] eqn:Ep; cbn [bind]; [|reflexivity].
  pose proof (proj1 (proj1 (PublicKey_from_bytes_iff _ _) Ep)) as Op.
  destruct (mulk_ok ppk (be2z fb) Op RF) as (Em & Om & _). rewrite Em. cbn [bind]. set (K := mulk ppk (be2z fb)) in *.
  rewrite (address_of_eq P HP _ _ _ _ _ c _ N Om). cbn [bind]. rewrite address_hash_of_eq. cbn [bind].
  set (ah := ahash P a c K). change (h_scrypt P pp (ah ++ ent) 1024 1 1 64) with (kdf2 P pp ah ent).
  destruct (kdf2_parts P HP pp ah ent) as (K1 & K2 & K3). pose proof (kdf2_length P HP pp ah ent) as K0.
  set (S := kdf2 P pp ah ent) in *. rewrite aes_new_32 by exact K3. cbn [bind].
  rewrite xor_bytes_right. cbn [bind]. rewrite enc_block_eq.
  destruct (enc_block (from 32 S) (xor_right (upto 16 seed) (upto 16 S))) as [E1|e]; cbn [bind]; [|reflexivity].
  rewrite xor_bytes_right. cbn [bind]. rewrite enc_block_eq.
  destruct (enc_block (from 32 S) (xor_right (from 8 E1 ++ from 16 seed) (slice 16 32 S))) as [E2|e]; cbn [bind]; [|reflexivity].
  change (integer_to_bytes EC_MULTIPLIED_PRIVATE_KEY_PREFIX) with (Ok [x01; x43] : res bytes). cbn [bind].
  rewrite check_encode_b58c. cbn [bind ensure_string]. rewrite PrivateKey_from_bytes_eq, KF. cbn [bind].
  destruct (pubof_ok _ RF) as (E & _ & OB). rewrite E. cbn [bind]. rewrite (ser_compressed _ OB). cbn [bind].
  set (B := ser true (pubof (be2z fb))). pose proof (ser_true_length (pubof (be2z fb))) as LB. fold B in LB.
  assert (EB : upto 1 B = [first_byte B]) by (destruct B as [|b0 B']; [discriminate|reflexivity]).
  rewrite EB, from63 by exact K0. rewrite !be2z_1, land1, <- b2z_xor, one_byte. cbn [bind].
  rewrite xor_bytes_eq by (rewrite K1, slice_length by lia; reflexivity). cbn [bind]. rewrite enc_block_eq.
  destruct (enc_block (from 32 S) (xor (slice 1 17 B) (upto 16 S))) as [Q1|e]; cbn [bind]; [|reflexivity].
  rewrite xor_bytes_eq by (rewrite K2, from_length; lia). cbn [bind]. rewrite enc_block_eq.
  destruct (enc_block (from 32 S) (xor (from 17 B) (slice 16 32 S))) as [Q2|e]; cbn [bind]; [|reflexivity].
  change (integer_to_bytes CONFIRMATION_CODE_PREFIX) with (Ok [x64; x3b; xf6; xa8; x9a] : res bytes). cbn [bind].
  rewrite check_encode_b58c. cbn [bind ensure_string]. rewrite public_raw_eq by exact Om. cbn [bind].
  rewrite !bytes_to_string_bytes. reflexivity.
Qed.

(** ** confirm_code *)
Definition confirm_value (a : Z) (c : bool) (K : pubkey) (lot sequence : option Z) (detail : bool) : confirm_result :=
  if detail then CDetail {| c_public_key := tohex (ser c K);
                            c_public_key_type := key_name c;
                            c_address := addr P a c K;
                            c_lot := lot;
                            c_sequence := sequence |}
  else CAddress (addr P a c K).
Definition point_b_of (S : bytes) (b0 : byte) (q1 q2 : bytes) : bytes :=
  [byte_xor b0 (low_bit (last64 S))] ++ shortest (xor (h_aes_dec P (from 32 S) q1) (upto 16 S))
  ++ shortest (xor (h_aes_dec P (from 32 S) q2) (slice 16 32 S)).
Definition confirm_core (a : Z) (f : byte) (ah ent : bytes) (b0 : byte) (q1 q2 : bytes) (pw : pystr) (detail : bool) : res confirm_result :=
  match utf8_encode (h_nfc P pw) with
  | Raise e => Raise e
  | Ok pwb =>
      let x := pass_factor P (lotb f) pwb ent in
      if key_okb x then
        let S := kdf2 P (ser true (pubof (be2z x))) ah ent in
        match PublicKey_from_bytes (point_b_of S b0 q1 q2) with
        | Raise _ => Raise (Lib CPassphraseError "Incorrect passphrase")
        | Ok B =>
            let K := mulk B (be2z x) in
            if bytes_eqb (ahash P a (compb f) K) ah
            then Ok (confirm_value a (compb f) K (lot_of (lotb f) ent) (seq_of (lotb f) ent) detail)
            else Raise (Lib CPassphraseError "Incorrect passphrase")
        end
      else Raise (Lib CError "Invalid EC encrypted WIF (Wallet Import Format)")
  end.
Lemma cut51 (d : bytes) : List.length d = 51%nat -> exists p f ah ent b0 q1 q2,
  d = p ++ [f] ++ ah ++ ent ++ [b0] ++ q1 ++ q2 /\ List.length p = 5%nat /\ List.length ah = 4%nat /\
  List.length ent = 8%nat /\ List.length q1 = 16%nat /\ List.length q2 = 16%nat.
Proof.
  intros L. destruct (cut 5 d ltac:(lia)) as (p & d1 & -> & Lp). rewrite app_length in L.
  destruct d1 as [|f d2]; [cbn in L; lia|]. cbn [List.length] in L.
  destruct (cut 4 d2 ltac:(lia)) as (ah & d3 & -> & La). rewrite app_length in L.
  destruct (cut 8 d3 ltac:(lia)) as (ent & d4 & -> & Le). rewrite app_length in L.
  destruct d4 as [|b0 d5]; [cbn in L; lia|]. cbn [List.length] in L.
  destruct (cut 16 d5 ltac:(lia)) as (q1 & q2 & -> & L1). rewrite app_length in L.
  exists p, f, ah, ent, b0, q1, q2. repeat split; trivial; lia.
Qed.
Lemma parts51 p (f : byte) ah ent (b0 : byte) q1 q2 : List.length p = 5%nat -> List.length ah = 4%nat -> List.length ent = 8%nat ->
  let d := p ++ [f] ++ ah ++ ent ++ [b0] ++ q1 ++ q2 in
  upto 5 d = p /\ slice 5 6 d = [f] /\ slice 6 10 d = ah /\ slice 10 18 d = ent /\ from 18 d = [b0] ++ q1 ++ q2.
Proof.
  intros Lp La Le d. repeat split.
  - apply upto_app, Lp.
  - apply (slice_app 5 6 p [f]); [exact Lp|reflexivity].
  - unfold d. rewrite app_assoc. apply (slice_app 6 10 (p ++ [f]) ah); [rewrite app_length, Lp; reflexivity|exact La].
  - unfold d. rewrite (app_assoc p), (app_assoc (p ++ _)). apply slice_app; [rewrite !app_length, Lp, La; reflexivity|exact Le].
  - unfold d. rewrite (app_assoc p), (app_assoc (p ++ _)), (app_assoc ((p ++ _) ++ _)).
    apply from_app. rewrite !app_length, Lp, La, Le; reflexivity.
Qed.
Lemma confirm_eq self network n w a s p f ah ent b0 q1 q2 pw detail : net_sel self network n w a ->
  check_decode P s base58_alphabet = Ok (p ++ [f] ++ ah ++ ent ++ [b0] ++ q1 ++ q2) ->
  List.length p = 5%nat -> List.length ah = 4%nat -> List.length ent = 8%nat -> List.length q1 = 16%nat -> List.length q2 = 16%nat ->
  confirm_code P self pw s network detail =
  if bytes_eqb [x64; x3b; xf6; xa8; x9a] p then confirm_core a f ah ent b0 q1 q2 pw detail
  else Raise (Lib CError (error_text "Invalid confirmation code prefix" (str "5") (bytes_repr p))).
Proof.
  intros N D Lp La Le L1 L2. unfold confirm_code. rewrite (ns_sel _ _ _ _ _ N). cbn [bind]. rewrite D. cbn [bind].
  replace (Nat.eqb _ 51) with true by (rewrite !app_length, Lp, La, Le, L1, L2; reflexivity). cbn [negb].
  change (integer_to_bytes CONFIRMATION_CODE_PREFIX) with (Ok [x64; x3b; xf6; xa8; x9a] : res bytes). cbn [bind].
  change (List.length [x64; x3b; xf6; xa8; x9a]) with 5%nat.
  destruct (parts51 p f ah ent b0 q1 q2 Lp La Le) as (Sp & Sf & Sa & Se & Sb). cbv zeta.
  rewrite Sp, Sf, Sa, Se, Sb. destruct (bytes_eqb [x64; x3b; xf6; xa8; x9a] p); cbn [negb].
  2:{ change (zlen [x64; x3b; xf6; xa8; x9a]) with 5. change (negb (5 =? 0)) with true. rewrite lib_error_other.
      replace (dec 5) with (str "5") by (vm_compute; reflexivity). reflexivity. }
  unfold confirm_core. rewrite (derive_eq P HP pw f ent Le). destruct (utf8_encode _) as [pwb|e]; cbn [bind]; [|reflexivity].
  cbv zeta. set (x := pass_factor P (lotb f) pwb ent). destruct (key_okb x) eqn:K; cbn [bind]; [|reflexivity].
  rewrite PrivateKey_from_bytes_eq, K. cbn [bind]. destruct (key_okb_range x K) as [Lx Rx].
  destruct (pubof_ok _ Rx) as (E & _ & O). rewrite E. cbn [bind]. rewrite (ser_compressed _ O). cbn [bind].
  change (h_scrypt P (ser true (pubof (be2z x))) (ah ++ ent) 1024 1 1 64) with (kdf2 P (ser true (pubof (be2z x))) ah ent).
  destruct (kdf2_parts P HP (ser true (pubof (be2z x))) ah ent) as (K1 & K2 & K3).
  pose proof (kdf2_length P HP (ser true (pubof (be2z x))) ah ent) as K0.
  set (S := kdf2 P _ ah ent) in *. rewrite aes_new_32 by exact K3. cbn [bind].
  rewrite (slice_app 1 17 [b0] q1 q2) by (trivial; reflexivity).
  replace (from 17 ([b0] ++ q1 ++ q2)) with q2 by (rewrite app_assoc, from_app by (rewrite app_length, L1; reflexivity); reflexivity).
  rewrite !aes_decrypt_ok by assumption. cbn [bind].
  assert (D1 : List.length (h_aes_dec P (from 32 S) q1) = 16%nat) by (apply (aes_dec_len P HP); assumption).
  assert (D2 : List.length (h_aes_dec P (from 32 S) q2) = 16%nat) by (apply (aes_dec_len P HP); assumption).
  rewrite !xor_bytes_eq by congruence. cbn [bind]. change (upto 1 ([b0] ++ q1 ++ q2)) with [b0]. change bytes_to_integer with be2z.
  rewrite from63 by exact K0. rewrite !be2z_1, land1, <- b2z_xor, one_byte. cbn [bind].
  change ([byte_xor b0 (low_bit (last64 S))] ++ shortest (xor (h_aes_dec P (from 32 S) q1) (upto 16 S))
    ++ shortest (xor (h_aes_dec P (from 32 S) q2) (slice 16 32 S))) with (point_b_of S b0 q1 q2).
  destruct (PublicKey_from_bytes (point_b_of S b0 q1 q2)) as [B|e] eqn:EB; cbn [bind].
  2:{ apply PublicKey_from_bytes_err in EB. subst e. reflexivity. }
  pose proof (proj1 (proj1 (PublicKey_from_bytes_iff _ _) EB)) as OB.
  destruct (mulk_ok B (be2z x) OB Rx) as (Em & Om & _). rewrite Em. cbn [bind]. fold (compb f).
  replace (if compb f then str "compressed" else str "uncompressed") with (key_name (compb f)) by (destruct (compb f); reflexivity).
  rewrite (address_of_eq P HP _ _ _ _ _ (compb f) _ N Om). cbn [bind]. rewrite address_hash_of_eq. cbn [bind].
  destruct (bytes_eqb _ ah); [|reflexivity]. rewrite split_eq by exact Le. rewrite public_raw_eq by exact Om. cbn [bind].
  rewrite bytes_to_string_bytes. unfold confirm_value, lot_of, seq_of. destruct detail; [|reflexivity]. destruct (lotb f); reflexivity.
Qed.
Lemma confirm_bad self network n w a s pw detail : net_sel self network n w a ->
  match check_decode P s base58_alphabet with
  | Raise _ => confirm_code P self pw s network detail = Raise (Lib CError "Invalid confirmation code")
  | Ok d => List.length d <> 51%nat -> confirm_code P self pw s network detail = Raise (Lib CError (error_text "Invalid confirmation code length" (str "102") (dec (zlen d))))
  end.
Proof.
  intros N. unfold confirm_code. rewrite (ns_sel _ _ _ _ _ N). cbn [bind].
  destruct (check_decode P s base58_alphabet) as [d|e] eqn:D; cbn [bind].
  - intros L. destruct (Nat.eqb_spec (List.length d) 51); [contradiction|]. cbn [negb]. rewrite lib_error_other. reflexivity.
  - apply (check_decode_err P _ bitcoin_ok) in D. destruct D as [[-> _]|[-> _]]; reflexivity.
Qed.
End Facts.
