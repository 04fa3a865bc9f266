(** * C16-C20, C47: decrypt (bip38.py), for every string and passphrase *)
From Coq Require Import Lia ZifyBool ZifyNat ZifyN.
From Verif Require Import Py Prims Const Spec PyFacts Utils UtilsFacts Base58 Base58Facts
  Curve SpecCurve CurveFacts Secp256k1 SecpFacts Cryptocurrencies Wif Bip38 SpecBip38 SpecRecords SpecSession
  CodecFacts CodecFacts2 Bip38Facts Bip38Facts2 Sessions RecordFacts Toy PropEncrypt SpecReads ReadFacts.

Lemma key_okb_z2be z : 1 <= z < G_order -> key_okb (z2be 32 z) = true.
Proof.
  intros H. unfold key_okb. rewrite z2be_length, (range_256 _ H). change secp_n with G_order. change (32 =? 32)%nat with true. lia.
Qed.

Lemma tohex_inj a b : tohex a = tohex b -> a = b.
Proof. intros H. apply (f_equal fromhex) in H. rewrite !fromhex_tohex in H. congruence. Qed.

(** ** What a successful decryption means *)
Lemma decrypt_inv P self network n w a s pw detail r : prims_ok P -> net_sel self network n w a ->
  decrypt P self s pw network detail = Ok r ->
  exists p f ah e1 e2 ck c k seed lot sq pwb,
    decode s base58_alphabet = Ok (p ++ [f] ++ ah ++ e1 ++ e2 ++ ck) /\
    List.length p = 2%nat /\ List.length ah = 4%nat /\ List.length e1 = 16%nat /\ List.length e2 = 16%nat /\ List.length ck = 4%nat /\
    key_okb k = true /\ ahash P a c (pubof (be2z k)) = ah /\ r = decrypt_value P w a c k seed lot sq detail /\
    passphrase_bytes P pw pwb /\
    (forall self' network' n' w' a' detail', net_sel self' network' n' w' a' -> decrypt P self' s pw network' detail' =
      if bytes_eqb (ahash P a' c (pubof (be2z k))) ah then Ok (decrypt_value P w' a' c k seed lot sq detail')
      else Raise (Lib CPassphraseError "Incorrect passphrase")) /\
    (p = [x01; x42] /\ f = plain_flag c /\ seed = None /\ lot = None /\ sq = None \/
     p = [x01; x43] /\ c = compb f /\ lot = lot_of (lotb f) (upto 8 e1) /\ sq = seq_of (lotb f) (upto 8 e1) /\
     exists sd, seed = Some sd /\ key_okb (pass_factor P (lotb f) pwb (upto 8 e1)) = true /\ key_okb (sha256d P sd) = true /\
       be2z k = (be2z (pass_factor P (lotb f) pwb (upto 8 e1)) * be2z (sha256d P sd)) mod G_order).
Proof.
  intros HP N E. destruct (decode_cases s) as [[d D]|D].
  2:{ unfold decrypt in E. rewrite (ns_sel _ _ _ _ _ N) in E. cbn [bind] in E. rewrite D in E. discriminate. }
  destruct (Nat.eq_dec (List.length d) 43) as [L|L]; [|rewrite (decrypt_bad_length P _ _ _ _ _ _ _ pw detail N D L) in E; discriminate].
  destruct (cut43 d L) as (p & f & ah & e1 & e2 & ck & -> & Lp & La & L1 & L2 & Lc).
  exists p, f, ah, e1, e2, ck.
  rewrite (decrypt_eq P HP _ _ _ _ _ _ _ _ _ _ _ _ pw detail N D Lp La L1 L2 Lc) in E.
  destruct (bytes_eqb p [x01; x42]) eqn:B1; [|destruct (bytes_eqb p [x01; x43]) eqn:B2; [|discriminate E]].
  - unfold decrypt_no_ec_result in E. destruct (Byte.eqb f xc0 || Byte.eqb f xe0) eqn:F; [|discriminate]. cbv zeta in E.
    destruct (utf8_encode (h_nfc P pw)) as [pwb|x] eqn:U; [|discriminate].
    set (k := xor _ _) in E. destruct ((be2z k =? 0) || (N_order <=? be2z k)) eqn:R; [discriminate|].
    destruct (zero_first k) eqn:Z; [discriminate|]. destruct (bytes_eqb _ ah) eqn:A in E; [|discriminate]. injection E as <-.
    assert (Lk : List.length k = 32%nat).
    { destruct (kdf_parts P HP pwb ah) as (K1 & K2 & _). unfold k. rewrite xor_length; rewrite app_length, !(aes_dec_len P HP) by assumption; [reflexivity|].
      rewrite K1. reflexivity. }
    exists (Byte.eqb f xe0), k, None, None, None, pwb.
    split; [exact D|]. do 5 (split; [assumption|]). split; [rewrite (range_okb _ Lk) in R; destruct (key_okb k); [reflexivity|discriminate]|].
    apply bytes_eqb_spec in A. split; [exact A|]. split; [reflexivity|]. split; [exact U|]. split.
    + intros self' network' n' w' a' detail' N'. rewrite (decrypt_eq P HP _ _ _ _ _ _ _ _ _ _ _ _ pw detail' N' D Lp La L1 L2 Lc).
      rewrite B1. unfold decrypt_no_ec_result. rewrite F. cbv zeta. rewrite U. fold k. rewrite R, Z. reflexivity.
    + left. split; [apply bytes_eqb_spec, B1|]. split; [|auto].
      destruct (Byte.eqb f xe0) eqn:F2; [apply byte_eqb_spec in F2; exact F2|]. rewrite orb_false_r in F. apply byte_eqb_spec in F. exact F.
  - unfold decrypt_ec_result in E. destruct (utf8_encode (h_nfc P pw)) as [pwb|x] eqn:U; [|discriminate]. cbv zeta in E.
    set (x := pass_factor P (lotb f) pwb (upto 8 e1)) in *. destruct (key_okb x) eqn:K; [|discriminate].
    set (S := kdf2 P _ ah _) in E. destruct (8 <=? List.length (ec_tail P S e2))%nat eqn:L8; [|discriminate].
    set (sd := ec_seed P S (from 8 e1) e2) in E. destruct (key_okb (sha256d P sd)) eqn:Kf; [|discriminate].
    set (z := (be2z x * be2z (sha256d P sd)) mod G_order) in E.
    assert (Rz : 1 <= z < G_order) by (apply mul_mod_range; apply key_okb_range; assumption).
    destruct (zero_first (z2be 32 z)) eqn:Z; [discriminate|]. destruct (bytes_eqb _ ah) eqn:A in E; [|discriminate]. injection E as <-.
    exists (compb f), (z2be 32 z), (Some sd), (lot_of (lotb f) (upto 8 e1)), (seq_of (lotb f) (upto 8 e1)), pwb.
    split; [exact D|]. do 5 (split; [assumption|]). split; [apply key_okb_z2be, Rz|].
    apply bytes_eqb_spec in A. split; [exact A|]. split; [reflexivity|]. split; [exact U|]. split.
    + intros self' network' n' w' a' detail' N'. rewrite (decrypt_eq P HP _ _ _ _ _ _ _ _ _ _ _ _ pw detail' N' D Lp La L1 L2 Lc).
      rewrite B1, B2. unfold decrypt_ec_result. rewrite U. cbv zeta. fold x. rewrite K. fold S. rewrite L8. fold sd. rewrite Kf. fold z. rewrite Z. reflexivity.
    + right. split; [apply bytes_eqb_spec, B2|]. split; [reflexivity|]. split; [reflexivity|]. split; [reflexivity|].
      exists sd. split; [reflexivity|]. split; [exact K|]. split; [exact Kf|]. apply range_256, Rz.
Qed.

Lemma slice_37 p (f : byte) ah (r : bytes) : List.length p = 2%nat -> List.length ah = 4%nat -> slice 3 7 (p ++ [f] ++ ah ++ r) = ah.
Proof.
  intros Lp La. rewrite app_assoc. unfold slice. rewrite skipn_app, skipn_all2 by (rewrite app_length, Lp; cbn; lia).
  replace (3 - _)%nat with 0%nat by (rewrite app_length, Lp; cbn; lia). cbn [skipn app]. change (7 - 3)%nat with 4%nat. rewrite <- La, firstn_app, Nat.sub_diag, firstn_all. apply app_nil_r.
Qed.
Lemma slice_02 p (r : bytes) : List.length p = 2%nat -> slice 0 2 (p ++ r) = p.
Proof. intros Lp. unfold slice. cbn [skipn]. change (2 - 0)%nat with 2%nat. rewrite <- Lp, firstn_app, Nat.sub_diag, firstn_all. apply app_nil_r. Qed.
Lemma nth_2 p (f : byte) (r : bytes) : List.length p = 2%nat -> nth 2 (p ++ [f] ++ r) x00 = f.
Proof. intros Lp. rewrite app_nth2, Lp by lia. reflexivity. Qed.
Lemma slice_7_15 p (f : byte) ah e1 (r : bytes) : List.length p = 2%nat -> List.length ah = 4%nat -> List.length e1 = 16%nat ->
  slice 7 15 (p ++ [f] ++ ah ++ e1 ++ r) = upto 8 e1.
Proof.
  intros Lp La L1. replace (p ++ [f] ++ ah ++ e1 ++ r) with ((p ++ [f] ++ ah) ++ e1 ++ r) by (rewrite <- !app_assoc; reflexivity).
  unfold slice, upto. assert (L : List.length (p ++ [f] ++ ah) = 7%nat) by (rewrite !app_length, Lp, La; reflexivity).
  rewrite skipn_app, skipn_all2 by lia. rewrite L. cbn [app Nat.sub skipn]. rewrite firstn_app, L1. cbn [Nat.sub firstn]. apply app_nil_r.
Qed.

Lemma skipn_plus {A} m n (l : list A) : skipn m (skipn n l) = skipn (n + m) l.
Proof. revert l. induction n; intros l; [reflexivity|]. destruct l; cbn; [destruct m; reflexivity|apply IHn]. Qed.
Lemma slice_11_15 p (f : byte) ah e1 (r : bytes) : List.length p = 2%nat -> List.length ah = 4%nat -> List.length e1 = 16%nat ->
  slice 11 15 (p ++ [f] ++ ah ++ e1 ++ r) = from 4 (upto 8 e1).
Proof.
  intros Lp La L1. rewrite <- (slice_7_15 p f ah e1 r Lp La L1). unfold slice, from. rewrite skipn_firstn_comm, skipn_plus. reflexivity.
Qed.

(** ** C17: the detail flag only selects what is returned *)
Theorem C17_decrypt_detail : forall P self network s pw, prims_ok P -> constructed self ->
  match decrypt P self s pw network true with
  | Ok (DDetail d) => decrypt P self s pw network false = Ok (DWif (d_wif d))
  | Ok (DWif _) => False
  | Raise e => decrypt P self s pw network false = Raise e
  end.
Proof.
  intros P self network s pw HP HC. destruct (constructed_cases self network HC) as [(n & w & a & N)|N];
    [|rewrite !(decrypt_no_net P self s pw network _ _ N); reflexivity].
  destruct (decrypt P self s pw network true) as [r|e] eqn:E.
  - destruct (decrypt_inv P _ _ _ _ _ _ _ _ _ HP N E) as (p & f & ah & e1 & e2 & ck & c & k & seed & lot & sq & pwb & D & Lp & La & L1 & L2 & Lc & K & A & -> & U & H & _).
    rewrite (H _ _ _ _ _ false N), A. replace (bytes_eqb ah ah) with true by (symmetry; apply bytes_eqb_spec; reflexivity). reflexivity.
  - destruct (decrypt P self s pw network false) as [r|e'] eqn:E'.
    + destruct (decrypt_inv P _ _ _ _ _ _ _ _ _ HP N E') as (p & f & ah & e1 & e2 & ck & c & k & seed & lot & sq & pwb & D & Lp & La & L1 & L2 & Lc & K & A & -> & U & H & _).
      rewrite (H _ _ _ _ _ true N), A in E. replace (bytes_eqb ah ah) with true in E by (symmetry; apply bytes_eqb_spec; reflexivity). discriminate.
    + f_equal. destruct (decode_cases s) as [[d D]|D].
      2:{ unfold decrypt in E, E'. rewrite (ns_sel _ _ _ _ _ N) in E, E'. cbn [bind] in E, E'. rewrite D in E, E'. cbn [bind] in E, E'. congruence. }
      destruct (Nat.eq_dec (List.length d) 43) as [L|L].
      2:{ rewrite (decrypt_bad_length P _ _ _ _ _ _ _ pw true N D L) in E. rewrite (decrypt_bad_length P _ _ _ _ _ _ _ pw false N D L) in E'. congruence. }
      destruct (cut43 d L) as (p & f & ah & e1 & e2 & ck & -> & Lp & La & L1 & L2 & Lc).
      rewrite (decrypt_eq P HP _ _ _ _ _ _ _ _ _ _ _ _ pw true N D Lp La L1 L2 Lc) in E.
      rewrite (decrypt_eq P HP _ _ _ _ _ _ _ _ _ _ _ _ pw false N D Lp La L1 L2 Lc) in E'.
      unfold decrypt_no_ec_result, decrypt_ec_result in *. cbv zeta in *.
      repeat match type of E with
      | (if ?b then _ else _) = _ => destruct b
      | match ?x with Ok _ => _ | Raise _ => _ end = _ => destruct x
      end; congruence.
Qed.

(** ** C16: a key is returned only if its address matches the hash in the input *)
Theorem C16_decrypt_sound : forall P self network w a s pw d, prims_ok P -> session self network w a ->
  decrypt P self s pw network true = Ok (DDetail d) ->
  exists raw k c, base58_reads s raw /\ List.length raw = 43%nat /\ describes P w a c k d /\
    address_hash P (d_address d) = slice 3 7 raw.
Proof.
  intros P self network w a s pw d HP HS E. to_code. destruct (session_net_sel _ _ _ _ HS) as (n & N).
  destruct (decrypt_inv P _ _ _ _ _ _ _ _ _ HP N E) as (p & f & ah & e1 & e2 & ck & c & k & seed & lot & sq & pwb & D & Lp & La & L1 & L2 & Lc & K & A & V & U & H & _).
  destruct (decrypt_value_describes P w a c k seed lot sq (ns_w _ _ _ _ _ N) (ns_a _ _ _ _ _ N) K) as (d' & V' & G & _).
  rewrite V' in V. injection V as <-. exists (p ++ [f] ++ ah ++ e1 ++ e2 ++ ck), k, c. split; [apply reads_code; exact D|].
  split; [rewrite !app_length, Lp, La, L1, L2, Lc; reflexivity|]. split; [exact G|].
  rewrite slice_37 by assumption. destruct G as (_ & _ & _ & _ & G & _). apply key_address_iff in G; [|apply (ns_a _ _ _ _ _ N)].
  destruct G as [_ ->]. exact A.
Qed.
(** ... and without detail, only the WIF of such a key *)
Theorem C16_decrypt_sound_wif : forall P self network w a s pw r, prims_ok P -> session self network w a ->
  decrypt P self s pw network false = Ok r ->
  exists wif raw k c address, r = DWif wif /\ base58_reads s raw /\ List.length raw = 43%nat /\
    wif_text P w c k wif /\ key_address P a c k address /\ address_hash P address = slice 3 7 raw.
Proof.
  intros P self network w a s pw r HP HS E. to_code. pose proof (C17_decrypt_detail P self network s pw HP (session_constructed _ _ _ _ HS)) as H.
  destruct (decrypt P self s pw network true) as [[x|d]|e] eqn:E1; try contradiction; rewrite H in E; [|discriminate].
  injection E as <-. destruct (C16_decrypt_sound P self network w a s pw d HP HS E1) as (raw & k & c & D & L & (W & _ & _ & _ & A & _) & Ah).
  exists (d_wif d), raw, k, c, (d_address d). auto 10.
Qed.
(** The two modes: without EC multiplication the flag byte is 0xC0 or 0xE0 ... *)
Theorem C16_decrypt_sound_mode : forall P self network w a s pw d raw, prims_ok P -> session self network w a ->
  decrypt P self s pw network true = Ok (DDetail d) -> base58_reads s raw ->
  (slice 0 2 raw = [x01; x42] /\ (exists c, nth 2 raw x00 = plain_flag c /\ d_wif_type d = wif_name c) /\
   d_seed d = None /\ d_lot d = None /\ d_sequence d = None) \/
  (** ... with it, the key is the product of the owner's factor and the hash of
      the seed; the lot and sequence numbers are in the last four entropy bytes *)
  (slice 0 2 raw = [x01; x43] /\ exists lot pwb seed e1 e2 k, passphrase_bytes P pw pwb /\ d_seed d = Some (hex seed) /\
     scalar (owner_factor P lot pwb (slice 7 15 raw)) e1 /\ scalar (sha256d P seed) e2 /\
     scalar k ((e1 * e2) mod secp_n) /\ d_private_key d = hex k /\
     if lot then exists l q, d_lot d = Some l /\ d_sequence d = Some q /\ 0 <= q < 4096 /\ l * 4096 + q = be_value (slice 11 15 raw)
     else d_lot d = None /\ d_sequence d = None).
Proof.
  intros P self network w a s pw d raw HP HS E D0. to_code. destruct (session_net_sel _ _ _ _ HS) as (n & N).
  destruct (decrypt_inv P _ _ _ _ _ _ _ _ _ HP N E) as (p & f & ah & e1 & e2 & ck & c & k & seed & lot & sq & pwb & D & Lp & La & L1 & L2 & Lc & K & A & V & U & H & M).
  change bitcoin_alphabet with base58_alphabet in D0. assert (ER : raw = p ++ [f] ++ ah ++ e1 ++ e2 ++ ck) by congruence. subst raw. clear D0.
  destruct (decrypt_value_describes P w a c k seed lot sq (ns_w _ _ _ _ _ N) (ns_a _ _ _ _ _ N) K) as (d' & V' & G & S1 & S2 & S3 & _).
  rewrite V' in V. injection V as <-. rewrite slice_02, nth_2, slice_7_15 by assumption.
  destruct M as [(-> & -> & -> & -> & ->)|(-> & -> & -> & -> & sd & -> & K1 & K2 & KE)].
  - left. split; [reflexivity|]. split; [exists c; split; [reflexivity|]; apply G|]. auto.
  - right. split; [reflexivity|]. exists (lotb f), pwb, sd, (be2z (pass_factor P (lotb f) pwb (upto 8 e1))), (be2z (sha256d P sd)), k.
    split; [exact U|]. split; [exact S1|].
    split; [rewrite owner_factor_eq; apply key_okb_spec, K1|].
    split; [apply key_okb_spec, K2|]. change secp_n with G_order. split; [rewrite <- KE; apply key_okb_spec, K|].
    split; [apply G|]. rewrite S2, S3. unfold lot_of, seq_of. destruct (lotb f); [|auto].
    eexists _, _. split; [reflexivity|]. split; [reflexivity|]. rewrite slice_11_15, be_value_be2z by assumption.
    pose proof (Z.div_mod (be2z (from 4 (upto 8 e1))) 4096 ltac:(lia)). pose proof (Z.mod_pos_bound (be2z (from 4 (upto 8 e1))) 4096 ltac:(lia)). lia.
Qed.

(** ** C18: what is checked before the passphrase is used *)
Theorem C18_wrong_length : forall P self network w a s raw pw detail, session self network w a ->
  base58_reads s raw -> List.length raw <> 43%nat ->
  decrypt P self s pw network detail = Raise (Lib CWIFError (error_text "Invalid encrypted WIF length" (str "43") (dec (zlen raw)))).
Proof.
  intros P self network w a s raw pw detail HS D L. to_code. destruct (session_net_sel _ _ _ _ HS) as (n & N).
  exact (decrypt_bad_length P _ _ _ _ _ _ _ pw detail N D L).
Qed.
Theorem C18_wrong_prefix : forall P self network w a s raw pw detail, prims_ok P -> session self network w a ->
  base58_reads s raw -> List.length raw = 43%nat ->
  slice 0 2 raw <> [x01; x42] -> slice 0 2 raw <> [x01; x43] ->
  decrypt P self s pw network detail = Raise (Lib CError (error_text "Invalid prefix" (str "'0142', '0143'") (hex (slice 0 2 raw)))).
Proof.
  intros P self network w a s raw pw detail HP HS D L H1 H2. to_code. destruct (session_net_sel _ _ _ _ HS) as (n & N).
  destruct (cut43 raw L) as (p & f & ah & e1 & e2 & ck & -> & Lp & La & L1 & L2 & Lc).
  rewrite slice_02 in H1, H2 by assumption.
  rewrite (decrypt_eq P HP _ _ _ _ _ _ _ _ _ _ _ _ pw detail N D Lp La L1 L2 Lc).
  rewrite (bytes_eqb_neq _ _ H1), (bytes_eqb_neq _ _ H2). rewrite slice_02 by assumption. reflexivity.
Qed.
Theorem C18_wrong_flag : forall P self network w a s raw pw detail, prims_ok P -> session self network w a ->
  base58_reads s raw -> List.length raw = 43%nat ->
  slice 0 2 raw = [x01; x42] -> nth 2 raw x00 <> xc0 -> nth 2 raw x00 <> xe0 ->
  decrypt P self s pw network detail = Raise (Lib CError (error_text "Invalid flag" (str "'c0', 'e0'") (hex [nth 2 raw x00]))).
Proof.
  intros P self network w a s raw pw detail HP HS D L H1 H2 H3. to_code. destruct (session_net_sel _ _ _ _ HS) as (n & N).
  destruct (cut43 raw L) as (p & f & ah & e1 & e2 & ck & -> & Lp & La & L1 & L2 & Lc).
  rewrite slice_02 in H1 by assumption. rewrite nth_2 in H2, H3 by assumption.
  rewrite (decrypt_eq P HP _ _ _ _ _ _ _ _ _ _ _ _ pw detail N D Lp La L1 L2 Lc).
  replace (bytes_eqb p [x01; x42]) with true by (symmetry; apply bytes_eqb_spec, H1).
  unfold decrypt_no_ec_result. destruct (Byte.eqb f xc0) eqn:F1; [apply byte_eqb_spec in F1; contradiction|].
  destruct (Byte.eqb f xe0) eqn:F2; [apply byte_eqb_spec in F2; contradiction|]. rewrite nth_2 by assumption. reflexivity.
Qed.
(** Every ASCII string decodes to some bytes, so one of the cases applies; other strings: *)
Theorem C18_ascii_decodes : forall s, is_ascii s -> exists raw, base58_reads s raw.
Proof. intros s I. destruct (decode_ascii58 s I) as [d D]. exists d. apply reads_code, D. Qed.
Theorem C18_not_ascii : forall P self network w a s pw detail, session self network w a -> ~ is_ascii s ->
  decrypt P self s pw network detail = Raise (Builtin UnicodeEncodeError).
Proof.
  intros P self network w a s pw detail HS A. destruct (session_net_sel _ _ _ _ HS) as (n & N).
  exact (decrypt_non_ascii P _ _ _ _ _ _ pw detail N A).
Qed.

(** ** C19: the checksum is never looked at *)
Theorem C19_any_checksum : forall P self network body c1 c2 s1 s2 pw detail, prims_ok P -> constructed self ->
  List.length body = 39%nat -> List.length c1 = 4%nat -> List.length c2 = 4%nat ->
  base58_text (body ++ c1) s1 -> base58_text (body ++ c2) s2 ->
  decrypt P self s1 pw network detail = decrypt P self s2 pw network detail.
Proof.
  intros P self network body c1 c2 s1 s2 pw detail HP HC Lb Lc1 Lc2 T1 T2.
  destruct (constructed_cases self network HC) as [(n & w & a & N)|N]; [|rewrite !(decrypt_no_net P self _ pw network _ _ N); reflexivity].
  rewrite (b58_unique _ _ T1), (b58_unique _ _ T2).
  destruct (cut43 (body ++ c1) ltac:(rewrite app_length; lia)) as (p & f & ah & e1 & e2 & ck & E & Lp & La & L1 & L2 & Lc).
  assert (E' : body ++ c1 = (p ++ [f] ++ ah ++ e1 ++ e2) ++ ck) by (rewrite E, <- !app_assoc; reflexivity).
  assert (EB : body = p ++ [f] ++ ah ++ e1 ++ e2).
  { apply (f_equal (firstn 39)) in E'. rewrite <- Lb in E' at 1. rewrite firstn_app, Nat.sub_diag, firstn_all, app_nil_r in E'.
    rewrite E', firstn_app, firstn_all2 by (rewrite !app_length, Lp, La, L1, L2; cbn; lia).
    replace (39 - _)%nat with 0%nat by (rewrite !app_length, Lp, La, L1, L2; reflexivity). apply app_nil_r. }
  assert (D : forall c, decode (b58 (body ++ c)) base58_alphabet = Ok (p ++ [f] ++ ah ++ e1 ++ e2 ++ c)).
  { intros c. rewrite decode_b58, EB, <- !app_assoc. reflexivity. }
  rewrite (decrypt_eq P HP _ _ _ _ _ _ _ _ _ _ _ _ pw detail N (D c1) Lp La L1 L2 Lc1).
  rewrite (decrypt_eq P HP _ _ _ _ _ _ _ _ _ _ _ _ pw detail N (D c2) Lp La L1 L2 Lc2). reflexivity.
Qed.
(** In particular a damaged encrypted key is accepted. *)
Theorem C19_damaged_key_accepted : forall P self network w a c k s pw e ck, prims_ok P -> session self network w a ->
  List.length k = 32%nat -> wif_text P w c k s -> encrypt P self s pw network = Ok e -> first_byte k <> x00 ->
  List.length ck = 4%nat ->
  exists body e', base58check_text P bitcoin_alphabet body e /\ base58_text (body ++ ck) e' /\ (ck <> checksum4 P body -> e' <> e) /\ decrypt P self e' pw network false = Ok (DWif s).
Proof.
  intros P self network w a c k s pw e ck HP HS L T E Z Lck.
  destruct (C12_roundtrip P self network w a c k s pw e HP HS L T E Z) as [D _].
  pose proof (C14_encrypt_wif P self network w a c k s pw e HP HS L T E) as (address & pwb & A & B & X).
  set (body := plain_record _ _ _ _ _) in X. exists body, (b58 (body ++ ck)).
  assert (T' : base58_text (body ++ ck) (b58 (body ++ ck))) by apply b58_text.
  split; [exact X|]. split; [exact T'|]. split.
  - intros H E'. rewrite (b58c_unique P _ _ X) in E'. apply b58_inj, app_inv_head in E'. contradiction.
  - rewrite <- D. apply (C19_any_checksum P self network body ck (checksum4 P body) _ e pw false HP (session_constructed _ _ _ _ HS)); trivial.
    + destruct (session_net_sel _ _ _ _ HS) as (n & N). apply key_address_iff in A; [|apply (ns_a _ _ _ _ _ N)]. destruct A as [K ->].
      destruct (body_no_ec_split P HP c (ahash P a c (pubof (be2z k))) k pwb (ahash_length P HP _ _ _) L) as (e1 & e2 & EB & L1 & L2 & _).
      unfold body. change (plain_record P c (address_hash P (addr P a c (pubof (be2z k)))) k pwb) with (body_no_ec P c (ahash P a c (pubof (be2z k))) k pwb).
      rewrite EB, !app_length, (ahash_length P HP), L1, L2. reflexivity.
    + apply checksum4_length, HP.
Qed.

(** ** C20: only the normal form of the passphrase matters *)
Theorem C20_normal_form : forall P self pw1 pw2, h_nfc P pw1 = h_nfc P pw2 ->
  (forall random lot sequence salt, intermediate_code P random pw1 lot sequence salt = intermediate_code P random pw2 lot sequence salt) /\
  (forall wif network, encrypt P self wif pw1 network = encrypt P self wif pw2 network) /\
  (forall code network detail, confirm_code P self pw1 code network detail = confirm_code P self pw2 code network detail) /\
  (forall s network detail, decrypt P self s pw1 network detail = decrypt P self s pw2 network detail).
Proof.
  intros P self pw1 pw2 H. assert (S : forall salt n r p l, scrypt_str P pw1 salt n r p l = scrypt_str P pw2 salt n r p l).
  { intros. unfold scrypt_str. rewrite H. reflexivity. }
  assert (DF : forall f e, derive_pass_factor P pw1 f e = derive_pass_factor P pw2 f e).
  { intros f e. unfold derive_pass_factor. destruct (if int_in _ _ then _ else _) as [os ls]. rewrite S. reflexivity. }
  split; [|split; [|split]].
  - intros random lot sequence salt. unfold intermediate_code, scrypt_str. rewrite H. reflexivity.
  - intros wif network. unfold encrypt, scrypt_str. rewrite H. reflexivity.
  - intros code network detail. unfold confirm_code, derive_pass_factor, scrypt_str. rewrite H. reflexivity.
  - intros s network detail. unfold decrypt, decrypt_no_ec, decrypt_ec, derive_pass_factor, scrypt_str. rewrite H. reflexivity.
Qed.

(** ** C47: decryption on another network *)
(** The key found on one network decides what happens on another. *)
Theorem C47_other_network : forall P self network w a self' network' w' a' s pw d c k address', prims_ok P ->
  session self network w a -> session self' network' w' a' ->
  decrypt P self s pw network true = Ok (DDetail d) -> describes P w a c k d -> key_address P a' c k address' ->
  (address_hash P address' = address_hash P (d_address d) ->
     exists d', decrypt P self' s pw network' true = Ok (DDetail d') /\ describes P w' a' c k d' /\ d_address d' = address') /\
  (address_hash P address' <> address_hash P (d_address d) ->
     decrypt P self' s pw network' true = Raise (Lib CPassphraseError "Incorrect passphrase")).
Proof.
  intros P self network w a self' network' w' a' s pw d c k address' HP HS HS' E G A'.
  destruct (session_net_sel _ _ _ _ HS) as (n & N). destruct (session_net_sel _ _ _ _ HS') as (n' & N').
  destruct (decrypt_inv P _ _ _ _ _ _ _ _ _ HP N E) as (p & f & ah & e1 & e2 & ck & c0 & k0 & seed & lot & sq & pwb & D & Lp & La & L1 & L2 & Lc & K & A & V & U & H & _).
  destruct (decrypt_value_describes P w a c0 k0 seed lot sq (ns_w _ _ _ _ _ N) (ns_a _ _ _ _ _ N) K) as (d0 & V0 & G0 & _).
  rewrite V0 in V. injection V as <-.
  assert (c0 = c /\ k0 = k) as [-> ->].
  { destruct G as (_ & G1 & G2 & _). destruct G0 as (_ & G3 & G4 & _). split.
    - rewrite G2 in G4. destruct c0, c; trivial; discriminate.
    - rewrite G1 in G3. apply tohex_inj in G3. congruence. }
  apply key_address_iff in A'; [|apply (ns_a _ _ _ _ _ N')]. destruct A' as [_ ->].
  pose proof G0 as (_ & _ & _ & _ & GA & _). apply key_address_iff in GA; [|apply (ns_a _ _ _ _ _ N)]. destruct GA as [_ GA]. rewrite GA.
  change (address_hash P (addr P a c (pubof (be2z k)))) with (ahash P a c (pubof (be2z k))).
  change (address_hash P (addr P a' c (pubof (be2z k)))) with (ahash P a' c (pubof (be2z k))). rewrite A.
  rewrite (H _ _ _ _ _ true N'). split.
  - intros X. rewrite (proj2 (bytes_eqb_spec _ _) X).
    destruct (decrypt_value_describes P w' a' c k seed lot sq (ns_w _ _ _ _ _ N') (ns_a _ _ _ _ _ N') K) as (d' & V' & G' & _).
    exists d'. rewrite V'. split; [reflexivity|]. split; [exact G'|]. destruct G' as (_ & _ & _ & _ & GA' & _).
    apply key_address_iff in GA'; [|apply (ns_a _ _ _ _ _ N')]. apply GA'.
  - intros X. rewrite (bytes_eqb_neq _ _ X). reflexivity.
Qed.
(** Equal address prefixes: the same key, with the other WIF prefix. *)
Theorem C47_same_address_prefix : forall P self network w a self' network' w' s pw d c k, prims_ok P ->
  session self network w a -> session self' network' w' a ->
  decrypt P self s pw network true = Ok (DDetail d) -> describes P w a c k d ->
  exists d', decrypt P self' s pw network' true = Ok (DDetail d') /\ describes P w' a c k d'.
Proof.
  intros P self network w a self' network' w' s pw d c k HP HS HS' E G.
  pose proof G as (_ & _ & _ & _ & A & _).
  destruct (C47_other_network P self network w a self' network' w' a s pw d c k _ HP HS HS' E G A) as [H _].
  destruct (H eq_refl) as (d' & E' & G' & _). eauto.
Qed.
(** Different address prefixes: the two addresses are different texts. *)
Theorem C47_addresses_differ : forall P a a' c k s s', prims_ok P -> 0 <= a -> 0 <= a' -> a <> a' ->
  key_address P a c k s -> key_address P a' c k s' -> s <> s'.
Proof.
  intros P a a' c k s s' HP Ha Ha' D A A' E. apply key_address_iff in A; [|exact Ha]. apply key_address_iff in A'; [|exact Ha'].
  destruct A as [_ ->]. destruct A' as [_ ->]. apply b58c_inj in E; [|exact HP].
  apply D, pre_inj; trivial. apply (f_equal (upto_neg 20)) in E.
  rewrite !upto_neg_app in E by (apply ripemd_length, HP). exact E.
Qed.

(** ** Concrete cases *)
(** A successful decryption (C16, C17, C19, C47). *)
Lemma toy_decrypts P : prims_ok P -> h_scrypt P = toy_scrypt -> h_nfc P = toy_nfc ->
  exists s e d, wif_text P 0x80 true (repeat x11 32) s /\ encrypt P btc s (str "TestingOneTwoThree") None = Ok e /\
    decrypt P btc e (str "TestingOneTwoThree") None true = Ok (DDetail d) /\ describes P 0x80 0 true (repeat x11 32) d.
Proof.
  intros HP H1 H2.
  assert (K : key_okb (repeat x11 32) = true) by (vm_compute; reflexivity).
  assert (F : Forall (fun x => (x < 128)%N) (str "TestingOneTwoThree")) by (repeat constructor).
  assert (N1 : nth 0 (repeat x11 32) x00 <> x22) by (vm_compute; congruence).
  assert (N2 : nth 16 (repeat x11 32) x00 <> x22) by (vm_compute; congruence).
  assert (L : List.length (repeat x11 32) = 32%nat) by (vm_compute; reflexivity).
  assert (Z : first_byte (repeat x11 32) <> x00) by (vm_compute; congruence).
  revert K N1 N2 L Z. generalize (repeat x11 32). intros k K N1 N2 L Z.
  destruct (toy_encrypts P k (be2z k) true (str "TestingOneTwoThree") HP H1 H2 (proj1 (key_okb_spec k) K) F N1 N2) as (s & e & T & E).
  destruct (C12_roundtrip P btc None 0x80 0 true k s (str "TestingOneTwoThree") e HP btc_session L T E Z) as [_ (d & D & _ & G & _)].
  exists s, e, d. auto.
Qed.
Example C16_example : exists e d, decrypt toy btc e (str "TestingOneTwoThree") None true = Ok (DDetail d) /\ describes toy 0x80 0 true (repeat x11 32) d.
Proof. destruct (toy_decrypts toy toy_ok eq_refl eq_refl) as (s & e & d & T & E & D & G). exists e, d. auto. Qed.
(** A string for each rejection of C18. *)
Example C18_example :
  decrypt toy btc (str "abc") [0xD800%N] None true = Raise (Lib CWIFError "Invalid encrypted WIF length, (expected: 43 | got: '3')") /\
  decrypt toy btc (b58 (repeat x01 43)) [0xD800%N] None true = Raise (Lib CError "Invalid prefix, (expected: '0142', '0143' | got: '0101')") /\
  decrypt toy btc (b58 ([x01; x42] ++ repeat x01 41)) [0xD800%N] None true = Raise (Lib CError "Invalid flag, (expected: 'c0', 'e0' | got: '01')") /\
  decrypt toy btc [0xE9%N] [] None true = Raise (Builtin UnicodeEncodeError).
Proof.
  split; [|split; [|split]].
  - erewrite (C18_wrong_length toy btc None 0x80 0 _ _ _ _ btc_session); [|apply reads_code; vm_compute; reflexivity|vm_compute; congruence]. vm_compute. reflexivity.
  - rewrite (C18_wrong_prefix toy btc None 0x80 0 _ (repeat x01 43) _ _ toy_ok btc_session); [vm_compute; reflexivity|apply reads_b58|reflexivity|vm_compute; congruence|vm_compute; congruence].
  - rewrite (C18_wrong_flag toy btc None 0x80 0 _ ([x01; x42] ++ repeat x01 41) _ _ toy_ok btc_session); [vm_compute; reflexivity|apply reads_b58|reflexivity|reflexivity|vm_compute; congruence|vm_compute; congruence].
  - apply (C18_not_ascii toy btc None 0x80 0 _ _ _ btc_session). intros A. inversion A as [|x l H]. lia.
Qed.
(** Different strings with equal normal forms: U+212B and U+00C5. *)
Example C20_example : h_nfc toy [0x212B%N] = h_nfc toy [0xC5%N] /\ [0x212B%N] <> [0xC5%N].
Proof. split; [reflexivity|discriminate]. Qed.
(** Another network with another prefix, where the hashes differ: with a "hash"
    that keeps the first byte, since Bitcoin addresses start with '1' on the main
    network only. *)
Definition toy1 : prims :=
  {| h_sha256 := fun b => first_byte b :: repeat x00 30 ++ [x01]; h_ripemd160 := None; h_scrypt := toy_scrypt;
     h_aes_enc := toy_enc; h_aes_dec := toy_dec; h_nfc := toy_nfc |}.
Lemma toy1_ok : prims_ok toy1.
Proof. split; [reflexivity|discriminate|exact (scrypt_len toy toy_ok)|exact (aes_enc_len toy toy_ok)|exact (aes_dec_len toy toy_ok)|exact (aes_dec_enc toy toy_ok)]. Qed.
Lemma first_letter P a c k : 0 <= a -> (nth 0 (addr P a c k) 0%N = 49%N <-> a = 0).
Proof.
  intros Ha. unfold addr. pose proof (b58c_text P (pre a ++ sha_ripemd P (ser c k))) as T. revert T. generalize (b58c P (pre a ++ sha_ripemd P (ser c k))). intros t T. split.
  - intros H. destruct (Z.eq_dec a 0) as [|N]; [assumption|exfalso].
    assert (F : first_byte ((pre a ++ sha_ripemd P (ser c k)) ++ checksum4 P (pre a ++ sha_ripemd P (ser c k))) <> x00).
    { destruct (pre_minimal a Ha) as [E S]. destruct (pre a) as [|b r]; [cbn in E; congruence|]. cbn [app first_byte].
      intros ->. unfold shortest in S. cbn [strip_zeros] in S. replace (Byte.eqb x00 x00) with true in S by reflexivity.
      destruct (strip_zeros r) eqn:SZ; [injection S as <-; cbn in E; congruence|].
      assert (Q : (List.length (strip_zeros r) <= List.length r)%nat).
      { clear. induction r as [|x r IH]; [reflexivity|]. cbn [strip_zeros]. destruct (Byte.eqb x x00); cbn [List.length] in *; lia. }
      rewrite SZ, S in Q. cbn [List.length] in Q. lia. }
    destruct T as (n & body & ds & E & Sb & Cn & V & ->). destruct n; [|rewrite E in F; cbn in F; congruence].
    cbn [repeat app] in H. destruct ds as [|d ds]; [cbn in H; discriminate|]. cbn [List.map nth] in H.
    destruct Cn as [R Nz]. inversion R as [|? ? Rd _]; subst. change (zlen bitcoin_alphabet) with 58 in Rd. cbn in Nz.
    assert (X : forallb (fun i => negb (N.eqb (letter bitcoin_alphabet i) 49)) (List.map Z.of_nat (seq 1 57)) = true) by (vm_compute; reflexivity).
    rewrite forallb_forall in X. assert (I : In d (List.map Z.of_nat (seq 1 57))) by (apply in_map_iff; exists (Z.to_nat d); split; [lia|apply in_seq; lia]).
    specialize (X d I). rewrite H in X. discriminate X.
  - intros ->. destruct T as (n & body & ds & E & Sb & Cn & V & ->). change (pre 0) with [x00] in E. destruct n; [|reflexivity].
    exfalso. cbn [repeat app] in E. rewrite <- E in Sb. cbn in Sb.
    assert (Q : forall r : bytes, (List.length (strip_zeros r) <= List.length r)%nat).
    { clear. induction r as [|x r IH]; [reflexivity|]. cbn [strip_zeros]. destruct (Byte.eqb x x00); cbn [List.length] in *; lia. }
    apply (f_equal (@List.length byte)) in Sb. match type of Sb with List.length (strip_zeros ?r) = _ => specialize (Q r) end. cbn [List.length] in Sb. lia.
Qed.
Lemma toy1_hash s : first_byte (address_hash toy1 s) = first_byte (ascii_bytes s).
Proof. reflexivity. Qed.
Lemma toy1_hash_differ s0 s1 : is_ascii s1 -> nth 0 s0 0%N = 49%N -> nth 0 s1 0%N <> 49%N -> address_hash toy1 s1 <> address_hash toy1 s0.
Proof.
  intros AS F0 F1 X. apply (f_equal first_byte) in X. rewrite !toy1_hash in X.
  destruct s0 as [|c0 s0]; [discriminate F0|]. cbn in F0. subst c0.
  destruct s1 as [|c1 s1]; [discriminate X|]. cbn in X, F1. apply F1.
  apply (f_equal Byte.to_N) in X. inversion AS as [|? ? H1 _]; subst. rewrite n2b_spec in X by lia. exact X.
Qed.
Example C47_example : exists e d, decrypt toy1 btc e (str "TestingOneTwoThree") None true = Ok (DDetail d) /\
  decrypt toy1 btc e (str "TestingOneTwoThree") (Some (str "testnet")) true = Raise (Lib CPassphraseError "Incorrect passphrase").
Proof.
  destruct (toy_decrypts toy1 toy1_ok eq_refl eq_refl) as (s & e & d & T & E & D & G). exists e, d. split; [exact D|].
  revert T E D G. generalize (repeat x11 32). intros k T E D G.
  pose proof G as (_ & _ & _ & _ & A & _). apply key_address_iff in A; [|lia]. destruct A as [K A].
  assert (A' : key_address toy1 0x6f true k (addr toy1 0x6f true (pubof (be2z k)))) by (apply key_address_iff; [lia|auto]).
  destruct (C47_other_network toy1 btc None 0x80 0 btc (Some (str "testnet")) 0xef 0x6f e _ d true k _ toy1_ok btc_session btc_testnet_session D G A') as [_ H].
  apply H. clear H. rewrite A. clear.
  pose proof (first_letter toy1 0 true (pubof (be2z k)) ltac:(lia)) as F0. pose proof (first_letter toy1 0x6f true (pubof (be2z k)) ltac:(lia)) as F1.
  assert (AS : is_ascii (addr toy1 0x6f true (pubof (be2z k)))) by (unfold addr, b58c; apply b58_ascii).
  revert F0 F1 AS. generalize (addr toy1 0 true (pubof (be2z k))) (addr toy1 0x6f true (pubof (be2z k))). intros s0 s1 F0 F1 AS.
  apply toy1_hash_differ; [exact AS|apply F0; reflexivity|]. intros X. apply F1 in X. discriminate.
Qed.
