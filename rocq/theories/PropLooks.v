(** * C107: what every accepted text looks like *)
From Coq Require Import Lia ZifyBool ZifyNat ZifyN.
From Verif Require Import Exceptions ErrorFacts Py Prims Const Spec PyFacts Utils UtilsFacts Base58 Base58Facts Crypto
  Curve SpecCurve CurveFacts Secp256k1 SecpFacts P2PKHAddress Cryptocurrencies Wif Bip38 SpecBip38 SpecRecords SpecReads SpecSession SpecInterop SpecOutcome SpecLetters
  CodecFacts CodecFacts2 ReadFacts Bip38Facts Bip38Facts2 ECFacts Sessions RecordFacts Toy PropBase58 PropAlphabet PropUtils PropCodec PropDecrypt PropIntermediate PropShape PropCreate PropEC PropUnique PropInterop PropSession PropLetters PropKinds PropTypo PropSpace PropNest.

(** ** Facts *)
Lemma reads_text s d : over bitcoin_alphabet s -> base58_reads s d -> base58_text d s.
Proof.
  intros O R. destruct (C02_encode_decode _ s bitcoin_ok O) as (d' & D & E). apply reads58 in R. rewrite R in D. apply Ok_inj in D. subst d'.
  apply (C01_encode_is_base_text _ d s bitcoin_ok), E.
Qed.

(** ** Codes: every text that some session accepts, not only those the library wrote *)
Theorem C107_encrypted_key : forall P s, prims_ok P -> over bitcoin_alphabet s -> accepted P EncryptedKey s -> shaped s 58 "6".
Proof.
  intros P s HP O (self & network & w & a & pw & detail & r & HS & E). destruct (session_net_sel _ _ _ _ HS) as (n & N).
  destruct (decrypt_inv P _ _ _ _ _ _ _ _ _ HP N E) as (p & f & ah & e1 & e2 & ck & c & k & seed & lot & sq & pwb & D & Lp & La & L1 & L2 & Lc & _ & _ & _ & _ & _ & M).
  apply reads_code in D. apply (reads_text _ _ O) in D. unfold shaped.
  refine (letters_of "6" _ p 41 58 ([f] ++ ah ++ e1 ++ e2 ++ ck) s _ _ _ _ D); [vm_compute; reflexivity|lia| | |].
  - destruct M as [(-> & _)|(-> & _)]; vm_compute; reflexivity.
  - destruct M as [(-> & _)|(-> & _)]; discriminate.
  - unfold zlen. rewrite !app_length, La, L1, L2, Lc. reflexivity.
Qed.
(** without EC multiplication the flags are looked at, and with them the third letter; with
    EC multiplication every flag byte is accepted (C49), those of the standard give 6Pf, 6Pg,
    6Pn, 6Po *)
Theorem C107_letters : forall P s d, prims_ok P -> over bitcoin_alphabet s -> accepted P EncryptedKey s -> base58_reads s d ->
  (slice 0 2 d = [x01; x42] -> shaped s 58 "6PR" \/ shaped s 58 "6PY") /\
  (slice 0 2 d = [x01; x43] -> forall q, In (slice 0 3 d, q) [([x01; x43; x00], "6Pf"); ([x01; x43; x04], "6Pg"); ([x01; x43; x20], "6Pn"); ([x01; x43; x24], "6Po")]%string ->
    shaped s 58 q).
Proof.
  intros P s d0 HP O (self & network & w & a & pw & detail & r & HS & E) R0. destruct (session_net_sel _ _ _ _ HS) as (n & N).
  destruct (decrypt_inv P _ _ _ _ _ _ _ _ _ HP N E) as (p & f & ah & e1 & e2 & ck & c & k & seed & lot & sq & pwb & D & Lp & La & L1 & L2 & Lc & _ & _ & _ & _ & _ & M).
  apply reads_code in R0. rewrite R0 in D. apply Ok_inj in D. subst d0. apply reads_code in R0. apply (reads_text _ _ O) in R0.
  set (l := ah ++ e1 ++ e2 ++ ck) in *. assert (L : zlen l = 40) by (unfold l, zlen; rewrite !app_length, La, L1, L2, Lc; reflexivity). clearbody l.
  unfold shaped. destruct M as [(-> & -> & _)|(-> & _)]; (split; [intros S|intros S q I]); try discriminate S.
  - change ([x01; x42] ++ [plain_flag c] ++ l) with ([x01; x42; plain_flag c] ++ l) in R0. destruct c; [right|left].
    + apply (shape_6P [x01; x42; plain_flag true] "6PY" l); [cbn; auto|exact L|exact R0].
    + apply (shape_6P [x01; x42; plain_flag false] "6PR" l); [cbn; auto|exact L|exact R0].
  - change (slice 0 3 ([x01; x43] ++ [f] ++ l)) with [x01; x43; f] in I. apply (shape_6P [x01; x43; f] q l); [|exact L|exact R0].
    cbn [shape_table In] in *. tauto.
Qed.
Theorem C107_intermediate_code : forall P s, prims_ok P -> over bitcoin_alphabet s -> accepted P IntermediateCode s -> shaped s 72 "passphrase".
Proof.
  intros P s HP O (self & network & w & a & random & t & arg & r & HS & E). destruct (session_net_sel _ _ _ _ HS) as (n & N).
  rewrite (create_eq P HP _ _ _ _ _ _ _ _ _ N) in E. destruct (entropy_arg random arg) as [seed0|]; [|discriminate E].
  destruct (check_decode P s base58_alphabet) as [d|e] eqn:D; [|discriminate E].
  unfold create_result in E. destruct (Nat.eqb_spec (List.length d) 49) as [L|L]; [|discriminate E].
  destruct (type_of t) as [c|]; [|discriminate E]. destruct (magic_of (upto 8 d)) as [lot|] eqn:MG; [|discriminate E]. clear E.
  apply magic_of_inv in MG. apply (reads58check P HP) in D. apply (reads_text _ _ O) in D.
  rewrite <- (upto_from 8 d), MG, <- app_assoc in D. unfold shaped.
  apply (shape_passphrase (if lot then x51 else x53) (from 8 d ++ checksum4 P (magic_bytes lot ++ from 8 d))).
  - destruct lot; auto.
  - unfold zlen. rewrite app_length, checksum4_length, from_length by exact HP. lia.
  - destruct lot; exact D.
Qed.
Theorem C107_confirmation_code : forall P s, prims_ok P -> over bitcoin_alphabet s -> accepted P ConfirmationCode s -> shaped s 75 "cfrm38".
Proof.
  intros P s HP O (self & network & w & a & pw & detail & r & HS & E). destruct (session_net_sel _ _ _ _ HS) as (n & N).
  pose proof (confirm_bad P self network n w a s pw detail N) as B. destruct (check_decode P s base58_alphabet) as [d|e] eqn:D; [|rewrite B in E; discriminate E].
  destruct (Nat.eq_dec (List.length d) 51) as [L|L]; [clear B|rewrite (B L) in E; discriminate E].
  destruct (cut 5 d ltac:(lia)) as (p & d1 & -> & Lp). rewrite app_length in L.
  assert (EP : p = [x64; x3b; xf6; xa8; x9a]).
  { destruct d1 as [|f d2]; [cbn in L; lia|]. cbn [List.length] in L.
    destruct (cut 4 d2 ltac:(lia)) as (ah & d3 & -> & La). rewrite app_length in L. destruct (cut 8 d3 ltac:(lia)) as (ent & d4 & -> & Le). rewrite app_length in L.
    destruct d4 as [|b0 d5]; [cbn in L; lia|]. cbn [List.length] in L. destruct (cut 16 d5 ltac:(lia)) as (q1 & q2 & -> & L1). rewrite app_length in L.
    rewrite (confirm_eq P HP self network n w a s p f ah ent b0 q1 q2 pw detail N D Lp La Le L1 ltac:(lia)) in E.
    destruct (bytes_eqb [x64; x3b; xf6; xa8; x9a] p) eqn:Q; [symmetry; apply bytes_eqb_spec, Q|discriminate E]. }
  rewrite EP in *. clear EP. apply (reads58check P HP) in D. apply (reads_text _ _ O) in D. rewrite <- app_assoc in D. unfold shaped.
  apply (shape_cfrm38 (d1 ++ checksum4 P ([x64; x3b; xf6; xa8; x9a] ++ d1))); [|exact D].
  unfold zlen. rewrite app_length, checksum4_length by exact HP. cbn [List.length] in L. lia.
Qed.
(** so a text of another length is not accepted: one character missing, one typed twice *)
Theorem C107_other_length : forall P k s t, prims_ok P -> In k codes -> over bitcoin_alphabet s -> over bitcoin_alphabet t ->
  accepted P k s -> zlen t <> zlen s -> ~ accepted P k t.
Proof.
  intros P k s t HP I O O' A L A'. destruct I as [<-|[<-|[<-|[]]]].
  - destruct (C107_encrypted_key P s HP O A) as [E _], (C107_encrypted_key P t HP O' A') as [E' _]. congruence.
  - destruct (C107_intermediate_code P s HP O A) as [E _], (C107_intermediate_code P t HP O' A') as [E' _]. congruence.
  - destruct (C107_confirmation_code P s HP O A) as [E _], (C107_confirmation_code P t HP O' A') as [E' _]. congruence.
Qed.
(** refusals: decrypt of a text that does not have 58 characters or does not begin with 6 *)
Theorem C107_decrypt_refuses : forall P self network w a s pw detail, prims_ok P -> session self network w a -> over bitcoin_alphabet s ->
  ~ shaped s 58 "6" -> exists e, decrypt P self s pw network detail = Raise e.
Proof.
  intros P self network w a s pw detail HP HS O NS. destruct (decrypt P self s pw network detail) as [r|e] eqn:E; [exfalso|eauto].
  apply NS, (C107_encrypted_key P s HP O). exists self, network, w, a, pw, detail, r. split; assumption.
Qed.

(** ** WIFs and addresses of the coins in the table (SpecLetters.v) *)
Theorem C107_wif : forall s w k compressed ck u v, over bitcoin_alphabet s -> decode_wif s w = Ok (k, wif_name compressed, ck) ->
  In (w, (u, v)) wif_looks -> looks_like s (fst (if compressed then v else u)) (snd (if compressed then v else u)).
Proof.
  intros s w k compressed ck [n l] [n' l'] O E I. pose proof wif_looks_ok as H. rewrite forallb_forall in H. specialize (H _ I).
  rewrite !andb_true_iff, !Z.leb_le in H. destruct H as [[[H1 H2] H3] H4]. apply (C09_decode_wif_exact s w k _ ck ltac:(lia)) in E.
  destruct E as (raw & c & R & T & (p & m & M & Lk & Lc & Lm & ->)).
  assert (c = compressed) by (destruct c, compressed; try reflexivity; vm_compute in T; discriminate T). subst c.
  destruct (minimal_first w p H3 M) as (F & NE & V). apply (reads_text _ _ O) in R.
  apply (looks_ok_text p (if compressed then 37 else 36) _ _ (k ++ m ++ ck)).
  - rewrite V. destruct compressed; assumption.
  - destruct p; [congruence|exact F].
  - unfold zlen. rewrite !app_length, Lk, Lc, Lm. destruct compressed; reflexivity.
  - exact R.
Qed.
Theorem C107_address : forall P s a h, prims_ok P -> 0 <= a -> over bitcoin_alphabet s -> P2PKH_decode P s (Some a) None = Ok h ->
  (forall n letters, In (a, (n, letters)) address_looks -> looks_like s n letters) /\
  (a = 0 -> 25 <= zlen s <= 34 /\ exists rest, s = str "1" ++ rest).
Proof.
  intros P s a h HP Ha O E. assert (Ha0 : 0 <= default default_address_prefix (Some a)) by (cbn [default]; lia).
  apply (P2PKH_decode_iff P _ _ _ _ HP Ha0) in E. cbn [default] in E. destruct E as (x & Lx & _ & E). apply (reads58check P HP) in E.
  unfold base58check_reads in E. rewrite <- app_assoc in E. set (ck := checksum4 P (pre a ++ x)) in E.
  assert (Lc : List.length ck = 4%nat) by (apply checksum4_length; exact HP). clearbody ck. apply (reads_text _ _ O) in E.
  pose proof (pre_minimal a Ha) as M. split.
  - intros n letters I. pose proof address_looks_ok as H. rewrite forallb_forall in H. specialize (H _ I). rewrite !andb_true_iff, !Z.leb_le in H. destruct H as [H1 H2].
    destruct (minimal_first a (pre a) H2 M) as (F & NE & V). apply (looks_ok_text (pre a) 24 _ _ (x ++ ck)).
    + rewrite V. exact H1.
    + destruct (pre a); [congruence|exact F].
    + unfold zlen. rewrite app_length, Lx, Lc. reflexivity.
    + exact E.
  - intros ->. apply (zero_first_text (x ++ ck)); [rewrite app_length, Lx, Lc; reflexivity|exact E].
Qed.
(** every network of every coin is in these tables (C79) *)
