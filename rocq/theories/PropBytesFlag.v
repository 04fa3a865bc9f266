(** * C100: the library under "python -bb" *)
From Coq Require Import Lia ZifyBool ZifyNat ZifyN.
From Verif Require Import Exceptions ErrorFacts Py Prims Const Spec PyFacts Utils UtilsFacts Base58 Base58Facts Crypto
  Curve SpecCurve Secp256k1 P2PKHAddress Cryptocurrencies Wif Bip38 SpecBip38 SpecRecords SpecReads SpecSession SpecOutcome
  CodecFacts CodecFacts2 ReadFacts Bip38Facts Bip38Facts2 Sessions Toy PropBase58 PropUtils PropCodec PropSession PropEC
  BytesFlag.

(** ** What is claimed *)
(** [s] is the Base58 text, with a right checksum, of a payload of as many bytes as a
    confirmation code has, whose first five are [p] and not those of a confirmation code *)
Definition foreign_code (P : prims) (s : pystr) (p : bytes) : Prop :=
  List.length p = 5%nat /\ p <> [x64; x3b; xf6; xa8; x9a] /\
  exists rest, List.length rest = 46%nat /\ base58check_reads P s (p ++ rest).
(** [s] is the text, with a right checksum, of 20 bytes behind a prefix [got] that is as
    long as [pre] and another *)
Definition foreign_address (P : prims) (A : pystr) (pre : bytes) (s : pystr) (got : bytes) : Prop :=
  List.length got = List.length pre /\ got <> pre /\
  exists h, List.length h = 20%nat /\ let d := got ++ h in base_reads A s (d ++ checksum4 P d).

(** ** Facts *)
Lemma startswith_upto p l : startswith p l = true -> upto (List.length p) l = p.
Proof.
  revert l. induction p as [|x p IH]; intros [|y l]; try reflexivity; try discriminate.
  cbn [startswith]. intros H. apply andb_prop in H. destruct H as [E H]. apply Byte.byte_dec_bl in E. subst y.
  unfold upto in *. cbn [List.length firstn]. f_equal. apply IH, H.
Qed.
Lemma decode_wif_same bb s w : decode_wif_bb bb s w = decode_wif s w.
Proof.
  unfold decode_wif_bb, decode_wif. destruct (decode s base58_alphabet) as [raw|e]; cbn [bind]; [|reflexivity].
  destruct (integer_to_bytes w) as [p|e]; cbn [bind]; [|reflexivity]. destruct (startswith p raw) eqn:E; cbn [negb]; [|reflexivity].
  rewrite (startswith_upto _ _ E). cbv zeta. replace (bytes_eqb p p) with true by (symmetry; apply bytes_eqb_spec; reflexivity). reflexivity.
Qed.
Lemma wif_same bb s c n :
  wif_to_private_key_bb bb s c n = wif_to_private_key s c n /\ get_wif_type_bb bb s c n = get_wif_type s c n /\
  get_wif_checksum_bb bb s c n = get_wif_checksum s c n.
Proof.
  unfold wif_to_private_key_bb, wif_to_private_key, get_wif_type_bb, get_wif_type, get_wif_checksum_bb, get_wif_checksum.
  destruct (wif_prefix_of c n) as [w|e]; cbn [bind]; [|auto]. rewrite decode_wif_same. auto.
Qed.
Lemma encrypt_same bb P self wif pw network : encrypt_bb bb P self wif pw network = encrypt P self wif pw network.
Proof.
  unfold encrypt_bb, encrypt. destruct (select_network self network) as [n|e]; cbn [bind]; [|reflexivity].
  destruct (wif_same bb wif (s_cryptocurrency self) n) as (E1 & E2 & _). rewrite E1, E2. reflexivity.
Qed.
Lemma code_cases bb P self pw s network detail :
  confirm_code_bb bb P self pw s network detail = confirm_code P self pw s network detail \/
  exists n d e, bb = Some e /\ select_network self network = Ok n /\ check_decode P s base58_alphabet = Ok d /\ List.length d = 51%nat /\
    upto 5 d <> [x64; x3b; xf6; xa8; x9a] /\ confirm_code_bb bb P self pw s network detail = Raise e.
Proof.
  unfold confirm_code_bb, confirm_code. destruct (select_network self network) as [n|e]; cbn [bind]; [|left; reflexivity].
  destruct (check_decode P s base58_alphabet) as [d|e]; cbn [bind]; [|left; destruct (is_value_error e); reflexivity].
  destruct (Nat.eqb (List.length d) 51) eqn:L; cbn [negb]; [|left; reflexivity]. apply Nat.eqb_eq in L.
  change (integer_to_bytes CONFIRMATION_CODE_PREFIX) with (Ok [x64; x3b; xf6; xa8; x9a] : res bytes). cbn [bind].
  change (List.length [x64; x3b; xf6; xa8; x9a]) with 5%nat.
  destruct (bytes_eqb [x64; x3b; xf6; xa8; x9a] (upto 5 d)) eqn:E; cbn [negb].
  - left. reflexivity.
  - destruct bb as [e|]; cbn [shown bind]; [|left; reflexivity]. right. exists n, d, e. do 4 (split; [first [reflexivity|exact L]|]). split; [|reflexivity].
    intros X. rewrite X in E. discriminate.
Qed.

(** ** Theorems *)
(** Without the flag: the library as it is modelled elsewhere *)
Theorem C100_without : forall P self pw wif s network n c detail a al,
  decode_wif_bb None wif a = decode_wif wif a /\ wif_to_private_key_bb None wif c n = wif_to_private_key wif c n /\
  get_wif_type_bb None wif c n = get_wif_type wif c n /\ get_wif_checksum_bb None wif c n = get_wif_checksum wif c n /\
  encrypt_bb None P self wif pw network = encrypt P self wif pw network /\
  confirm_code_bb None P self pw s network detail = confirm_code P self pw s network detail /\
  (forall p, P2PKH_decode_bb None P s p al = P2PKH_decode P s p al).
Proof.
  intros. split; [apply decode_wif_same|]. destruct (wif_same None wif c n) as (E1 & E2 & E3). do 3 (split; [assumption|]).
  split; [apply encrypt_same|]. split; [reflexivity|]. intros p. reflexivity.
Qed.
(** The functions on WIFs and encrypt: nothing changes, for any text and any prefix *)
Theorem C100_wif : forall bb wif w c n,
  decode_wif_bb bb wif w = decode_wif wif w /\ wif_to_private_key_bb bb wif c n = wif_to_private_key wif c n /\
  get_wif_type_bb bb wif c n = get_wif_type wif c n /\ get_wif_checksum_bb bb wif c n = get_wif_checksum wif c n.
Proof. intros. split; [apply decode_wif_same|]. apply wif_same. Qed.
Theorem C100_encrypt : forall bb P self wif pw network, encrypt_bb bb P self wif pw network = encrypt P self wif pw network.
Proof. intros. apply encrypt_same. Qed.
(** confirm_code: with the flag, a foreign code raises BytesWarning ([e]) in place of
    Error with the bytes in its text; every other call ends as without the flag *)
Theorem C100_confirm_code : forall e P self network pw s detail, prims_ok P ->
  (forall w a p, session self network w a -> foreign_code P s p ->
     confirm_code P self pw s network detail = Raise (Lib CError (error_text "Invalid confirmation code prefix" (str "5") (bytes_repr p))) /\
     confirm_code_bb (Some e) P self pw s network detail = Raise e) /\
  ((forall p, ~ foreign_code P s p) -> confirm_code_bb (Some e) P self pw s network detail = confirm_code P self pw s network detail).
Proof.
  intros e P self network pw s detail HP. split.
  - intros w a p HS (Lp & NE & rest & Lr & D). apply (reads58check P HP) in D. change bitcoin_alphabet with base58_alphabet in D. destruct (session_net_sel _ _ _ _ HS) as (n & N).
    destruct (cut51 (p ++ rest) ltac:(rewrite app_length; lia)) as (p' & f & ah & ent & b0 & q1 & q2 & E & Lp' & La & Le & L1 & L2).
    assert (p' = p) by (apply (f_equal (upto 5)) in E; rewrite !upto_app in E by assumption; congruence). subst p'. pose proof D as D'. rewrite E in D'.
    assert (Q : bytes_eqb [x64; x3b; xf6; xa8; x9a] p = false) by (apply bytes_eqb_neq; congruence). split.
    + rewrite (confirm_eq P HP _ _ _ _ _ _ _ _ _ _ _ _ _ pw detail N D') by trivial. rewrite Q. reflexivity.
    + unfold confirm_code_bb. rewrite (ns_sel _ _ _ _ _ N). cbn [bind]. rewrite D. cbn [bind].
      replace (Nat.eqb _ 51) with true by (rewrite app_length, Lp, Lr; reflexivity). cbn [negb].
      change (integer_to_bytes CONFIRMATION_CODE_PREFIX) with (Ok [x64; x3b; xf6; xa8; x9a] : res bytes). cbn [bind].
      change (List.length [x64; x3b; xf6; xa8; x9a]) with 5%nat. cbv zeta. rewrite upto_app by exact Lp. rewrite Q. reflexivity.
  - intros NF. destruct (code_cases (Some e) P self pw s network detail) as [E|(n & d & e' & _ & _ & D & L & NE & _)]; [exact E|].
    destruct (NF (upto 5 d)). split; [apply upto_length; lia|]. split; [exact NE|]. exists (from 5 d). split; [rewrite from_length; lia|].
    apply (reads58check P HP). rewrite upto_from. exact D.
Qed.
(** P2PKHAddress.decode: with the flag, an address with another prefix of the same length
    raises BytesWarning in place of AddressError; every other call ends as without *)
Theorem C100_address : forall e P s ap al pre, prims_ok P ->
  let prefix := default 0 ap in let A := default bitcoin_alphabet al in 0 <= prefix -> alphabet_ok A -> minimal_bytes prefix pre ->
  (forall got, foreign_address P A pre s got ->
     P2PKH_decode P s ap al = Raise (Lib CAddressError (str "Invalid prefix (expected: " ++ bytes_repr pre ++ str ", got: " ++ bytes_repr got ++ str ")")%list) /\
     P2PKH_decode_bb (Some e) P s ap al = Raise e) /\
  ((forall got, ~ foreign_address P A pre s got) -> P2PKH_decode_bb (Some e) P s ap al = P2PKH_decode P s ap al).
Proof.
  intros e P s ap al p HP prefix A Hp HA M.
  assert (I : integer_to_bytes (default default_address_prefix ap) = Ok p).
  { change (default default_address_prefix ap) with prefix. rewrite (pre_eq _ Hp). f_equal. symmetry. apply (minimal_unique prefix _ M). }
  change (default Bitcoin_ALPHABET al) with A in *.
  split.
  - intros got (L & NE & h & Lh & D). cbv zeta in D. apply (decode_reads A HA) in D. apply (check_decode_decode P HP A) in D.
    unfold P2PKH_decode, P2PKH_decode_bb. rewrite I. cbn [bind]. change (default Bitcoin_ALPHABET al) with A. rewrite D. cbn [bind]. cbv zeta.
    replace (Nat.eqb (List.length (got ++ h)) (20 + List.length p)) with true by (symmetry; apply Nat.eqb_eq; rewrite app_length; lia). cbn [negb].
    rewrite upto_app by exact L. rewrite bytes_eqb_neq by congruence. split; reflexivity.
  - intros NF. unfold P2PKH_decode, P2PKH_decode_bb. rewrite I. cbn [bind]. change (default Bitcoin_ALPHABET al) with A.
    destruct (check_decode P s A) as [d|e'] eqn:D; cbn [bind]; [|reflexivity]. cbv zeta.
    destruct (Nat.eqb (List.length d) (20 + List.length p)) eqn:L; cbn [negb]; [|reflexivity]. apply Nat.eqb_eq in L.
    destruct (bytes_eqb p (upto (List.length p) d)) eqn:E; cbn [negb]; [reflexivity|].
    destruct (NF (upto (List.length p) d)). split; [apply upto_length; lia|]. split; [intros X; rewrite X in E; rewrite (proj2 (bytes_eqb_spec p p) eq_refl) in E; discriminate|].
    exists (from (List.length p) d). split; [rewrite from_length; lia|]. cbv zeta. rewrite upto_from. apply (decode_reads A HA), (check_decode_decode P HP A). exact D.
Qed.

(** ** Examples *)
(** 51 bytes 1 with their checksum are a foreign code, for the toy primitives and any
    others; the Bitcoin testnet address of a hash is one with another prefix on mainnet *)
Example C100_foreign_code : forall P e, prims_ok P -> let s := b58c P (repeat x01 51) in
  foreign_code P s (repeat x01 5) /\
  forall self network w a pw detail, session self network w a ->
  confirm_code P self pw s network detail =
    Raise (Lib CError (str "Invalid confirmation code prefix, (expected: 5 | got: 'b'\x01\x01\x01\x01\x01'')")) /\
  confirm_code_bb (Some e) P self pw s network detail = Raise e.
Proof.
  intros P e HP s.
  assert (F : foreign_code P s (repeat x01 5)).
  { split; [reflexivity|]. split; [discriminate|]. exists (repeat x01 46). split; [reflexivity|]. apply (reads58check P HP).
    apply (check_decode_decode P HP). apply decode_b58. }
  split; [exact F|]. intros self network w a pw detail HS.
  destruct (proj1 (C100_confirm_code e P self network pw s detail HP) w a _ HS F) as [E1 E2].
  split; [|exact E2]. rewrite E1. f_equal.
Qed.
Example C100_toy : exists self w a, session self None w a /\ prims_ok toy.
Proof. exists btc, 0x80, 0. split; [apply btc_session|apply toy_ok]. Qed.
Example C100_foreign_address : forall P e h, prims_ok P -> List.length h = 20%nat -> let s := b58c P ([x6f] ++ h) in
  foreign_address P bitcoin_alphabet [x00] s [x6f] /\
  P2PKH_decode P s None None = Raise (Lib CAddressError (str "Invalid prefix (expected: b'\x00', got: b'o')")) /\
  P2PKH_decode_bb (Some e) P s None None = Raise e /\
  P2PKH_decode_bb (Some e) P s (Some 0x6f) None = Ok (hex h).
Proof.
  intros P e h HP L s.
  assert (D : forall A, A = base58_alphabet -> decode s A = Ok (([x6f] ++ h) ++ checksum4 P ([x6f] ++ h))) by (intros A ->; apply decode_b58).
  assert (F : foreign_address P bitcoin_alphabet [x00] s [x6f]).
  { split; [reflexivity|]. split; [discriminate|]. exists h. split; [exact L|]. cbv zeta. apply (decode_reads bitcoin_alphabet bitcoin_ok). apply D. reflexivity. }
  split; [exact F|].
  destruct (proj1 (C100_address e P s None None [x00] HP ltac:(cbn; lia) bitcoin_ok ltac:(apply (pre_minimal 0); lia)) _ F) as [E1 E2].
  split; [rewrite E1; f_equal|]. split; [exact E2|].
  rewrite (proj2 (C100_address e P s (Some 0x6f) None [x6f] HP ltac:(cbn; lia) bitcoin_ok ltac:(apply (pre_minimal 0x6f); lia))).
  - apply (C11_decode_exact P s (Some 0x6f) None); [exact HP|cbn; lia|exact bitcoin_ok|]. exists [x6f], h.
    split; [apply (pre_minimal 0x6f); lia|]. split; [exact L|]. split; [reflexivity|]. cbv zeta. apply (decode_reads bitcoin_alphabet bitcoin_ok). apply D. reflexivity.
  - intros got (Lg & NE & h' & Lh & R). cbv zeta in R. apply (decode_reads bitcoin_alphabet bitcoin_ok) in R. change (default bitcoin_alphabet None) with base58_alphabet in R.
    rewrite (D bitcoin_alphabet eq_refl) in R. assert (R2 : ([x6f] ++ h) ++ checksum4 P ([x6f] ++ h) = (got ++ h') ++ checksum4 P (got ++ h')) by congruence. clear R. apply NE.
    apply (f_equal (upto 1)) in R2. rewrite <- !app_assoc in R2. rewrite !upto_app in R2 by (trivial; reflexivity). symmetry. exact R2.
Qed.
