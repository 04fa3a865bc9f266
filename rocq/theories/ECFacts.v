(** * ECFacts: keys created from intermediate codes, and their decryption. *)
From Coq Require Import Lia ZifyBool ZifyNat ZifyN.
From Verif Require Import Py Prims Const Spec PyFacts Utils UtilsFacts Base58 Base58Facts
  Curve SpecCurve CurveFacts CurveFacts2 Secp256k1 SecpFacts Cryptocurrencies Wif Bip38 SpecBip38 SpecRecords SpecSession
  CodecFacts CodecFacts2 Bip38Facts Bip38Facts2 Sessions RecordFacts.

Lemma shortest_pad n l : shortest (pad_left n l) = shortest l.
Proof. unfold shortest, pad_left. rewrite strip_repeat. reflexivity. Qed.
Lemma xor_right_pad a b : (List.length a <= List.length b)%nat -> xor_right a b = xor (pad_left (List.length b) a) b.
Proof.
  intros L. unfold xor_right. cbv zeta. rewrite Nat.max_r by exact L. f_equal. unfold pad_left. rewrite Nat.sub_diag. reflexivity.
Qed.
Lemma xor_right_back a b : (List.length a <= List.length b)%nat -> xor (xor_right a b) b = pad_left (List.length b) a.
Proof. intros L. rewrite xor_right_pad by exact L. apply xor_cancel, pad_left_length, L. Qed.
Lemma xor_right_length a b : (List.length a <= List.length b)%nat -> List.length (xor_right a b) = List.length b.
Proof. intros L. rewrite xor_right_pad by exact L. rewrite xor_length; rewrite pad_left_length; trivial. Qed.
Lemma first_byte_nth i (l : bytes) : first_byte (from i l) = nth i l x00.
Proof. unfold from. revert l. induction i; intros l; [destruct l; reflexivity|]. destruct l; [reflexivity|apply IHi]. Qed.
Lemma first_byte_app (a b : bytes) : a <> [] -> first_byte (a ++ b) = first_byte a.
Proof. destruct a; [congruence|reflexivity]. Qed.
Lemma first_byte_upto n (l : bytes) : (0 < n)%nat -> first_byte (upto n l) = first_byte l.
Proof. intros H. destruct n; [lia|]. destruct l; reflexivity. Qed.
Lemma first_nonempty (l : bytes) : first_byte l <> x00 -> l <> [].
Proof. destruct l; cbn; congruence. Qed.

Section Facts.
Variable P : prims.
Hypothesis HP : prims_ok P.

Lemma enc_block_inv key m E : enc_block P key m = Ok E -> E = h_aes_enc P key (shortest m) /\ List.length (shortest m) = 16%nat.
Proof. unfold enc_block. destruct (Nat.eqb_spec (List.length (shortest m)) 16); [|discriminate]. intros H. injection H as <-. auto. Qed.
Lemma enc_block_inv16 key m E : List.length m = 16%nat -> enc_block P key m = Ok E -> E = h_aes_enc P key m /\ first_byte m <> x00.
Proof.
  intros L. rewrite enc_block_16 by exact L. destruct (zero_first m) eqn:Z; [discriminate|]. intros H. injection H as <-.
  split; [reflexivity|apply zero_first_false, Z].
Qed.
Lemma flag_ec_lot lot c : lotb (flag_ec lot c) = lot.
Proof. destruct lot, c; reflexivity. Qed.
Lemma flag_ec_comp lot c : compb (flag_ec lot c) = c.
Proof. destruct lot, c; reflexivity. Qed.
Lemma magic_of_inv m lot : magic_of m = Some lot -> m = magic_bytes lot.
Proof.
  unfold magic_of. destruct (bytes_eqb m (magic_bytes true)) eqn:E; [intros H; injection H as <-; apply bytes_eqb_spec, E|].
  destruct (bytes_eqb m (magic_bytes false)) eqn:E'; [intros H; injection H as <-; apply bytes_eqb_spec, E'|discriminate].
Qed.
Lemma magic_of_bytes lot : magic_of (magic_bytes lot) = Some lot.
Proof. destruct lot; reflexivity. Qed.
Lemma type_of_inv t c : type_of t = Some c -> t = wif_name c.
Proof.
  unfold type_of. destruct (str_eqb t (str "wif")) eqn:E; [intros H; injection H as <-; apply str_eqb_spec, E|].
  destruct (str_eqb t (str "wif-compressed")) eqn:E'; [intros H; injection H as <-; apply str_eqb_spec, E'|discriminate].
Qed.
Lemma type_of_name c : type_of (wif_name c) = Some c.
Proof. destruct c; reflexivity. Qed.
(** a 33-byte key is compressed *)
Lemma from_bytes_33 pp k : List.length pp = 33%nat -> PublicKey_from_bytes pp = Ok k -> pk_ok k /\ pp = ser true k.
Proof.
  intros L E. apply PublicKey_from_bytes_iff in E. destruct E as [O [S|[S|[S|S]]]]; (split; [exact O|]).
  - apply (serialised_unique true _ _ O S).
  - destruct S as (xs & ys & [L1 _] & [L2 _] & ->). cbn [List.length] in L. rewrite app_length in L. lia.
  - destruct S as (xs & ys & [L1 _] & [L2 _] & ->). rewrite app_length in L. lia.
  - destruct S as (xs & ys & [L1 _] & [L2 _] & ->). cbn [List.length] in L. rewrite app_length in L. lia.
Qed.
Lemma from_bytes_ser k : pk_ok k -> PublicKey_from_bytes (ser true k) = Ok k.
Proof. intros O. apply PublicKey_from_bytes_iff. split; [exact O|]. left. apply (ser_serialised true), O. Qed.

(** Everything a successful call says. *)
Record creation (a : Z) (lot c : bool) (ent pp seed : bytes) (ppk : pubkey) (r : created) : Prop := {
  cn_fb : key_okb (sha256d P seed) = true;
  cn_ppk : pk_ok ppk;
  cn_pp : pp = ser true ppk;
  cn_key : cr_key r = mulk ppk (be2z (sha256d P seed));
  cn_ah : cr_ah r = ahash P a c (cr_key r);
  cn_S : cr_S r = kdf2 P pp (cr_ah r) ent;
  cn_E1 : enc_block P (from 32 (cr_S r)) (xor_right (upto 16 seed) (upto 16 (cr_S r))) = Ok (cr_E1 r);
  cn_E2 : enc_block P (from 32 (cr_S r)) (xor_right (from 8 (cr_E1 r) ++ from 16 seed) (slice 16 32 (cr_S r))) = Ok (cr_E2 r);
  cn_Q1 : enc_block P (from 32 (cr_S r)) (xor (slice 1 17 (ser true (pubof (be2z (sha256d P seed))))) (upto 16 (cr_S r))) = Ok (cr_Q1 r);
  cn_Q2 : enc_block P (from 32 (cr_S r)) (xor (from 17 (ser true (pubof (be2z (sha256d P seed))))) (slice 16 32 (cr_S r))) = Ok (cr_Q2 r)
}.
Lemma create_core_inv a lot c ent pp seed nw : List.length pp = 33%nat -> create_core P a lot c ent pp seed = Ok nw ->
  exists ppk r, creation a lot c ent pp seed ppk r /\ nw = new_wif_of P a lot c ent seed r.
Proof.
  intros L E. unfold create_core in E. cbv zeta in E. destruct (key_okb (sha256d P seed)) eqn:K; [|discriminate].
  destruct (PublicKey_from_bytes pp) as [ppk|] eqn:Ep; cbn [bind] in E; [|discriminate].
  destruct (from_bytes_33 _ _ L Ep) as [O Epp].
  set (KK := mulk ppk (be2z (sha256d P seed))) in *. set (ah := ahash P a c KK) in *. set (S := kdf2 P pp ah ent) in *.
  destruct (enc_block P (from 32 S) (xor_right (upto 16 seed) (upto 16 S))) as [E1|] eqn:H1; cbn [bind] in E; [|discriminate].
  destruct (enc_block P (from 32 S) (xor_right (from 8 E1 ++ from 16 seed) (slice 16 32 S))) as [E2|] eqn:H2; cbn [bind] in E; [|discriminate].
  set (B := ser true (pubof (be2z (sha256d P seed)))) in *.
  destruct (enc_block P (from 32 S) (xor (slice 1 17 B) (upto 16 S))) as [Q1|] eqn:H3; cbn [bind] in E; [|discriminate].
  destruct (enc_block P (from 32 S) (xor (from 17 B) (slice 16 32 S))) as [Q2|] eqn:H4; cbn [bind] in E; [|discriminate].
  exists ppk, {| cr_key := KK; cr_ah := ah; cr_S := S; cr_E1 := E1; cr_E2 := E2; cr_Q1 := Q1; cr_Q2 := Q2 |}.
  split; [split; cbn [cr_key cr_ah cr_S cr_E1 cr_E2 cr_Q1 cr_Q2]; trivial|]. congruence.
Qed.
Lemma create_inv random self network n w a code t arg seed nw : net_sel self network n w a ->
  entropy_arg random arg = Ok seed -> create_new_encrypted_wif P random self code t arg network = Ok nw ->
  exists lot c ent pp ppk r, check_decode P code base58_alphabet = Ok (magic_bytes lot ++ ent ++ pp) /\
    List.length ent = 8%nat /\ List.length pp = 33%nat /\ t = wif_name c /\
    creation a lot c ent pp seed ppk r /\ nw = new_wif_of P a lot c ent seed r.
Proof.
  intros N A E. rewrite (create_eq P HP _ _ _ _ _ _ _ _ _ N), A in E.
  destruct (check_decode P code base58_alphabet) as [d|] eqn:D; [|discriminate]. unfold create_result in E.
  destruct (Nat.eqb_spec (List.length d) 49) as [L|]; [|discriminate].
  destruct (type_of t) as [c|] eqn:T; [|discriminate]. destruct (magic_of (upto 8 d)) as [lot|] eqn:M; [|discriminate].
  assert (Lp : List.length (from 16 d) = 33%nat) by (rewrite from_length, L; reflexivity).
  destruct (create_core_inv _ _ _ _ _ _ _ Lp E) as (ppk & r & CR & V).
  exists lot, c, (slice 8 16 d), (from 16 d), ppk, r.
  split; [|split; [rewrite slice_length; lia|split; [exact Lp|split; [apply type_of_inv, T|auto]]]].
  f_equal. rewrite <- (magic_of_inv _ _ M). rewrite <- (upto_from 8 d) at 1. f_equal.
  rewrite <- (upto_from 8 (from 8 d)) at 1. f_equal. unfold from. clear. rewrite <- (firstn_skipn 8 d) at 1.
  destruct (Nat.le_gt_cases 8 (List.length d)) as [H|H].
  - rewrite firstn_skipn. replace 16%nat with (8 + 8)%nat at 1 by reflexivity.
    assert (G : forall A m n (l : list A), skipn m (skipn n l) = skipn (n + m) l).
    { intros A m n' l. revert l. induction n'; intros l; [reflexivity|]. destruct l; cbn; [destruct m; reflexivity|apply IHn']. }
    apply G.
  - rewrite firstn_skipn. rewrite (skipn_all2 d) by lia. rewrite !skipn_all2; cbn [List.length]; lia || reflexivity.
Qed.
Lemma creation_len a lot c ent pp seed ppk r : creation a lot c ent pp seed ppk r ->
  List.length (cr_ah r) = 4%nat /\ List.length (cr_S r) = 64%nat /\ List.length (cr_E1 r) = 16%nat /\ List.length (cr_E2 r) = 16%nat /\
  List.length (cr_Q1 r) = 16%nat /\ List.length (cr_Q2 r) = 16%nat /\ List.length (from 32 (cr_S r)) = 32%nat /\
  List.length (upto 16 (cr_S r)) = 16%nat /\ List.length (slice 16 32 (cr_S r)) = 16%nat.
Proof.
  intros [K O Epp EK EA ES H1 H2 H3 H4]. destruct (kdf2_parts P HP pp (cr_ah r) ent) as (K1 & K2 & K3).
  pose proof (kdf2_length P HP pp (cr_ah r) ent) as K0. rewrite <- ES in *.
  apply enc_block_inv in H1, H2, H3, H4. destruct H1 as [-> H1], H2 as [-> H2], H3 as [-> H3], H4 as [-> H4].
  rewrite !(aes_enc_len P HP) by assumption. rewrite EA, (ahash_length P HP). auto 10.
Qed.

(** ** Decrypting the created key *)
(** what decrypt sees *)
Lemma decrypt_created_eq self network n w a lot c ent pp seed ppk r pw detail : net_sel self network n w a ->
  creation a lot c ent pp seed ppk r -> List.length ent = 8%nat ->
  decrypt P self (n_encrypted_wif (new_wif_of P a lot c ent seed r)) pw network detail =
  decrypt_ec_result P w a (flag_ec lot c) (cr_ah r) ent (upto 8 (cr_E1 r)) (cr_E2 r) pw detail.
Proof.
  intros N CR Le. destruct (creation_len _ _ _ _ _ _ _ _ CR) as (La & LS & L1 & L2 & _).
  cbn [n_encrypted_wif new_wif_of]. set (body := _ ++ _).
  assert (D : decode (b58c P body) base58_alphabet = Ok ([x01; x43] ++ [flag_ec lot c] ++ cr_ah r ++ (ent ++ upto 8 (cr_E1 r)) ++ cr_E2 r ++ checksum4 P body)).
  { unfold b58c. rewrite decode_b58. unfold body at 1. rewrite <- !app_assoc. reflexivity. }
  assert (L8 : List.length (upto 8 (cr_E1 r)) = 8%nat) by (apply upto_length; lia).
  rewrite (decrypt_eq P HP _ _ _ _ _ _ _ _ _ _ _ _ pw detail N D) by (trivial; try reflexivity; try (rewrite app_length; lia); apply checksum4_length, HP).
  replace (bytes_eqb [x01; x43] [x01; x42]) with false by reflexivity. replace (bytes_eqb [x01; x43] [x01; x43]) with true by reflexivity.
  rewrite upto_app, from_app by exact Le. reflexivity.
Qed.
(** the two blocks, for seeds of at most 24 bytes *)
Lemma created_blocks a lot c ent pp seed ppk r : creation a lot c ent pp seed ppk r -> (List.length seed <= 24)%nat ->
  ec_tail P (cr_S r) (cr_E2 r) = shortest (from 8 (cr_E1 r) ++ from 16 seed) /\
  xor (h_aes_dec P (from 32 (cr_S r)) (cr_E1 r)) (upto 16 (cr_S r)) = pad_left 16 (upto 16 seed).
Proof.
  intros CR L. destruct (creation_len _ _ _ _ _ _ _ _ CR) as (La & LS & L1 & L2 & _ & _ & LK & LA & LB).
  destruct CR as [K O Epp EK EA ES H1 H2 _ _].
  assert (X1 : (List.length (upto 16 seed) <= List.length (upto 16 (cr_S r)))%nat).
  { rewrite LA. unfold upto. rewrite firstn_length. lia. }
  assert (X2 : (List.length (from 8 (cr_E1 r) ++ from 16 seed) <= List.length (slice 16 32 (cr_S r)))%nat).
  { rewrite LB, app_length, !from_length. lia. }
  apply enc_block_inv16 in H1; [|rewrite xor_right_length; assumption].
  apply enc_block_inv16 in H2; [|rewrite xor_right_length; assumption].
  destruct H1 as [E1 _], H2 as [E2 _]. split.
  - unfold ec_tail. rewrite E2 at 1. rewrite (aes_dec_enc P HP) by (trivial; rewrite xor_right_length; assumption).
    rewrite xor_right_back by exact X2. rewrite shortest_pad. reflexivity.
  - rewrite E1 at 1. rewrite (aes_dec_enc P HP) by (trivial; rewrite xor_right_length; assumption).
    rewrite xor_right_back by exact X1. rewrite LA. reflexivity.
Qed.
(** the seed comes back when no leading zero is lost *)
Lemma created_seed a lot c ent pp seed ppk r : creation a lot c ent pp seed ppk r -> (List.length seed <= 24)%nat ->
  first_byte seed <> x00 -> nth 8 (cr_E1 r) x00 <> x00 ->
  (8 <= List.length (ec_tail P (cr_S r) (cr_E2 r)))%nat /\ ec_seed P (cr_S r) (upto 8 (cr_E1 r)) (cr_E2 r) = seed.
Proof.
  intros CR L Z1 Z2. destruct (creation_len _ _ _ _ _ _ _ _ CR) as (La & LS & L1 & L2 & _ & _ & LK & LA & LB).
  destruct (created_blocks _ _ _ _ _ _ _ _ CR L) as [T X].
  assert (L8 : List.length (from 8 (cr_E1 r)) = 8%nat) by (rewrite from_length; lia).
  rewrite shortest_id in T.
  2:{ rewrite first_byte_app by (intros H; rewrite H in L8; discriminate). rewrite first_byte_nth. exact Z2. }
  split; [rewrite T, app_length; lia|]. unfold ec_seed. rewrite T, upto_app, from_app by exact L8. rewrite upto_from, X, shortest_pad.
  rewrite shortest_id by (rewrite first_byte_upto by lia; exact Z1). apply upto_from.
Qed.
(** ... and otherwise a shorter one *)
Lemma created_seed_lost a lot c ent pp seed ppk r : creation a lot c ent pp seed ppk r -> List.length seed = 24%nat ->
  first_byte seed = x00 \/ nth 8 (cr_E1 r) x00 = x00 ->
  (8 <= List.length (ec_tail P (cr_S r) (cr_E2 r)))%nat ->
  (List.length (ec_seed P (cr_S r) (upto 8 (cr_E1 r)) (cr_E2 r)) < 24)%nat.
Proof.
  intros CR L Z Lt. destruct (creation_len _ _ _ _ _ _ _ _ CR) as (La & LS & L1 & L2 & _ & _ & LK & LA & LB).
  destruct (created_blocks _ _ _ _ _ _ _ _ CR ltac:(lia)) as [T X].
  assert (L8 : List.length (from 8 (cr_E1 r)) = 8%nat) by (rewrite from_length; lia).
  assert (L16 : List.length (from 8 (cr_E1 r) ++ from 16 seed) = 16%nat) by (rewrite app_length, !from_length; lia).
  assert (F : first_byte (from 8 (cr_E1 r) ++ from 16 seed) = nth 8 (cr_E1 r) x00).
  { rewrite first_byte_app by (intros H; rewrite H in L8; discriminate). apply first_byte_nth. }
  unfold ec_seed. rewrite app_length, from_length.
  destruct (Byte.byte_eq_dec (nth 8 (cr_E1 r) x00) x00) as [Z2|Z2].
  - assert (Q : (List.length (ec_tail P (cr_S r) (cr_E2 r)) < 16)%nat) by (rewrite T; pose proof (shortest_length_lt _ ltac:(rewrite L16; lia) (eq_trans F Z2)); lia).
    assert (Q2 : (List.length (shortest (xor (h_aes_dec P (from 32 (cr_S r)) (upto 8 (cr_E1 r) ++ upto 8 (ec_tail P (cr_S r) (cr_E2 r)))) (upto 16 (cr_S r)))) <= 16)%nat).
    { set (e := upto 8 (cr_E1 r) ++ _). assert (Le : List.length e = 16%nat) by (unfold e; rewrite app_length, !upto_length by lia; reflexivity).
      assert (Lx : List.length (xor (h_aes_dec P (from 32 (cr_S r)) e) (upto 16 (cr_S r))) = 16%nat) by (rewrite xor_length; rewrite (aes_dec_len P HP); trivial; congruence).
      pose proof (shortest_length_le _ ltac:(rewrite Lx; lia)). lia. }
    lia.
  - destruct Z as [Z|Z]; [|contradiction].
    assert (T' : ec_tail P (cr_S r) (cr_E2 r) = from 8 (cr_E1 r) ++ from 16 seed) by (rewrite T; apply shortest_id; congruence).
    rewrite T', upto_app by exact L8. rewrite upto_from, X, shortest_pad, L16.
    assert (Q : (List.length (shortest (upto 16 seed)) < 16)%nat).
    { assert (Lu : List.length (upto 16 seed) = 16%nat) by (apply upto_length; lia). pose proof (shortest_length_lt (upto 16 seed) ltac:(lia) (eq_trans (first_byte_upto 16 seed ltac:(lia)) Z)). lia. }
    lia.
Qed.
(** any seed that decrypt computes has at most 24 bytes *)
Lemma ec_seed_short S h e2 : List.length S = 64%nat -> List.length h = 8%nat -> List.length e2 = 16%nat -> (8 <= List.length (ec_tail P S e2))%nat ->
  (List.length (ec_seed P S h e2) <= 24)%nat.
Proof.
  intros LS Lh L2 Lt. assert (LK : List.length (from 32 S) = 32%nat) by (rewrite from_length; lia).
  assert (LA : List.length (upto 16 S) = 16%nat) by (apply upto_length; lia).
  assert (LB : List.length (slice 16 32 S) = 16%nat) by (rewrite slice_length; lia).
  unfold ec_seed. rewrite app_length, from_length.
  assert (Q : (List.length (ec_tail P S e2) <= 16)%nat).
  { unfold ec_tail. assert (Lx : List.length (xor (h_aes_dec P (from 32 S) e2) (slice 16 32 S)) = 16%nat) by (rewrite xor_length; rewrite (aes_dec_len P HP); trivial; congruence).
    pose proof (shortest_length_le _ ltac:(rewrite Lx; lia)). lia. }
  assert (Q2 : (List.length (shortest (xor (h_aes_dec P (from 32 S) (h ++ upto 8 (ec_tail P S e2))) (upto 16 S))) <= 16)%nat).
  { set (e := h ++ _). assert (Le : List.length e = 16%nat) by (unfold e; rewrite app_length, !upto_length by lia; lia).
    assert (Lx : List.length (xor (h_aes_dec P (from 32 S) e) (upto 16 S)) = 16%nat) by (rewrite xor_length; rewrite (aes_dec_len P HP); trivial; congruence).
    pose proof (shortest_length_le _ ltac:(rewrite Lx; lia)). lia. }
  lia.
Qed.
(** point B comes back when no leading zero is lost *)
Lemma created_point a lot c ent pp seed ppk r : creation a lot c ent pp seed ppk r ->
  let B := ser true (pubof (be2z (sha256d P seed))) in
  point_b_of P (cr_S r) (byte_xor (low_bit (last64 (cr_S r))) (first_byte B)) (cr_Q1 r) (cr_Q2 r) =
  [first_byte B] ++ shortest (slice 1 17 B) ++ shortest (from 17 B).
Proof.
  intros CR B. destruct (creation_len _ _ _ _ _ _ _ _ CR) as (La & LS & L1 & L2 & L3 & L4 & LK & LA & LB).
  destruct CR as [K O Epp EK EA ES _ _ H1 H2]. fold B in H1, H2.
  assert (LBB : List.length B = 33%nat) by apply ser_true_length.
  assert (X1 : List.length (slice 1 17 B) = List.length (upto 16 (cr_S r))) by (rewrite LA, slice_length; lia).
  assert (X2 : List.length (from 17 B) = List.length (slice 16 32 (cr_S r))) by (rewrite LB, from_length; lia).
  apply enc_block_inv16 in H1; [|rewrite xor_length; lia]. apply enc_block_inv16 in H2; [|rewrite xor_length; lia].
  destruct H1 as [E1 _], H2 as [E2 _]. unfold point_b_of. rewrite E1, E2.
  rewrite !(aes_dec_enc P HP) by (trivial; rewrite xor_length; lia). rewrite !xor_cancel by assumption.
  rewrite (byte_xor_comm (low_bit _) (first_byte B)), byte_xor_cancel. reflexivity.
Qed.
Lemma point_split (B : bytes) : List.length B = 33%nat -> B = [first_byte B] ++ slice 1 17 B ++ from 17 B.
Proof.
  intros L. destruct B as [|b B]; [discriminate|]. cbn [first_byte]. change (slice 1 17 (b :: B)) with (upto 16 B). change (from 17 (b :: B)) with (from 16 B).
  rewrite upto_from. reflexivity.
Qed.
End Facts.
