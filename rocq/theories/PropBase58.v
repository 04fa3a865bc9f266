(** * C01-C04: Base58 and Base58Check (libs/base58.py) *)
From Coq Require Import Lia ZifyBool ZifyNat ZifyN.
From Verif Require Import Py Prims Spec PyFacts Base58 Base58Facts SpecBip38 Cryptocurrencies CodecFacts SpecReads ReadFacts.

(** ** C01: decoding inverts encoding, for every byte string and alphabet. *)
Theorem C01_decode_encode : forall A d, alphabet_ok A ->
  exists s, encode d A = Ok s /\ decode s A = Ok d.
Proof.
  intros A d HA. destruct (encode_text A HA d) as [s [E _]]. exists s. split; [exact E|apply (decode_encode A HA), E].
Qed.
(** The text is the one of the specification: one first letter per leading zero
    byte, then the base-L digits of the value. *)
Theorem C01_encode_is_base_text : forall A d s, alphabet_ok A -> (encode d A = Ok s <-> base_text A d s).
Proof. intros A d s HA. apply (encode_iff A HA). Qed.
(** The alphabets of the repository qualify. *)
Theorem C01_alphabets : alphabet_ok base58_alphabet /\ forall c a, In c all_coins -> c_alphabet c = Some a -> alphabet_ok a.
Proof.
  split; [exact bitcoin_ok|]. intros c a Hc Ha. apply alphabet_okb.
  assert (F : forallb (fun c => match c_alphabet c with None => true | Some a =>
    (Nat.leb 2 (List.length a) && nodupb a && forallb (fun c => N.ltb c 128) a)%bool end) all_coins = true) by (vm_compute; reflexivity).
  rewrite forallb_forall in F. specialize (F c Hc). rewrite Ha in F. exact F.
Qed.
Example C01_example : encode [x00; x00; x01; x02] base58_alphabet = Ok (str "115T") /\
  decode (str "115T") base58_alphabet = Ok [x00; x00; x01; x02] /\ encode [] base58_alphabet = Ok [].
Proof. vm_compute. auto. Qed.

(** ** C02: encoding inverts decoding on strings over the alphabet. *)
Theorem C02_encode_decode : forall A s, alphabet_ok A -> over A s ->
  exists d, decode s A = Ok d /\ encode d A = Ok s.
Proof. intros A s HA. apply (encode_decode A HA). Qed.
Theorem C02_decode_injective : forall A s s', alphabet_ok A -> over A s -> over A s' ->
  decode s A = decode s' A -> s = s'.
Proof.
  intros A s s' HA O O' E. destruct (encode_decode A HA s O) as (d & D & F). destruct (encode_decode A HA s' O') as (d' & D' & F').
  congruence.
Qed.
Theorem C02_encode_over_alphabet : forall A d s, alphabet_ok A -> encode d A = Ok s -> over A s.
Proof. intros A d s HA E. apply (text_over A HA d). apply (encode_iff A HA), E. Qed.
Definition overb (A s : pystr) : bool := forallb (fun c => existsb (N.eqb c) A) s.
Lemma overb_ok A s : overb A s = true -> over A s.
Proof.
  unfold overb. rewrite forallb_forall. intros H. apply Forall_forall. intros c Hc. specialize (H c Hc).
  apply existsb_exists in H. destruct H as (x & Hx & E). apply N.eqb_eq in E. congruence.
Qed.
Example C02_example : over base58_alphabet (str "11zZ5") /\ decode (str "11zZ5") base58_alphabet = Ok [x00; x00; x02; xf4; x48].
Proof. split; [|vm_compute; reflexivity]. apply overb_ok. vm_compute. reflexivity. Qed.

(** ** C03: Base58Check accepts exactly what check_encode produces. *)
Theorem C03_check_roundtrip : forall P A d, prims_ok P -> alphabet_ok A ->
  exists s, check_encode P d A = Ok s /\ check_decode P s A = Ok d.
Proof.
  intros P A d HP HA. destruct (check_encode_total P A HA d) as [s E]. exists s. split; [exact E|].
  apply (check_roundtrip P HP A HA), E.
Qed.
Theorem C03_check_decode_exact : forall P A s d, prims_ok P -> alphabet_ok A ->
  (check_decode P s A = Ok d <-> base_reads A s (d ++ checksum4 P d)).
Proof. intros P A s d HP HA. rewrite <- (decode_reads A HA). apply (check_decode_decode P HP A). Qed.
Theorem C03_check_decode_iff : forall P A s d, prims_ok P -> alphabet_ok A -> over A s ->
  (check_decode P s A = Ok d <-> check_encode P d A = Ok s).
Proof.
  intros P A s d HP HA O. rewrite (check_decode_iff P HP A HA s d O). symmetry. apply (check_encode_iff P A HA).
Qed.
Theorem C03_check_decode_otherwise : forall P A s, prims_ok P -> alphabet_ok A ->
  (forall d, ~ base_reads A s (d ++ checksum4 P d)) -> is_ascii s -> check_decode P s A = Raise (Builtin ValueError).
Proof.
  intros P A s HP HA H I. destruct (check_decode P s A) as [d|e] eqn:E.
  - apply (check_decode_decode P HP A), (decode_reads A HA) in E. destruct (H d E).
  - apply (check_decode_err P A HA) in E. destruct E as [[-> _]|[_ N]]; [reflexivity|contradiction].
Qed.

(** ** C04: characters outside the alphabet are not rejected. *)
(** What every text is read as ([SpecReads.base_reads]); on texts over the
    alphabet that is the byte string they are the text of. *)
Theorem C04_decode_exact : forall A s d, alphabet_ok A -> (decode s A = Ok d <-> base_reads A s d).
Proof. intros A s d HA. apply (decode_reads A HA). Qed.
Theorem C04_reading_own_text : forall A s d, alphabet_ok A -> over A s -> (base_reads A s d <-> base_text A d s).
Proof. intros A s d HA O. rewrite <- (decode_reads A HA). apply (decode_iff A HA), O. Qed.
Theorem C04_ascii_never_rejected : forall A s, alphabet_ok A -> is_ascii s -> exists d, decode s A = Ok d.
Proof. intros A s HA I. destruct (decode_ascii A HA s I) as (bs & _ & _ & E). eexists. exact E. Qed.
Theorem C04_non_ascii_rejected : forall A s, ~ is_ascii s -> decode s A = Raise (Builtin UnicodeEncodeError).
Proof. intros A s. apply decode_non_ascii. Qed.

Lemma digits_nonneg A (HA : alphabet_ok A) s : over A s -> 0 <= digits_value (zlen A) (List.map (digit A) s).
Proof.
  intros O. destruct (over_digits A s O) as (ds & F & ->). rewrite (map_digit_letter A HA) by exact F.
  apply digits_value_bound; [|exact F]. pose proof (L2 A HA). lia.
Qed.
Lemma zero_prefixes_app A a b : forall v, zero_prefixes A v (a ++ b) =
  (zero_prefixes A v a + zero_prefixes A (v * zlen A ^ zlen a + digits_value (zlen A) a) b)%nat.
Proof.
  induction a as [|x a IH]; intros v; cbn [app zero_prefixes digits_value].
  - change (zlen (@nil Z)) with 0. rewrite Z.pow_0_r. cbn [Nat.add]. f_equal. lia.
  - rewrite IH. rewrite <- Nat.add_assoc. f_equal. f_equal. f_equal. fold (zlen a).
    replace (zlen (x :: a)) with (zlen a + 1) by (unfold zlen; cbn [List.length]; lia).
    rewrite Z.pow_add_r by (unfold zlen; lia). ring.
Qed.
(** An invalid character is the digit -1: it borrows from the letter before it. *)
Lemma is_ascii_app a b : is_ascii a -> is_ascii b -> is_ascii (a ++ b).
Proof. intros H1 H2. apply Forall_app. auto. Qed.
Lemma letter_ascii A (HA : alphabet_ok A) d : 0 <= d < zlen A -> (letter A d < 128)%N.
Proof. intros H. destruct (HA) as (_ & _ & F). rewrite Forall_forall in F. apply F, (letter_in A), H. Qed.
Lemma n2b_inj128 a b : (a < 128)%N -> (b < 128)%N -> n2b a = n2b b -> a = b.
Proof. intros Ha Hb. apply n2b_inj; lia. Qed.
Theorem C04_invalid_character_borrows : forall A u d c t, alphabet_ok A -> over A u -> is_ascii t ->
  2 <= d < zlen A -> (c < 128)%N -> ~ In c A ->
  decode (u ++ [letter A d; c] ++ t) A = decode (u ++ [letter A (d - 1); letter A (zlen A - 1)] ++ t) A.
Proof.
  intros A u d c t HA Hu Ht Hd Hc Hn. pose proof (L2 A HA) as HL.
  assert (Hc' : forall x, 0 <= x < zlen A -> is_ascii [letter A x]) by (intros x Hx; constructor; [apply letter_ascii; trivial|constructor]).
  assert (I1 : is_ascii (u ++ [letter A d; c] ++ t)).
  { apply is_ascii_app; [apply (over_ascii A HA), Hu|]. apply is_ascii_app; [|exact Ht]. constructor; [apply letter_ascii; trivial; lia|]. constructor; [exact Hc|constructor]. }
  assert (I2 : is_ascii (u ++ [letter A (d - 1); letter A (zlen A - 1)] ++ t)).
  { apply is_ascii_app; [apply (over_ascii A HA), Hu|]. apply is_ascii_app; [|exact Ht]. repeat constructor; apply letter_ascii; trivial; lia. }
  destruct (decode_ascii A HA _ I1) as (b1 & S1 & V1 & E1). destruct (decode_ascii A HA _ I2) as (b2 & S2 & V2 & E2).
  rewrite E1, E2. rewrite !map_app in *. cbn [List.map] in *.
  rewrite !(digit_letter A HA) in * by lia. rewrite (digit_notin A HA c Hc Hn) in *.
  pose proof (digits_nonneg A HA u Hu) as Hv. set (v := digits_value (zlen A) (List.map (digit A) u)) in *.
  assert (b1 = b2) as ->.
  { apply stripped_unique; trivial. rewrite V1, V2. f_equal. rewrite !digits_value_app. f_equal. f_equal.
    cbn [digits_value List.length]. rewrite !Z.pow_0_r. change (Z.of_nat 1) with 1. rewrite Z.pow_1_r. lia. }
  f_equal. f_equal. f_equal. rewrite !zero_prefixes_app. f_equal. fold v.
  cbn [zero_prefixes]. rewrite Z.mul_0_l, Z.add_0_l. cbn [digits_value List.length]. change (zlen [d; -1]) with 2. change (zlen [d - 1; zlen A - 1]) with 2.
  rewrite !Z.pow_0_r. change (Z.of_nat 1) with 1. rewrite Z.pow_1_r.
  destruct (Z.eqb_spec (v * zlen A + d) 0); [nia|]. destruct (Z.eqb_spec (v * zlen A + (d - 1)) 0); [nia|].
  replace ((v * zlen A + d) * zlen A + -1) with ((v * zlen A + (d - 1)) * zlen A + (zlen A - 1)) by ring.
  f_equal. f_equal. ring.
Qed.
(** The two strings are different, so one byte string has several accepted texts. *)
Theorem C04_several_texts : forall A u d c t, alphabet_ok A -> over A u -> over A t ->
  2 <= d < zlen A -> (c < 128)%N -> ~ In c A ->
  let good := u ++ [letter A (d - 1); letter A (zlen A - 1)] ++ t in
  let bad := u ++ [letter A d; c] ++ t in
  over A good /\ ~ over A bad /\ decode bad A = decode good A.
Proof.
  intros A u d c t HA Hu Ht Hd Hc Hn good bad. pose proof (L2 A HA). split; [|split].
  - apply Forall_app. split; [exact Hu|]. apply Forall_app. split; [|exact Ht].
    constructor; [apply (letter_in A); lia|]. constructor; [apply (letter_in A); lia|constructor].
  - intros O. apply Forall_app in O. destruct O as [_ O]. inversion O as [|? ? _ O']. inversion O' as [|? ? O'' _]. contradiction.
  - apply C04_invalid_character_borrows; trivial. apply (over_ascii A HA), Ht.
Qed.
Example C04_example : decode (str "5K0") base58_alphabet = decode (str "5Jz") base58_alphabet /\
  decode (str "0") base58_alphabet = Ok [] /\ decode (str "5J!2") base58_alphabet = decode (str "5Hz2") base58_alphabet.
Proof. vm_compute. auto. Qed.
