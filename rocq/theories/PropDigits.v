(** * C85: Python's limit on the digits of a number, and the numbers in error texts *)
From Coq Require Import Lia ZifyBool ZifyNat ZifyN.
From Coq Require Import DecimalFacts DecimalPos DecimalString.
From Verif Require Import Exceptions ErrorFacts Py Prims Const Spec PyFacts Utils UtilsFacts Base58 Crypto
  Curve SpecCurve Secp256k1 Cryptocurrencies Wif Bip38 SpecBip38 SpecRecords SpecSession
  Bip38Facts Bip38Facts2 PropIntermediate LotText PropLotText DigitLimit.

(** ** What is claimed *)
(** the number of characters 0 to 9 in a text *)
Definition digits_in (s : pystr) : nat := List.length (List.filter (fun c => existsb (N.eqb c) (str "0123456789")) s).
(** An argument with at most / more than [limit] digits *)
Definition within (limit : nat) (a : numarg) : Prop :=
  match a with
  | NNone => True
  | NInt z => Z.abs z < 10 ^ Z.of_nat limit
  | NText s => ascii s /\ (digits_in s <= limit)%nat
  end.
Definition beyond (limit : nat) (a : numarg) : Prop :=
  match a with
  | NNone => False
  | NInt z => 10 ^ Z.of_nat limit <= Z.abs z
  | NText s => ascii s /\ (limit < digits_in s)%nat
  end.

(** ** The decimal text of an integer *)
Fixpoint dl (u : Decimal.uint) : list Z :=
  match u with
  | Decimal.Nil => []
  | Decimal.D0 u => 0 :: dl u | Decimal.D1 u => 1 :: dl u | Decimal.D2 u => 2 :: dl u | Decimal.D3 u => 3 :: dl u | Decimal.D4 u => 4 :: dl u
  | Decimal.D5 u => 5 :: dl u | Decimal.D6 u => 6 :: dl u | Decimal.D7 u => 7 :: dl u | Decimal.D8 u => 8 :: dl u | Decimal.D9 u => 9 :: dl u
  end.
Definition step (v d : Z) := 10 * v + d.
Lemma dl_range u : Forall (fun d => 0 <= d <= 9) (dl u).
Proof. induction u; cbn [dl]; constructor; trivial; lia. Qed.
Lemma dl_length u : List.length (dl u) = Decimal.nb_digits u.
Proof. induction u; cbn [dl List.length Decimal.nb_digits]; congruence. Qed.
Lemma chars u : str (NilEmpty.string_of_uint u) = List.map (fun d => (48 + Z.to_N d)%N) (dl u).
Proof. induction u; [reflexivity|..]; cbn [NilEmpty.string_of_uint dl List.map]; rewrite <- IHu; reflexivity. Qed.
Lemma acc_value u : forall p, Z.pos (Pos.of_uint_acc u p) = fold_left step (dl u) (Z.pos p).
Proof.
  induction u; intros p; cbn [Pos.of_uint_acc dl fold_left]; [reflexivity|..]; rewrite IHu; f_equal; unfold step; lia.
Qed.
Lemma value u : Z.of_N (Pos.of_uint u) = decimal_value (dl u).
Proof.
  unfold decimal_value. induction u; cbn [Pos.of_uint dl fold_left]; [reflexivity|exact IHu|..]; cbn [Z.of_N]; apply acc_value.
Qed.
Lemma fold_range l : Forall (fun d => 0 <= d <= 9) l -> forall v, 0 <= v ->
  v * 10 ^ Z.of_nat (List.length l) <= fold_left step l v < (v + 1) * 10 ^ Z.of_nat (List.length l).
Proof.
  induction 1 as [|d l H _ IH]; intros v V; cbn [List.length fold_left].
  - change (10 ^ Z.of_nat 0) with 1. lia.
  - rewrite Nat2Z.inj_succ, Z.pow_succ_r by lia. specialize (IH (step v d) ltac:(unfold step; lia)). unfold step in *.
    assert (0 < 10 ^ Z.of_nat (List.length l)) by (apply Z.pow_pos_nonneg; lia). nia.
Qed.
Lemma uint_head p : exists d l, dl (Pos.to_uint p) = d :: l /\ 1 <= d <= 9.
Proof.
  pose proof (DecimalPos.Unsigned.to_of (Pos.to_uint p)) as U. rewrite DecimalPos.Unsigned.of_to in U. cbn [N.to_uint] in U.
  pose proof (DecimalPos.Unsigned.to_uint_nonnil p) as N. pose proof (DecimalPos.Unsigned.to_uint_nonzero p) as Z0.
  destruct (Pos.to_uint p) as [|u|u|u|u|u|u|u|u|u|u]; [congruence| |..]; [|eexists; eexists; split; [reflexivity|lia]..].
  exfalso. unfold Decimal.unorm in U. cbn [Decimal.nzhead] in U. pose proof (nb_digits_nzhead u) as L.
  destruct (Decimal.nzhead u); [injection U as ->; congruence|..]; rewrite <- U in L; cbn [Decimal.nb_digits] in L; lia.
Qed.
Lemma pos_text p : str (NilZero.string_of_uint (Pos.to_uint p)) = List.map (fun d => (48 + Z.to_N d)%N) (dl (Pos.to_uint p)) /\
  decimal_value (dl (Pos.to_uint p)) = Z.pos p.
Proof.
  split.
  - rewrite <- chars. pose proof (DecimalPos.Unsigned.to_uint_nonnil p). destruct (Pos.to_uint p); [congruence|reflexivity..].
  - rewrite <- value, DecimalPos.Unsigned.of_to. reflexivity.
Qed.
#[local] Transparent dec.
Lemma dec_pos p : dec (Z.pos p) = List.map (fun d => (48 + Z.to_N d)%N) (dl (Pos.to_uint p)).
Proof. exact (proj1 (pos_text p)). Qed.
Lemma dec_neg p : dec (Z.neg p) = (45%N :: dec (Z.pos p))%list.
Proof. reflexivity. Qed.
Lemma dec_zero : dec 0 = [48%N].
Proof. reflexivity. Qed.
#[local] Opaque dec.
Lemma digits_of_list l : l <> [] -> Forall (fun d => 0 <= d <= 9) l -> digits_text (List.map (fun d => (48 + Z.to_N d)%N) l) l.
Proof.
  intros N F. destruct l as [|d l]; [congruence|]. clear N. revert d F. induction l as [|d' l IH]; intros d F.
  - inversion F; subst. cbn [List.map]. apply d_last. assumption.
  - inversion F as [|? ? H F']; subst. cbn [List.map]. apply d_next; [exact H|]. apply (IH d' F').
Qed.
Lemma dec_length z n : (0 < n)%nat -> (List.length (dec (Z.abs z)) <= n)%nat <-> Z.abs z < 10 ^ Z.of_nat n.
Proof.
  intros Hn. assert (P1 : 10 ^ 1 <= 10 ^ Z.of_nat n) by (apply Z.pow_le_mono_r; lia).
  destruct (Z.abs z) as [|p|p] eqn:E; [|clear E|lia].
  - rewrite dec_zero. cbn [List.length]. lia.
  - rewrite dec_pos, map_length. destruct (pos_text p) as [_ V]. destruct (uint_head p) as (d & l & D & Hd). rewrite D in *.
    pose proof (dl_range (Pos.to_uint p)) as F. rewrite D in F. inversion F as [|? ? _ F']; subst.
    unfold decimal_value in V. cbn [fold_left] in V. fold step in V. pose proof (fold_range l F' (10 * 0 + d) ltac:(lia)) as B.
    change (fold_left (fun v d => 10 * v + d) l (10 * 0 + d)) with (fold_left step l (10 * 0 + d)) in V. rewrite V in B. cbn [List.length].
    assert (0 < 10 ^ Z.of_nat (List.length l)) by (apply Z.pow_pos_nonneg; lia).
    split; intros Q.
    + apply Z.lt_le_trans with (10 ^ Z.of_nat (S (List.length l))); [|apply Z.pow_le_mono_r; lia].
      rewrite Nat2Z.inj_succ, Z.pow_succ_r by lia. nia.
    + destruct (Nat.le_gt_cases (S (List.length l)) n) as [G|G]; [exact G|].
      assert (10 ^ Z.of_nat n <= 10 ^ Z.of_nat (List.length l)) by (apply Z.pow_le_mono_r; lia). nia.
Qed.
(** The number an error text shows is the one that was given. *)
Theorem C85_shown : forall z, decimal_text (dec z) z /\ int_of (fun s => s) (NText (dec z)) = Ok z.
Proof.
  assert (D : forall z, decimal_text (dec z) z).
  { assert (P : forall p, digits_text (dec (Z.pos p)) (dl (Pos.to_uint p))).
    { intros p. rewrite dec_pos. apply digits_of_list; [|apply dl_range]. destruct (uint_head p) as (d & l & -> & _). discriminate. }
    intros [|p|p].
    - exists [], [], (dec 0), [], [0]. rewrite dec_zero. split; [reflexivity|]. split; [constructor|]. split; [constructor|].
      split; [apply (d_last 0); lia|]. left. split; reflexivity.
    - exists [], [], (dec (Z.pos p)), [], (dl (Pos.to_uint p)). split; [rewrite app_nil_r; reflexivity|]. split; [constructor|]. split; [constructor|].
      split; [apply P|]. left. split; [reflexivity|]. symmetry. apply pos_text.
    - exists [], (str "-"), (dec (Z.pos p)), [], (dl (Pos.to_uint p)). split; [rewrite app_nil_r; apply dec_neg|]. split; [constructor|]. split; [constructor|].
      split; [apply P|]. right. right. split; [reflexivity|]. rewrite (proj2 (pos_text p)). reflexivity. }
  intros z. split; [apply D|]. cbn [int_of]. rewrite (int_of_str_complete _ _ _ (D z)). reflexivity.
Qed.

(** ** The limit *)
Lemma over_iff limit n : (0 < limit)%nat -> over limit n = true <-> (limit < n)%nat.
Proof. intros H. unfold over. lia. Qed.
Lemma digits_same s : digit_count s = digits_in s.
Proof.
  unfold digit_count, digits_in. f_equal. apply filter_ext. intros c. change (str "0123456789") with [48; 49; 50; 51; 52; 53; 54; 55; 56; 57]%N.
  cbn [existsb]. lia.
Qed.
Lemma ascii_forallb s : ascii s -> forallb (fun c => (c <? 128)%N) s = true.
Proof. intros A. apply forallb_forall. intros c H. apply N.ltb_lt. exact (proj1 (Forall_forall _ _) A c H). Qed.
Lemma int_str_within limit z : (0 < limit)%nat -> Z.abs z < 10 ^ Z.of_nat limit -> int_str limit z = Ok (dec z).
Proof.
  intros L H. unfold int_str. apply (dec_length z limit L) in H. pose proof (over_iff limit (List.length (dec (Z.abs z))) L). destruct (over _ _); [lia|reflexivity].
Qed.
Lemma int_str_beyond limit z : (0 < limit)%nat -> 10 ^ Z.of_nat limit <= Z.abs z -> int_str limit z = Raise (Builtin ValueError).
Proof.
  intros L H. unfold int_str. pose proof (dec_length z limit L). pose proof (over_iff limit (List.length (dec (Z.abs z))) L). destruct (over _ _); [reflexivity|lia].
Qed.
Lemma int_str_or limit z : int_str limit z = Ok (dec z) \/ int_str limit z = Raise (Builtin ValueError).
Proof. unfold int_str. destruct (over _ _); auto. Qed.
Lemma text_within limit f s : (0 < limit)%nat -> ascii s -> (digits_in s <= limit)%nat -> int_of_limited f limit (NText s) = int_of f (NText s).
Proof.
  intros L A H. cbn [int_of_limited]. rewrite (ascii_forallb s A), digits_same. pose proof (over_iff limit (digits_in s) L). destruct (over _ _); [lia|reflexivity].
Qed.
Lemma text_beyond limit f s : (0 < limit)%nat -> ascii s -> (limit < digits_in s)%nat -> int_of_limited f limit (NText s) = Raise (Builtin ValueError).
Proof.
  intros L A H. cbn [int_of_limited]. rewrite (ascii_forallb s A), digits_same. pose proof (over_iff limit (digits_in s) L). destruct (over _ _); [reflexivity|lia].
Qed.
Lemma int_of_or f limit a : int_of_limited f limit a = int_of f a \/ int_of_limited f limit a = Raise (Builtin ValueError).
Proof. destruct a as [|z|s]; cbn [int_of_limited]; auto. destruct (over _ _); auto. Qed.
Lemma num_str_or limit a : num_str limit a = Ok (num_text a) \/ num_str limit a = Raise (Builtin ValueError).
Proof. destruct a as [|z|s]; cbn [num_str num_text]; auto. apply int_str_or. Qed.
Lemma digits_count_text s l : digits_text s l -> digits_in s = List.length l.
Proof.
  assert (D : forall d, 0 <= d <= 9 -> existsb (N.eqb (48 + Z.to_N d)) (str "0123456789") = true).
  { intros d Hd. change (str "0123456789") with [48; 49; 50; 51; 52; 53; 54; 55; 56; 57]%N. cbn [existsb]. lia. }
  unfold digits_in. induction 1 as [d Hd|d s l Hd H IH|d s l Hd H IH]; cbn [List.filter]; rewrite (D d Hd).
  - reflexivity.
  - cbn [List.length]. rewrite IH. reflexivity.
  - change (existsb (N.eqb 95) (str "0123456789")) with false. cbn [List.length]. rewrite IH. reflexivity.
Qed.
Lemma digits_app a b : digits_in (a ++ b) = (digits_in a + digits_in b)%nat.
Proof. unfold digits_in. rewrite filter_app, app_length. reflexivity. Qed.
Lemma white_none s : Forall white s -> digits_in s = 0%nat.
Proof.
  unfold digits_in. induction 1 as [|c s H _ IH]; [reflexivity|]. cbn [List.filter]. replace (existsb (N.eqb c) (str "0123456789")) with false; [exact IH|].
  change (str "0123456789") with [48; 49; 50; 51; 52; 53; 54; 55; 56; 57]%N. apply white_space in H. unfold is_space in H. cbn [existsb]. lia.
Qed.
Lemma text_size s z limit : decimal_text s z -> (digits_in s <= limit)%nat -> Z.abs z < 10 ^ Z.of_nat limit.
Proof.
  intros (be & sg & nu & af & l & -> & B & A & D & V). rewrite !digits_app, (white_none _ B), (white_none _ A), (digits_count_text _ _ D).
  assert (F : Forall (fun d => 0 <= d <= 9) l) by (clear -D; induction D; constructor; trivial; constructor). 
  pose proof (fold_range l F 0 ltac:(lia)) as R. change (fold_left step l 0) with (decimal_value l) in R. intros H.
  assert (10 ^ Z.of_nat (List.length l) <= 10 ^ Z.of_nat limit) by (apply Z.pow_le_mono_r; lia).
  destruct V as [[_ ->]|[[_ ->]|[_ ->]]]; lia.
Qed.
Lemma int_size f limit a z : within limit a -> int_of f a = Ok z -> Z.abs z < 10 ^ Z.of_nat limit.
Proof.
  destruct a as [|y|s]; cbn [int_of within]; [discriminate| |].
  - intros H E. injection E as <-. exact H.
  - intros [A H]. destruct (int_of_str f s) as [y|] eqn:E; [|discriminate]. intros E'. injection E' as <-. apply (text_size s); [|exact H]. apply (int_of_str_sound f s y A E).
Qed.

(** Without a limit, and for arguments of at most that many digits, it is the function of C69 *)
Theorem C85_within : forall P rewritten limit random pw lot sequence salt,
  limit = 0%nat \/ within limit lot /\ within limit sequence ->
  intermediate_code_limited P rewritten limit random pw lot sequence salt = intermediate_code_any P rewritten random pw lot sequence salt.
Proof.
  intros P f limit random pw lot sequence salt H.
  assert (I : forall a, limit = 0%nat \/ within limit a -> int_of_limited f limit a = int_of f a /\ num_str limit a = Ok (num_text a) /\
    forall z, int_of f a = Ok z -> int_str limit z = Ok (dec z)).
  { intros a W. destruct (Nat.eq_dec limit 0) as [->|N].
    - split; [destruct a; reflexivity|]. split; [destruct a; reflexivity|]. reflexivity.
    - destruct W as [W|W]; [contradiction|]. assert (L : (0 < limit)%nat) by lia. split; [|split].
      + destruct a as [|z|s]; [reflexivity|reflexivity|]. destruct W as [A W]. apply text_within; assumption.
      + destruct a as [|z|s]; [reflexivity| |reflexivity]. apply int_str_within; assumption.
      + intros z E. apply int_str_within; [exact L|]. apply (int_size f limit a z W E). }
  destruct (I lot) as (I1 & I2 & I3); [tauto|]. destruct (I sequence) as (J1 & J2 & J3); [tauto|].
  unfold intermediate_code_limited, intermediate_code_any.
  destruct (if truthy salt then get_bytes salt true else Ok random) as [b|e]; [|reflexivity]. cbn [bind].
  destruct (negb _); [reflexivity|]. destruct (Nat.eqb _ 4 && _); [reflexivity|]. destruct (_ || _); [rewrite I2, J2; reflexivity|].
  destruct (truthy_num lot && truthy_num sequence); [|reflexivity].
  rewrite I1, J1. destruct (int_of f lot) as [l|e]; [|reflexivity]. cbn [bind]. destruct (int_of f sequence) as [q|e]; [|reflexivity]. cbn [bind].
  rewrite (I3 l eq_refl), (J3 q eq_refl). cbn [bind]. reflexivity.
Qed.
(** With any limit, a call does what C69 says or raises ValueError: no other code is ever made *)
Theorem C85_or : forall P rewritten limit random pw lot sequence salt,
  intermediate_code_limited P rewritten limit random pw lot sequence salt = intermediate_code_any P rewritten random pw lot sequence salt \/
  intermediate_code_limited P rewritten limit random pw lot sequence salt = Raise (Builtin ValueError).
Proof.
  intros P f limit random pw lot sequence salt. unfold intermediate_code_limited, intermediate_code_any.
  destruct (if truthy salt then get_bytes salt true else Ok random) as [b|e]; [|auto]. cbn [bind].
  destruct (negb _); [auto|]. destruct (Nat.eqb _ 4 && _); [auto|]. destruct (_ || _).
  - destruct (num_str_or limit lot) as [-> | ->]; [|auto]. cbn [bind]. destruct (num_str_or limit sequence) as [-> | ->]; auto.
  - destruct (truthy_num lot && truthy_num sequence); [|auto].
    destruct (int_of_or f limit lot) as [-> | ->]; [|auto]. destruct (int_of f lot) as [l|e]; [|auto]. cbn [bind].
    destruct (int_of_or f limit sequence) as [-> | ->]; [|auto]. destruct (int_of f sequence) as [q|e]; [|auto]. cbn [bind].
    destruct (negb ((100000 <=? l) && (l <=? 999999))); [destruct (int_str_or limit l) as [-> | ->]; auto|].
    destruct (negb ((0 <=? q) && (q <=? 4095))); [destruct (int_str_or limit q) as [-> | ->]; auto|]. auto.
Qed.
(** Beyond the limit it is ValueError: for text that int() would have to read, and for
    integers that an error text would have to show *)
Definition given (a : numarg) : Prop := a <> NNone /\ a <> NInt 0 /\ a <> NText [].
Lemma given_facts a : given a -> truthy_num a = true /\ num_none a = false.
Proof.
  intros (N & Z0 & T). destruct a as [|z|s]; [congruence| |].
  - split; [|reflexivity]. cbn. destruct (Z.eqb_spec z 0); [subst; congruence|reflexivity].
  - split; [|reflexivity]. destruct s; [congruence|reflexivity].
Qed.
Lemma limited_reached P f limit random arg salt pw lot sequence : entropy_arg random arg = Ok salt ->
  List.length salt = 4%nat \/ List.length salt = 8%nat -> given lot -> given sequence ->
  exists g, intermediate_code_limited P f limit random pw lot sequence arg =
  let* l := int_of_limited f limit lot in
  let* q := int_of_limited f limit sequence in
  if negb ((100000 <=? l) && (l <=? 999999))
  then let* t := int_str limit l in Raise (lib_error CError (str "Invalid lot") None (ExpOther (str "100000 <= lot <= 999999") true) t)
  else if negb ((0 <=? q) && (q <=? 4095))
  then let* t := int_str limit q in Raise (lib_error CError (str "Invalid sequence") None (ExpOther (str "0 <= sequence <= 4095") true) t)
  else g l q.
Proof.
  intros A Hn G1 G2. destruct (given_facts _ G1) as [T1 N1], (given_facts _ G2) as [T2 N2].
  eexists (fun l q => bind (let* pre_factor := scrypt_str P pw (upto 4 salt) 16384 8 8 32 in
          let* ls := integer_to_bytes_n (l * 4096 + q) 4 in
          let owner_entropy := upto 4 salt ++ ls in
          let* pass_factor := double_sha256 P (PBytes (pre_factor ++ owner_entropy)) in
          let* magic := integer_to_bytes MAGIC_LOT_AND_SEQUENCE in
          Ok (pass_factor, magic, owner_entropy)) _).
  unfold intermediate_code_limited. fold (entropy_arg random arg). rewrite A. cbn [bind].
  replace (Nat.eqb (List.length salt) 4 || Nat.eqb (List.length salt) 8) with true by (destruct Hn as [-> | ->]; reflexivity).
  rewrite T1, N1, T2, N2. cbn [negb orb andb]. rewrite andb_false_r. cbv beta iota.
  destruct (int_of_limited f limit lot) as [l|e]; [|reflexivity]. cbn [bind]. destruct (int_of_limited f limit sequence) as [q|e]; [|reflexivity]. cbn [bind].
  destruct (negb ((100000 <=? l) && (l <=? 999999))); [destruct (int_str limit l); reflexivity|].
  destruct (negb ((0 <=? q) && (q <=? 4095))); [destruct (int_str limit q); reflexivity|]. reflexivity.
Qed.
Lemma int_given f limit a : given a -> (exists z, int_of_limited f limit a = Ok z) \/ int_of_limited f limit a = Raise (Builtin ValueError).
Proof.
  intros (N & _). destruct a as [|z|s]; [congruence|left; eexists; reflexivity|]. cbn [int_of_limited int_of].
  destruct (over _ _); [auto|]. destruct (int_of_str f s); eauto.
Qed.
Theorem C85_beyond : forall P rewritten limit random arg salt pw, argument_bytes random arg salt -> (640 <= limit)%nat ->
  List.length salt = 4%nat \/ List.length salt = 8%nat ->
  let call lot sequence := intermediate_code_limited P rewritten limit random pw lot sequence arg in
  let value_error := Raise (Builtin ValueError) in
  (forall lot sequence, beyond limit lot -> given sequence -> call lot sequence = value_error) /\
  (forall lot s, given lot -> beyond limit (NText s) -> call lot (NText s) = value_error) /\
  (forall lot l z, gives lot l -> 100000 <= l <= 999999 -> beyond limit (NInt z) -> call lot (NInt z) = value_error) /\
  (forall z, List.length salt = 8%nat -> beyond limit (NInt z) -> call (NInt z) NNone = value_error /\ call NNone (NInt z) = value_error).
Proof.
  intros P f limit random arg salt pw A L Hn call value_error. subst call value_error. apply argument_entropy in A. cbv beta.
  assert (L0 : (0 < limit)%nat) by lia.
  assert (B6 : 10 ^ 6 <= 10 ^ Z.of_nat limit) by (apply Z.pow_le_mono_r; lia). change (10 ^ 6) with 1000000 in B6.
  assert (GT : forall s, beyond limit (NText s) -> given (NText s)).
  { intros s [_ H]. repeat split; try discriminate. intros E. injection E as ->. unfold digits_in in H. cbn in H. lia. }
  assert (GI : forall z, beyond limit (NInt z) -> given (NInt z)).
  { intros z H. repeat split; try discriminate. intros E. injection E as ->. cbn [beyond] in H. lia. }
  split; [|split; [|split]].
  - intros lot sequence B G. destruct lot as [|z|s]; [destruct B| |].
    + destruct (limited_reached P f limit random arg salt pw _ _ A Hn (GI z B) G) as [g ->]. cbn [int_of_limited int_of bind].
      destruct (int_given f limit sequence G) as [(q & ->)| ->]; [|reflexivity]. cbn [bind].
      cbn [beyond] in B. replace ((100000 <=? z) && (z <=? 999999)) with false by lia. cbn [negb].
      rewrite int_str_beyond by assumption. reflexivity.
    + destruct (limited_reached P f limit random arg salt pw _ _ A Hn (GT s B) G) as [g ->]. destruct B as [As B]. rewrite text_beyond by assumption. reflexivity.
  - intros lot s G B. destruct (limited_reached P f limit random arg salt pw _ _ A Hn G (GT s B)) as [g ->]. destruct B as [As B].
    destruct (int_given f limit lot G) as [(l & ->)| ->]; [|reflexivity]. cbn [bind]. rewrite text_beyond by assumption. reflexivity.
  - intros lot l z G R B. destruct (gives_facts f lot l G) as (T & N & I).
    assert (Gl : given lot).
    { destruct G as [[-> Z0]|(s & -> & D)]; repeat split; try discriminate; [congruence|]. intros E. injection E as ->. cbn [truthy_num] in T. discriminate. }
    destruct (limited_reached P f limit random arg salt pw _ _ A Hn Gl (GI z B)) as [g ->].
    destruct (int_of_or f limit lot) as [-> | ->]; [|reflexivity]. rewrite I. cbn [bind int_of_limited int_of].
    replace ((100000 <=? l) && (l <=? 999999)) with true by lia. cbn [beyond] in B. replace ((0 <=? z) && (z <=? 4095)) with false by lia. cbn [negb].
    rewrite int_str_beyond by assumption. reflexivity.
  - intros z H8 B. destruct (given_facts _ (GI z B)) as [T N]. cbn [beyond] in B. split.
    + unfold intermediate_code_limited. fold (entropy_arg random arg). rewrite A. cbn [bind]. rewrite H8, T. cbn [num_none Nat.eqb andb orb negb num_str].
      rewrite int_str_beyond by assumption. reflexivity.
    + unfold intermediate_code_limited. fold (entropy_arg random arg). rewrite A. cbn [bind]. rewrite H8, T. cbn [num_none truthy_num Nat.eqb andb orb negb num_str].
      cbn [bind]. rewrite int_str_beyond by assumption. reflexivity.
Qed.

(** ** The case where it matters: a lot number with leading zeros *)
Definition zeros_text : pystr := (List.repeat 48%N 4297 ++ str "369861")%list.
Example C85_zeros : decimal_text zeros_text 369861 /\ digits_in zeros_text = 4303%nat /\ beyond 4300 (NText zeros_text) /\ within 4303 (NText zeros_text) /\
  given (NInt 1) /\ gives (NInt 369861) 369861.
Proof.
  assert (A : ascii zeros_text). { apply Forall_forall. intros c H. apply N.ltb_lt. revert c H. apply forallb_forall. vm_compute. reflexivity. }
  assert (D : digits_in zeros_text = 4303%nat) by (vm_compute; reflexivity).
  split; [|split; [exact D|split; [|split; [|split]]]].
  - apply (int_of_str_sound (fun s => s)); [exact A|]. vm_compute. reflexivity.
  - split; [exact A|]. rewrite D. apply Nat.ltb_lt. reflexivity.
  - split; [exact A|]. rewrite D. apply le_n.
  - repeat split; discriminate.
  - left. split; [reflexivity|discriminate].
Qed.
Example C85_shown_example : dec 369861 = str "369861" /\ dec (-7) = str "-7" /\ dec 0 = str "0".
Proof. split; [|split]; vm_compute; reflexivity. Qed.
