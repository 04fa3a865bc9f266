(** * C88: lot and sequence numbers given as floats *)
From Coq Require Import Lia ZifyBool ZifyNat ZifyN.
From Verif Require Import Exceptions ErrorFacts Py Prims Const Spec PyFacts Utils UtilsFacts Base58 Crypto
  Curve SpecCurve Secp256k1 Cryptocurrencies Wif Bip38 SpecBip38 SpecRecords SpecSession
  Bip38Facts Bip38Facts2 PropIntermediate LotText PropLotText DigitLimit PropDigits Toy FloatLot.

(** ** What is claimed *)
(** [l] is the number m * 2^e without its fraction: m * 2^e = n / d, and [l] is the
    integer next to it on the side of zero. *)
Definition whole_part (m e l : Z) : Prop :=
  exists n d, 0 < d /\ n * 2 ^ Z.max (- e) 0 = m * 2 ^ Z.max e 0 * d /\
    (0 <= n -> l * d <= n < (l + 1) * d) /\ (n <= 0 -> (l - 1) * d < n <= l * d).
(** The argument is not false and stands for the integer [l]. *)
Definition counts_as (a : fnum) (l : Z) : Prop :=
  (exists x, a = FNum x /\ gives x l) \/ exists m e t, a = FFloat (Finite m e) t /\ m <> 0 /\ whole_part m e l.

(** ** Proofs *)
Lemma scale d n d' n' l : 0 < d -> 0 < d' -> n * d' = n' * d ->
  (l * d <= n <-> l * d' <= n') /\ (n < l * d <-> n' < l * d').
Proof. intros D D' E. nia. Qed.
Lemma int_whole m e : exists l, int_of_float (Finite m e) = Ok l /\ whole_part m e l.
Proof.
  cbn [int_of_float]. eexists. split; [reflexivity|]. destruct (Z.leb_spec 0 e) as [H|H].
  - exists (m * 2 ^ e), 1. rewrite (Z.max_l e 0), (Z.max_r (- e) 0) by lia. change (2 ^ 0) with 1. lia.
  - exists m, (2 ^ (- e)). assert (0 < 2 ^ (- e)) by (apply Z.pow_pos_nonneg; lia). rewrite (Z.max_r e 0), (Z.max_l (- e) 0) by lia.
    change (2 ^ 0) with 1. split; [lia|]. split; [lia|]. pose proof (Z.quot_rem m (2 ^ (- e)) ltac:(lia)) as Q. split; intros S.
    + pose proof (Z.rem_bound_pos m (2 ^ (- e)) ltac:(lia) ltac:(lia)). nia.
    + pose proof (Z.rem_bound_pos (- m) (2 ^ (- e)) ltac:(lia) ltac:(lia)) as B. rewrite Z.rem_opp_l in B by lia. nia.
Qed.
Lemma whole_unique m e l l' : whole_part m e l -> whole_part m e l' -> l = l'.
Proof.
  intros (n & d & D & E & P & N) (n' & d' & D' & E' & P' & N').
  set (a := 2 ^ Z.max (- e) 0) in *. set (b := m * 2 ^ Z.max e 0) in *. assert (A : 0 < a) by (apply Z.pow_pos_nonneg; lia). clearbody a b.
  assert (X : n * d' = n' * d).
  { apply (Z.mul_cancel_r _ _ a); [lia|]. replace (n * d' * a) with (n * a * d') by ring. replace (n' * d * a) with (n' * a * d) by ring. rewrite E, E'. ring. }
  assert (S : (0 <= n <-> 0 <= n') /\ (n <= 0 <-> n' <= 0)) by nia.
  destruct (Z.le_ge_cases 0 n) as [G|G].
  - specialize (P G). specialize (P' (proj1 (proj1 S) G)).
    destruct (scale d n d' n' l' D D' X) as [S1 _]. destruct (scale d n d' n' (l' + 1) D D' X) as [_ S2].
    assert (l' * d <= n < (l' + 1) * d) by tauto. nia.
  - specialize (N G). specialize (N' (proj1 (proj2 S) G)). clear P P'.
    destruct (scale d' n' d n l' D' D (eq_sym X)) as [S1 S2]. destruct (scale d' n' d n (l' - 1) D' D (eq_sym X)) as [S3 S4].
    assert ((l' - 1) * d < n <= l' * d) by nia.
    nia.
Qed.
Lemma counts_facts f a l : counts_as a l -> truthy_f a = true /\ none_f a = false /\ int_f f a = Ok l.
Proof.
  intros [(x & -> & G)|(m & e & t & -> & M & W)].
  - exact (gives_facts f x l G).
  - cbn [truthy_f none_f int_f truthy_float]. destruct (Z.eqb_spec m 0); [contradiction|]. split; [reflexivity|]. split; [reflexivity|].
    destruct (int_whole m e) as (l' & -> & W'). f_equal. eapply whole_unique; eassumption.
Qed.
Lemma dec_gives l : gives (NText (dec l)) l.
Proof. right. exists (dec l). split; [reflexivity|]. apply C85_shown. Qed.
(** The outcome depends on truth, None and int() only, unless exactly one number is None. *)
Lemma same_outcome P f random pw lot sequence lot' sequence' arg :
  truthy_f lot = truthy_num lot' -> none_f lot = num_none lot' -> int_f f lot = int_of f lot' ->
  truthy_f sequence = truthy_num sequence' -> none_f sequence = num_none sequence' -> int_f f sequence = int_of f sequence' ->
  (truthy_f lot && none_f sequence) || (none_f lot && truthy_f sequence) = false ->
  intermediate_code_float P f random pw lot sequence arg = intermediate_code_any P f random pw lot' sequence' arg.
Proof.
  intros T1 N1 I1 T2 N2 I2 X. unfold intermediate_code_float, intermediate_code_any. rewrite <- T1, <- N1, <- I1, <- T2, <- N2, <- I2, X. reflexivity.
Qed.
Lemma counted P f random pw lot sequence arg l q : counts_as lot l -> counts_as sequence q ->
  intermediate_code_float P f random pw lot sequence arg = intermediate_code_any P f random pw (NText (dec l)) (NText (dec q)) arg.
Proof.
  intros G1 G2. destruct (counts_facts f _ _ G1) as (T1 & N1 & I1). destruct (counts_facts f _ _ G2) as (T2 & N2 & I2).
  destruct (gives_facts f _ _ (dec_gives l)) as (T1' & N1' & I1'). destruct (gives_facts f _ _ (dec_gives q)) as (T2' & N2' & I2').
  apply same_outcome; try congruence. rewrite T1, N1, T2, N2. reflexivity.
Qed.

(** ** C88 *)
(** Without floats, the model is that of C69. *)
Theorem C88_no_floats : forall P rewritten random pw lot sequence arg,
  intermediate_code_float P rewritten random pw (FNum lot) (FNum sequence) arg = intermediate_code_any P rewritten random pw lot sequence arg.
Proof. reflexivity. Qed.
(** Every finite float has one whole part. *)
Theorem C88_whole_part : forall m e, exists l, whole_part m e l /\ forall l', whole_part m e l' -> l' = l.
Proof. intros m e. destruct (int_whole m e) as (l & _ & W). exists l. split; [exact W|]. intros l' W'. eapply whole_unique; eassumption. Qed.
(** A float makes the code of its whole part. *)
Theorem C88_lot_code : forall P rewritten random arg salt pw lot sequence l q s, prims_ok P ->
  argument_bytes random arg salt -> List.length salt = 4%nat \/ List.length salt = 8%nat ->
  counts_as lot l -> counts_as sequence q -> 100000 <= l <= 999999 -> 0 <= q <= 4095 ->
  (intermediate_code_float P rewritten random pw lot sequence arg = Ok s <->
   exists ent, lot_entropy (slice 0 4 salt) l q ent /\ passphrase_code P true ent pw s).
Proof.
  intros P f random arg salt pw lot sequence l q s HP A L G1 G2 H1 H2. rewrite (counted P f random pw lot sequence arg l q G1 G2).
  exact (C69_lot_code P f random arg salt pw _ _ l q s HP A L (dec_gives l) (dec_gives q) H1 H2).
Qed.
Theorem C88_integers : forall P rewritten random arg pw lot sequence l q,
  counts_as lot l -> counts_as sequence q -> l <> 0 -> q <> 0 ->
  intermediate_code_float P rewritten random pw lot sequence arg = intermediate_code P random pw (Some l) (Some q) arg.
Proof.
  intros P f random arg pw lot sequence l q G1 G2 H1 H2. rewrite (counted P f random pw lot sequence arg l q G1 G2).
  exact (C69_text_or_integer P f random arg pw _ _ l q (dec_gives l) (dec_gives q) H1 H2).
Qed.
(** A sequence between -1 and 1, but not 0, makes a code with sequence 0, which the integer 0 never makes. *)
Theorem C88_fraction_sequence : forall P rewritten random random' arg arg' salt salt' pw pw' lot l m e t s s', prims_ok P ->
  argument_bytes random arg salt -> List.length salt = 4%nat \/ List.length salt = 8%nat ->
  argument_bytes random' arg' salt' -> List.length salt' = 4%nat \/ List.length salt' = 8%nat ->
  counts_as lot l -> 100000 <= l <= 999999 -> m <> 0 -> whole_part m e 0 ->
  intermediate_code_float P rewritten random pw lot (FFloat (Finite m e) t) arg = Ok s ->
  intermediate_code P random' pw' (Some l) (Some 0) arg' = Ok s' ->
  (exists ent, lot_entropy (slice 0 4 salt) l 0 ent /\ passphrase_code P true ent pw s) /\ s <> s'.
Proof.
  intros P f random random' arg arg' salt salt' pw pw' lot l m e t s s' HP A L A' L' G H M W E E'.
  assert (G2 : counts_as (FFloat (Finite m e) t) 0) by (right; exists m, e, t; auto). split.
  - apply (C88_lot_code P f random arg salt pw lot _ l 0 s HP A L G G2 H ltac:(lia)). exact E.
  - rewrite (counted P f random pw lot _ arg l 0 G G2) in E.
    assert (X : intermediate_code_any P f random' pw' (NText (dec l)) (NInt 0) arg' = Ok s').
    { rewrite (zero_integer P f random' arg' pw' _ l (dec_gives l)) by lia. exact E'. }
    eapply (C69_zero_sequence P f random random' arg arg' salt salt' pw pw' (NText (dec l)) l (dec 0) s s' HP A L A' L' (dec_gives l) H).
    + apply C85_shown.
    + exact E.
    + exact X.
Qed.
(** 0.0 and -0.0 are the integer 0. *)
Theorem C88_zero : forall P rewritten random arg pw e t other,
  intermediate_code_float P rewritten random pw (FFloat (Finite 0 e) t) other arg = intermediate_code_float P rewritten random pw (FNum (NInt 0)) other arg /\
  intermediate_code_float P rewritten random pw other (FFloat (Finite 0 e) t) arg = intermediate_code_float P rewritten random pw other (FNum (NInt 0)) arg.
Proof.
  intros P f random arg pw e t other. unfold intermediate_code_float. cbn [truthy_f truthy_float none_f num_none truthy_num].
  change (negb (0 =? 0)) with false. cbn [andb orb]. rewrite !andb_false_r. cbn [orb]. split; reflexivity.
Qed.
Theorem C88_lot_range : forall P rewritten random arg salt pw lot sequence l q, argument_bytes random arg salt ->
  List.length salt = 4%nat \/ List.length salt = 8%nat -> counts_as lot l -> counts_as sequence q -> ~ 100000 <= l <= 999999 ->
  intermediate_code_float P rewritten random pw lot sequence arg = Raise (Lib CError (error_text "Invalid lot" (str "100000 <= lot <= 999999") (dec l))).
Proof.
  intros P f random arg salt pw lot sequence l q A L G1 G2 R. rewrite (counted P f random pw lot sequence arg l q G1 G2).
  exact (C69_lot_range P f random arg salt pw _ _ l q A L (dec_gives l) (dec_gives q) R).
Qed.
Theorem C88_sequence_range : forall P rewritten random arg salt pw lot sequence l q, argument_bytes random arg salt ->
  List.length salt = 4%nat \/ List.length salt = 8%nat -> counts_as lot l -> counts_as sequence q -> 100000 <= l <= 999999 -> ~ 0 <= q <= 4095 ->
  intermediate_code_float P rewritten random pw lot sequence arg = Raise (Lib CError (error_text "Invalid sequence" (str "0 <= sequence <= 4095") (dec q))).
Proof.
  intros P f random arg salt pw lot sequence l q A L G1 G2 R R'. rewrite (counted P f random pw lot sequence arg l q G1 G2).
  exact (C69_sequence_range P f random arg salt pw _ _ l q A L (dec_gives l) (dec_gives q) R R').
Qed.
(** Infinities and NaN: int() refuses them, the lot first. *)
Definition not_finite (a : fnum) (x : py_class) : Prop :=
  (exists b t, a = FFloat (Infinite b) t /\ x = OverflowError) \/ exists t, a = FFloat NaN t /\ x = ValueError.
Theorem C88_not_finite : forall P rewritten random arg salt pw lot sequence x, argument_bytes random arg salt ->
  List.length salt = 4%nat \/ List.length salt = 8%nat ->
  not_finite lot x /\ ((exists q, counts_as sequence q) \/ exists y, not_finite sequence y) \/ (exists l, counts_as lot l) /\ not_finite sequence x ->
  intermediate_code_float P rewritten random pw lot sequence arg = Raise (Builtin x).
Proof.
  intros P f random arg salt pw lot sequence x A L H. apply argument_entropy in A. unfold entropy_arg in A.
  assert (F : forall a y, not_finite a y -> truthy_f a = true /\ none_f a = false /\ int_f f a = Raise (Builtin y)).
  { intros a y [(b & t & -> & ->)|(t & -> & ->)]; repeat split; reflexivity. }
  assert (B : forall a, (exists z, counts_as a z) \/ (exists y, not_finite a y) -> truthy_f a = true /\ none_f a = false).
  { intros a [[z C]|[y N]]; [destruct (counts_facts f _ _ C)|destruct (F _ _ N)]; tauto. }
  assert (B1 : (exists z, counts_as lot z) \/ (exists y, not_finite lot y)) by (destruct H as [[H _]|[H _]]; eauto).
  assert (B2 : (exists z, counts_as sequence z) \/ (exists y, not_finite sequence y)) by (destruct H as [[_ H]|[_ H]]; eauto).
  destruct (B _ B1) as [T1 N1]. destruct (B _ B2) as [T2 N2].
  unfold intermediate_code_float. rewrite A. cbn [bind]. rewrite T1, N1, T2, N2.
  replace (negb _) with false by (destruct L as [-> | ->]; reflexivity). rewrite andb_false_r. cbn [andb orb].
  destruct H as [[H _]|[[l C] H]].
  - destruct (F _ _ H) as (_ & _ & ->). reflexivity.
  - destruct (counts_facts f _ _ C) as (_ & _ & ->). destruct (F _ _ H) as (_ & _ & ->). reflexivity.
Qed.
(** One number only: the error shows the float as Python writes it. *)
Theorem C88_one_missing : forall P rewritten random arg salt pw f t, argument_bytes random arg salt ->
  List.length salt = 8%nat -> (forall e, f <> Finite 0 e) ->
  intermediate_code_float P rewritten random pw (FFloat f t) (FNum NNone) arg =
    Raise (Lib CError (str "Both lot & sequence are required got: (lot " ++ t ++ str ") & (sequence None)")%list) /\
  intermediate_code_float P rewritten random pw (FNum NNone) (FFloat f t) arg =
    Raise (Lib CError (str "Both lot & sequence are required got: (lot None) & (sequence " ++ t ++ str ")")%list).
Proof.
  intros P rw random arg salt pw f t A L N. apply argument_entropy in A. unfold entropy_arg in A. unfold intermediate_code_float.
  rewrite A. cbn [bind]. rewrite L. cbn [Nat.eqb orb negb andb none_f num_none].
  assert (T : truthy_float f = true) by (destruct f as [m e| |]; trivial; cbn [truthy_float]; destruct (Z.eqb_spec m 0); [subst m; destruct (N e); reflexivity|reflexivity]).
  cbn [truthy_f truthy_num]. rewrite T. cbn [andb orb]. split; unfold lib_error; rewrite error_str_text; reflexivity.
Qed.
Example C88_floats :
  counts_as (FFloat (Finite 526367 (-1)) (str "263183.5")) 263183 /\ counts_as (FFloat (Finite 1 (-1)) (str "0.5")) 0 /\
  counts_as (FFloat (Finite (-3) (-1)) (str "-1.5")) (-1) /\ counts_as (FFloat (Finite 1 10) (str "1024.0")) 1024.
Proof.
  repeat split; right; do 3 eexists; (split; [reflexivity|]); (split; [discriminate|]).
  - exists 526367, 2. cbn. lia.
  - exists 1, 2. cbn. lia.
  - exists (-3), 2. cbn. lia.
  - exists 1024, 1. cbn. lia.
Qed.
