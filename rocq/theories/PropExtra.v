(** * C59, C60: signed integers (utils.py), the branches of point.py for old
    versions of ecdsa *)
From Coq Require Import Lia ZifyBool ZifyNat ZifyN.
From Verif Require Import Py Prims Const Spec PyFacts Utils UtilsFacts Base58Facts Curve SpecCurve CurveFacts CurveFacts2
  Secp256k1 SecpFacts SpecBip38 PropUtils PropCurve PointFallback.

(** ** C59: signed integers *)
(** [v] is the number that [l] denotes in two's complement. *)
Definition twos_complement (e : endian) (l : bytes) (v : Z) : Prop :=
  (exists k, v = value_of e l + k * 256 ^ zlen l) /\ - 256 ^ zlen l <= 2 * v < 256 ^ zlen l.
Lemma twos_complement_fun e l v v' : twos_complement e l v -> twos_complement e l v' -> v = v'.
Proof.
  intros [[k E] B] [[k' E'] B']. assert (0 < 256 ^ zlen l) by (apply Z.pow_pos_nonneg; unfold zlen; lia).
  assert ((k - k') * 256 ^ zlen l = v - v') by lia. assert (k = k') by nia. subst. reflexivity.
Qed.
Lemma half_256 n : 0 < n -> 2 * Z.shiftl 1 (8 * n - 1) = 256 ^ n.
Proof.
  intros H. rewrite Z.shiftl_1_l, <- Z.pow_succ_r by lia. replace (Z.succ (8 * n - 1)) with (8 * n) by lia.
  rewrite Z.pow_mul_r by lia. reflexivity.
Qed.
Lemma value_bound e l : 0 <= value_of e l < 256 ^ zlen l.
Proof. destruct e; cbn [value_of]; rewrite be_value_be2z; [rewrite <- (bound_rev l)|]; apply be2z_bound. Qed.
Lemma zlen_pos (l : bytes) : l <> [] -> 0 < zlen l.
Proof. destruct l; [congruence|]. unfold zlen. cbn [List.length]. lia. Qed.
(** Every byte string is read in two's complement, the empty one as 0 ... *)
Theorem C59_read_signed : forall l e, l <> [] -> twos_complement e l (bytes_to_integer_full l e true).
Proof.
  intros l e N. pose proof (zlen_pos l N) as P. pose proof (half_256 _ P) as H. pose proof (value_bound e l) as B.
  assert (X : bytes_to_integer_full l e true = if Z.shiftl 1 (8 * zlen l - 1) <=? value_of e l then value_of e l - 256 ^ zlen l else value_of e l).
  { unfold bytes_to_integer_full, from_bytes. cbv zeta. rewrite shiftl_1 by lia. rewrite <- (from_bytes_value l e). unfold from_bytes. cbv zeta. cbn [andb].
    destruct (Z.ltb_spec 0 (zlen l)); [|lia]. rewrite andb_true_r. reflexivity. }
  rewrite X. destruct (Z.leb_spec (Z.shiftl 1 (8 * zlen l - 1)) (value_of e l)); split; try lia; [exists (-1)|exists 0]; lia.
Qed.
Theorem C59_read_empty : forall e s, bytes_to_integer_full [] e s = 0.
Proof. intros [|] [|]; reflexivity. Qed.
(** ... and written back with the same width. *)
Theorem C59_signed_roundtrip : forall l e, l <> [] ->
  integer_to_bytes_full (bytes_to_integer_full l e true) (Some (zlen l)) e true = Ok l.
Proof.
  intros l e N. pose proof (C59_read_signed l e N) as [[k E] B]. set (v := bytes_to_integer_full l e true) in *. clearbody v.
  pose proof (zlen_pos l N) as P. pose proof (half_256 _ P) as H.
  unfold integer_to_bytes_full. destruct (Z.eqb_spec (zlen l) 0); [lia|]. unfold to_bytes.
  destruct (Z.ltb_spec (zlen l) 0); [lia|]. destruct (Z.ltb_spec 0 (zlen l)); [|lia]. cbv zeta.
  replace ((- Z.shiftl 1 (8 * zlen l - 1) <=? v) && (v <? Z.shiftl 1 (8 * zlen l - 1))) with true by lia.
  assert (Z2 : z2be (Z.to_nat (zlen l)) v = match e with Big => l | Little => rev l end).
  { apply be2z_inj; [rewrite z2be_length; destruct e; rewrite ?rev_length; unfold zlen; lia|].
    rewrite be2z_z2be, Z2Nat.id by lia. rewrite E, Z_mod_plus_full, Z.mod_small by apply value_bound.
    destruct e; cbn [value_of]; rewrite be_value_be2z; reflexivity. }
  rewrite Z2. destruct e; rewrite ?rev_involutive; reflexivity.
Qed.
(** With a width w > 0 a number is written in two's complement if it fits, and is an OverflowError otherwise. *)
Theorem C59_signed_width : forall z w e, 0 < w ->
  (- 256 ^ w <= 2 * z < 256 ^ w -> exists l, integer_to_bytes_full z (Some w) e true = Ok l /\
     zlen l = w /\ twos_complement e l z /\ bytes_to_integer_full l e true = z) /\
  (~ (- 256 ^ w <= 2 * z < 256 ^ w) -> integer_to_bytes_full z (Some w) e true = Raise (Builtin OverflowError)).
Proof.
  intros z w e P. pose proof (half_256 _ P) as H.
  assert (X : integer_to_bytes_full z (Some w) e true =
    if (- Z.shiftl 1 (8 * w - 1) <=? z) && (z <? Z.shiftl 1 (8 * w - 1))
    then Ok (match e with Big => z2be (Z.to_nat w) z | Little => rev (z2be (Z.to_nat w) z) end) else Raise (Builtin OverflowError)).
  { unfold integer_to_bytes_full. destruct (Z.eqb_spec w 0); [lia|]. unfold to_bytes.
    destruct (Z.ltb_spec w 0); [lia|]. destruct (Z.ltb_spec 0 w); [|lia]. reflexivity. }
  rewrite X. split; intros B.
  - replace ((- Z.shiftl 1 (8 * w - 1) <=? z) && (z <? Z.shiftl 1 (8 * w - 1))) with true by lia.
    eexists. split; [reflexivity|]. set (l := match e with Big => _ | Little => _ end).
    assert (L : zlen l = w) by (subst l; destruct e; [rewrite bound_rev|]; unfold zlen; rewrite z2be_length; lia).
    assert (V : value_of e l = z mod 256 ^ w).
    { subst l. destruct e; cbn [value_of]; rewrite ?rev_involutive, be_value_be2z, be2z_z2be, Z2Nat.id by lia; reflexivity. }
    assert (T : twos_complement e l z).
    { split; rewrite L; [|exact B]. exists (z / 256 ^ w). rewrite V. pose proof (Z.div_mod z (256 ^ w) ltac:(lia)). lia. }
    split; [exact L|]. split; [exact T|]. assert (N : l <> []) by (intros ->; unfold zlen in L; cbn in L; lia).
    apply (twos_complement_fun e l); [apply C59_read_signed, N|exact T].
  - replace ((- Z.shiftl 1 (8 * w - 1) <=? z) && (z <? Z.shiftl 1 (8 * w - 1))) with false by lia. reflexivity.
Qed.
(** Without a width one byte is used for all numbers that are not positive, and
    the unsigned width for the others, so many numbers do not fit: those below
    -128, and those whose shortest form starts with a byte above 127. *)
Theorem C59_signed_no_width : forall z e,
  (z <= 0 -> integer_to_bytes_full z None e true = integer_to_bytes_full z (Some 1) e true) /\
  (z < -128 -> integer_to_bytes_full z None e true = Raise (Builtin OverflowError)) /\
  (forall l, 0 < z -> minimal_bytes z l ->
     (byte_value (first_byte l) <= 127 -> exists l', integer_to_bytes_full z None e true = Ok l' /\ l' = match e with Big => l | Little => rev l end) /\
     (127 < byte_value (first_byte l) -> integer_to_bytes_full z None e true = Raise (Builtin OverflowError))).
Proof.
  intros z e. assert (A : z <= 0 -> integer_to_bytes_full z None e true = integer_to_bytes_full z (Some 1) e true).
  { intros H. unfold integer_to_bytes_full. destruct (Z.ltb_spec 0 z); [lia|]. reflexivity. }
  split; [exact A|]. split.
  - intros H. rewrite A by lia. apply C59_signed_width; lia.
  - intros l Hz [V S]. rewrite be_value_be2z in V.
    assert (W : width z = zlen l).
    { destruct (integer_to_bytes_nonneg z ltac:(lia)) as (l' & E & V' & S' & _).
      assert (EL : l = l'). { rewrite <- S, <- S'. rewrite <- V' in V. pose proof (C05_leading_zeros_dropped l) as D. pose proof (C05_leading_zeros_dropped l') as D'.
        change (bytes_to_integer l) with (be2z l) in D. change (bytes_to_integer l') with (be2z l') in D'. rewrite V in D. congruence. }
      subst l'. rewrite integer_to_bytes_unfold in E. rewrite to_bytes_ok in E.
      - assert (EL : z2be (Z.to_nat (width z)) z = l) by congruence. rewrite <- EL. unfold zlen. rewrite z2be_length. pose proof (width_pos z). lia.
      - pose proof (width_pos z). lia.
      - destruct (Z_lt_le_dec z (256 ^ width z)); [lia|]. rewrite to_bytes_overflow in E by (pose proof (width_pos z); lia). discriminate. }
    assert (N : l <> []) by (intros ->; cbn in V; lia).
    assert (X : integer_to_bytes_full z None e true = integer_to_bytes_full z (Some (zlen l)) e true).
    { rewrite <- W. pose proof (width_pos z) as WP. change (integer_to_bytes_full z None e true) with (to_bytes z (width z) e true).
      unfold integer_to_bytes_full. destruct (Z.eqb_spec (width z) 0); [lia|reflexivity]. }
    rewrite X. pose proof (zlen_pos l N) as P.
    assert (F : 2 * z < 256 ^ zlen l <-> byte_value (first_byte l) <= 127).
    { destruct l as [|b r]; [congruence|]. cbn [first_byte]. rewrite be2z_cons in V. replace (zlen (b :: r)) with (zlen r + 1) by (unfold zlen; cbn [List.length]; lia).
      rewrite Z.pow_add_r by (unfold zlen; lia). pose proof (be2z_bound r). change (byte_value b) with (b2z b). nia. }
    pose proof (C59_signed_width z (zlen l) e P) as [G1 G2]. split; intros B.
    + destruct G1 as (l' & E' & L' & T' & _); [assert (0 < 256 ^ zlen l) by (apply Z.pow_pos_nonneg; lia); lia|]. exists l'. split; [exact E'|].
      destruct T' as [[k K] _]. pose proof (value_bound e l') as VB. rewrite L' in *.
      assert (k = 0) by (pose proof (be2z_bound l); nia). subst k. rewrite Z.mul_0_l, Z.add_0_r in K.
      assert (Q : match e with Big => l' | Little => rev l' end = l).
      { apply be2z_inj; [destruct e; rewrite ?rev_length; unfold zlen in L'; lia|]. rewrite V, K. destruct e; cbn [value_of]; rewrite be_value_be2z; reflexivity. }
      rewrite <- Q. destruct e; rewrite ?rev_involutive; reflexivity.
    + apply G2. rewrite F. lia.
Qed.
Example C59_examples :
  integer_to_bytes_full (-129) None Big true = Raise (Builtin OverflowError) /\ integer_to_bytes_full (-129) (Some 2) Big true = Ok [xff; x7f] /\
  integer_to_bytes_full 200 None Big true = Raise (Builtin OverflowError) /\ integer_to_bytes_full 300 None Big true = Ok [x01; x2c] /\
  bytes_to_integer_full [x7f; xff] Little true = -129.
Proof. repeat split. Qed.

(** ** C60: the branches for old versions of ecdsa *)
Lemma fixed_n_ok x : 0 <= x < p_field -> integer_to_bytes_n x (Z.of_nat COORDINATE_POINT_LENGTH) = Ok (z2be 32 x).
Proof.
  intros H. unfold integer_to_bytes_n, integer_to_bytes_full. change (Z.of_nat COORDINATE_POINT_LENGTH) with 32.
  change (if 32 =? 0 then _ else 32) with 32. rewrite to_bytes_ok; [reflexivity|lia|]. apply range_p in H. exact H.
Qed.
(** Points of the curve are written with the same bytes as by new versions. *)
Theorem C60_same_bytes : forall x y, on_curve (Aff x y) ->
  Point_raw_encoded_old (Aff x y) = Point_raw_encoded (Aff x y) /\ Point_raw_decoded_old (Aff x y) = Point_raw_decoded (Aff x y).
Proof.
  intros x y O. pose proof (on_curve_x _ _ O) as Hx. pose proof (on_curve_y _ _ O) as Hy.
  unfold Point_raw_encoded_old, Point_raw_decoded_old, Point_raw_encoded, Point_raw_decoded.
  assert (Hy' : 0 <= y < p_field) by lia.
  rewrite (fixed_n_ok x Hx), (fixed_n_ok y Hy'), (number_to_string_ok x (range_p x Hx)), (number_to_string_ok y (range_p y Hy')). cbn [bind]. split; [|reflexivity].
  destruct (Z.odd y); reflexivity.
Qed.
(** The untagged form is read back, and, unlike with new versions, checked. *)
Theorem C60_raw_read : forall x y l, raw_xy x y l ->
  (cong (y * y) (x * x * x + 7) -> Point_from_bytes_old l = Ok (Aff x y)) /\
  (~ cong (y * y) (x * x * x + 7) -> Point_from_bytes_old l = Raise (Builtin AssertionError)).
Proof.
  intros x y l R. pose proof (from_raw_ok _ _ _ R) as E. unfold from_raw_encoding, string_to_number in E.
  unfold Point_from_bytes_old. change COORDINATE_POINT_LENGTH with 32%nat.
  change (bytes_to_integer (upto 32 l)) with (be2z (upto 32 l)). change (bytes_to_integer (from 32 l)) with (be2z (from 32 l)).
  assert (be2z (upto 32 l) = x) as -> by congruence. assert (be2z (from 32 l) = y) as -> by congruence. apply C46_from_coordinates.
Qed.
(** The compressed form is misread: its point is never returned. *)
Lemma same_bytes_repeat (xs : bytes) t : t :: removelast xs = xs -> xs = [] \/ xs = repeat t (List.length xs).
Proof.
  revert t. induction xs as [|b r IH]; intros t E; [auto|]. right. cbn [removelast] in E. destruct r as [|c r].
  - cbn. congruence.
  - assert (b = t) by congruence. subst b. assert (E' : t :: removelast (c :: r) = c :: r) by congruence.
    destruct (IH t E') as [X|X]; [discriminate|]. cbn [List.length repeat]. f_equal. exact X.
Qed.
Theorem C60_compressed_misread : forall x y l, on_curve (Aff x y) -> sec1_compressed x y l ->
  Point_from_bytes_old l <> Ok (Aff x y).
Proof.
  intros x y l O (xs & [L V] & ->) E. rewrite be_value_be2z in V.
  unfold Point_from_bytes_old in E. change COORDINATE_POINT_LENGTH with 32%nat in E.
  set (t := if Z.even y then x02 else x03) in *.
  assert (U : upto 32 (t :: xs) = t :: removelast xs).
  { unfold upto. change (firstn 32 (t :: xs)) with (t :: firstn 31 xs). f_equal. rewrite removelast_firstn_len, L. reflexivity. }
  assert (F : from 32 (t :: xs) = [last xs x00]).
  { unfold from. change (skipn 32 (t :: xs)) with (skipn 31 xs). assert (XN : xs <> []) by (intros ->; discriminate L). destruct (exists_last XN) as (r & b & ->).
    rewrite app_length in L. cbn [List.length] in L. rewrite last_last. replace 31%nat with (List.length r) by lia.
    rewrite skipn_app, skipn_all, Nat.sub_diag. reflexivity. }
  rewrite U, F in E. unfold Point_from_coordinates in E. destruct (contains_point _ _); [|discriminate].
  change (bytes_to_integer (t :: removelast xs)) with (be2z (t :: removelast xs)) in E. change (bytes_to_integer [last xs x00]) with (be2z [last xs x00]) in E.
  assert (EX : be2z (t :: removelast xs) = x) by congruence. assert (EY : be2z [last xs x00] = y) by congruence. clear E.
  assert (R : t :: removelast xs = xs).
  { apply be2z_inj; [|congruence]. rewrite removelast_firstn_len. cbn [List.length]. rewrite firstn_length, L. reflexivity. }
  destruct (same_bytes_repeat xs t R) as [->|XR]; [discriminate L|]. rewrite L in XR.
  rewrite XR in EY, V. destruct O as (_ & _ & C). apply contains_point_iff in C. rewrite <- EY, <- V in C.
  assert (T : t = x02 \/ t = x03) by (subst t; destruct (Z.even y); auto). clearbody t. clear - C T.
  destruct T as [-> | ->]; vm_compute in C; discriminate.
Qed.
Example C60_examples : Point_from_bytes_old (z2be 32 1 ++ z2be 32 1) = Raise (Builtin AssertionError) /\
  Point_from_bytes_old (z2be 32 G_x ++ z2be 32 G_y) = Ok G /\ Point_from_bytes_old (x02 :: z2be 32 G_x) = Raise (Builtin AssertionError) /\
  Point_from_bytes (x02 :: z2be 32 G_x) = Ok G.
Proof. split; [|split; [|split]]; vm_compute; reflexivity. Qed.
