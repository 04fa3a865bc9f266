(** * C89: calculations with Point objects (secp256k1/point.py, public_key.py, private_key.py) *)
From Coq Require Import Lia ZifyBool ZifyNat ZifyN Znumtheory.
From Verif Require Import Py Prims Const Spec PyFacts Utils UtilsFacts Base58Facts Curve SpecCurve CurveFacts CurveFacts2
  Secp256k1 SecpFacts SpecBip38 CodecFacts Bip38Facts RecordFacts PropCurve.

(** An expression a program may build from Point objects. *)
Inductive point_expr :=
  | of_key (l : bytes)                    (** PrivateKey.from_bytes(l).public_key().point() *)
  | of_bytes (l : bytes)                  (** Point.from_bytes(l) *)
  | plus (a b : point_expr)               (** a + b *)
  | times (a : point_expr) (k : Z).       (** a * k, or k * a *)

(** Its evaluation by the code, operands from left to right (secp256k1/point.py:155-205). *)
Fixpoint run (e : point_expr) : res pt :=
  match e with
  | of_key l =>
      let* k := PrivateKey_from_bytes l in
      let* q := PrivateKey_public_key k in
      Ok (PublicKey_point q)
  | of_bytes l => Point_from_bytes l
  | plus a b =>
      let* p := run a in
      let* q := run b in
      Ok (Point_add p q)
  | times a k =>
      let* p := run a in
      Ok (Point_mul p k)
  end.

(** Specification: the integer an expression stands for.  A key stands for its
    scalar, the encoding of a public key for the scalar of that key, sums and
    products are those of integers. *)
Inductive stands_for : point_expr -> Z -> Prop :=
  | for_key : forall l e, scalar l e -> stands_for (of_key l) e
  | for_bytes : forall l e x y, 1 <= e < secp_n -> public_point e x y -> encodes x y l -> stands_for (of_bytes l) e
  | for_plus : forall a b v w, stands_for a v -> stands_for b w -> stands_for (plus a b) (v + w)
  | for_times : forall a k v, stands_for a v -> stands_for (times a k) (v * k).

(** Leaves that are private keys, or encodings of points of the curve. *)
Fixpoint proper (e : point_expr) : Prop :=
  match e with
  | of_key l => exists v, scalar l v
  | of_bytes l => exists x y, on_curve (Aff x y) /\ encodes x y l
  | plus a b => proper a /\ proper b
  | times a _ => proper a
  end.

Lemma n_pos : 0 < secp_n. Proof. reflexivity. Qed.
Lemma run_value e v : stands_for e v -> run e = Ok (ec_mul v G).
Proof.
  assert (B : G_order = secp_n) by reflexivity. pose proof n_pos as NP.
  intros H. induction H as [l e S|l e x y He Q EN|a b v w _ IHa _ IHb|a k v _ IHa]; cbn [run].
  - rewrite (proj2 (PrivateKey_from_bytes_iff l {| secexp := e |}) S). cbn [bind].
    destruct S as [_ He]. destruct (pubof_ok e He) as (E & Q & _). rewrite E. cbn [bind].
    unfold PublicKey_point. rewrite <- Q. reflexivity.
  - unfold public_point in Q. apply ec_multiple_iff in Q; [|exact G_on]. rewrite Z2N.id in Q by lia.
    assert (O : on_curve (Aff x y)) by (rewrite Q; apply ec_mul_on, G_on).
    etransitivity; [apply (Point_from_bytes_on l x y O); exact EN|]. rewrite Q. reflexivity.
  - rewrite IHa, IHb. cbn [bind]. unfold Point_add.
    rewrite <- (ec_mul_mod v), <- (ec_mul_mod w), <- (ec_mul_mod (v + w)) by exact G_on. rewrite B.
    pose proof (Z.mod_pos_bound v secp_n NP). pose proof (Z.mod_pos_bound w secp_n NP).
    rewrite <- ec_mul_add by (try lia; exact G_on). rewrite <- (ec_mul_mod (v mod secp_n + _)) by exact G_on.
    rewrite B, <- Zplus_mod. reflexivity.
  - rewrite IHa. cbn [bind]. unfold Point_mul.
    rewrite <- (ec_mul_mod k) by (apply ec_mul_on, G_on). rewrite <- (ec_mul_mod v), <- (ec_mul_mod (v * k)) by exact G_on. rewrite B.
    pose proof (Z.mod_pos_bound v secp_n NP). pose proof (Z.mod_pos_bound k secp_n NP).
    rewrite <- ec_mul_mul by (try lia; exact G_on). rewrite <- (ec_mul_mod (k mod secp_n * _)) by exact G_on.
    rewrite B, <- Zmult_mod, Z.mul_comm. reflexivity.
Qed.

(** The value: infinity for the multiples of the group order, and otherwise
    the public point of the integer reduced modulo the group order. *)
Theorem C89_value : forall e v, stands_for e v ->
  (v mod secp_n = 0 -> run e = Ok Inf) /\
  (v mod secp_n <> 0 -> exists x y, run e = Ok (Aff x y) /\ on_curve (Aff x y) /\ public_point (v mod secp_n) x y).
Proof.
  intros e v H. rewrite (run_value e v H), <- ec_mul_mod by exact G_on. change G_order with secp_n.
  pose proof (Z.mod_pos_bound v secp_n n_pos) as R. set (r := v mod secp_n) in *. clearbody r. split.
  - intros ->. reflexivity.
  - intros Z0. assert (Hr : 1 <= r < secp_n) by lia. destruct (pubof_ok r Hr) as (_ & Q & O).
    exists (pk_x (pubof r)), (pk_y (pubof r)). split; [rewrite <- Q; reflexivity|]. split; [exact O|]. apply pubof_public, Hr.
Qed.
(** Two calculations agree exactly when their integers agree modulo the group
    order: however terms are regrouped, reordered or reduced. *)
Theorem C89_equal : forall e f v w, stands_for e v -> stands_for f w ->
  (run e = run f <-> v mod secp_n = w mod secp_n).
Proof.
  intros e f v w He Hf. rewrite (run_value e v He), (run_value f w Hf).
  rewrite <- (ec_mul_mod v), <- (ec_mul_mod w) by exact G_on. change G_order with secp_n.
  pose proof (Z.mod_pos_bound v secp_n n_pos). pose proof (Z.mod_pos_bound w secp_n n_pos). split; [|congruence].
  intros E. injection E as E. apply ec_mul_G_inj; try assumption.
Qed.
(** Every calculation on keys and on points of the curve stands for an integer. *)
Theorem C89_every : forall e, proper e -> exists v, stands_for e v.
Proof.
  induction e as [l|l|a IHa b IHb|a IHa k]; cbn [proper].
  - intros [v S]. exists v. constructor. exact S.
  - intros (x & y & O & EN). destruct (generated_by_G (Aff x y) O) as (k & Hk & E). exists k.
    assert (k <> 0) by (intros ->; rewrite ec_mul_0 in E; discriminate).
    change G_order with secp_n in Hk. apply (for_bytes l k x y); [lia| |exact EN].
    unfold public_point. apply ec_multiple_iff; [exact G_on|]. rewrite Z2N.id by lia. exact E.
  - intros [A B]. destruct (IHa A) as [v V]. destruct (IHb B) as [w W]. exists (v + w). constructor; assumption.
  - intros A. destruct (IHa A) as [v V]. exists (v * k). constructor; assumption.
Qed.
(** The public key of the result: that of the integer reduced modulo the group order. *)
Theorem C89_public_key : forall e v l, stands_for e v -> scalar l (v mod secp_n) ->
  exists k q p, PrivateKey_from_bytes l = Ok k /\ PrivateKey_public_key k = Ok q /\
    run e = Ok p /\ PublicKey_from_point p = Ok q.
Proof.
  intros e v l H S. exists {| secexp := v mod secp_n |}, (pubof (v mod secp_n)), (PublicKey_point (pubof (v mod secp_n))).
  split; [apply PrivateKey_from_bytes_iff; exact S|]. destruct S as [_ R]. destruct (pubof_ok _ R) as (E & Q & O).
  split; [exact E|]. split.
  - rewrite (run_value e v H), <- ec_mul_mod by exact G_on. change G_order with secp_n. rewrite <- Q. reflexivity.
  - apply PublicKey_from_point_iff. split; [reflexivity|exact O].
Qed.
(** A calculation whose integer is a multiple of the group order gives the
    point at infinity, which has no coordinates, no encoding and no public key. *)
Theorem C89_infinity : forall e v, stands_for e v -> v mod secp_n = 0 ->
  exists p, run e = Ok p /\ Point_x p = None /\ Point_y p = None /\
    Point_raw_encoded p = Raise (Builtin AttributeError) /\ Point_raw_decoded p = Raise (Builtin AttributeError) /\
    Point_raw p = Raise (Builtin AttributeError) /\ PublicKey_from_point p = Raise (Builtin TypeError).
Proof. intros e v H Z0. exists Inf. split; [apply (C89_value e v H), Z0|]. repeat split. Qed.
(** Nothing but a refused leaf makes a calculation fail. *)
Theorem C89_refused : forall e x, run e = Raise x ->
  x = Lib CSecp256k1Error "Invalid private key bytes" \/ x = Lib CSecp256k1Error "Invalid point key bytes".
Proof.
  induction e as [l|l|a IHa b IHb|a IHa k]; intros x; cbn [run].
  - destruct (PrivateKey_from_bytes l) as [k|y] eqn:E; cbn [bind].
    + apply PrivateKey_from_bytes_iff in E. destruct E as [_ R], k as [v]. cbn [secexp] in R.
      destruct (pubof_ok v R) as (Q & _). rewrite Q. discriminate.
    + rewrite (PrivateKey_from_bytes_err _ _ E). intros H. injection H as <-. left. reflexivity.
  - unfold Point_from_bytes. destruct (point_coords l) as [[u w]|]; [discriminate|]. intros H. injection H as <-. right. reflexivity.
  - destruct (run a) as [p|y]; cbn [bind]; [|intros H; injection H as <-; apply IHa; reflexivity].
    destruct (run b) as [q|y]; cbn [bind]; [discriminate|intros H; injection H as <-; apply IHb; reflexivity].
  - destruct (run a) as [p|y]; cbn [bind]; [discriminate|intros H; injection H as <-; apply IHa; reflexivity].
Qed.

(** Keys 5 and 7: (P + Q) * 3 + Q * -2 stands for (5 + 7) * 3 + 7 * -2 = 22; key 1 times the order. *)
Lemma small_scalar e : 1 <= e < 2 ^ 64 -> scalar (z2be 32 e) e.
Proof.
  intros H. assert (A : 2 ^ 64 < secp_n) by reflexivity. split; [|split; [apply H|]; apply (Z.lt_trans _ _ _ (proj2 H) A)].
  assert (B : 2 ^ 64 < p_field) by reflexivity. apply field_fixed. pose proof (Z.lt_trans _ _ _ (proj2 H) B). lia.
Qed.
Example C89_example :
  stands_for (plus (times (plus (of_key (z2be 32 5)) (of_key (z2be 32 7))) 3) (times (of_key (z2be 32 7)) (-2))) 22 /\
  22 mod secp_n <> 0 /\ scalar (z2be 32 22) (22 mod secp_n) /\
  stands_for (times (of_key (z2be 32 1)) secp_n) (1 * secp_n) /\ (1 * secp_n) mod secp_n = 0 /\
  proper (of_key (z2be 32 5)).
Proof.
  assert (M : 22 mod secp_n = 22) by reflexivity. rewrite M. split.
  - change 22 with ((5 + 7) * 3 + 7 * -2). repeat constructor; apply small_scalar; lia.
  - split; [lia|]. split; [apply small_scalar; lia|]. split; [|split; [reflexivity|]].
    + repeat constructor. apply small_scalar; lia.
    + exists 5. apply small_scalar; lia.
Qed.
