(** * C35-C38, C46: keys and points of secp256k1 (secp256k1/*.py) *)
From Coq Require Import Lia ZifyBool ZifyNat ZifyN Znumtheory.
From Verif Require Import Py Prims Const Spec PyFacts Utils UtilsFacts Base58Facts Curve SpecCurve CurveFacts CurveFacts2
  Secp256k1 SecpFacts SpecBip38 CodecFacts Bip38Facts.

(** ** C35: private keys *)
Theorem C35_private_key_accepted : forall l, (exists k, PrivateKey_from_bytes l = Ok k) <-> exists e, scalar l e.
Proof.
  intros l. split.
  - intros [k E]. apply PrivateKey_from_bytes_iff in E. eauto.
  - intros [e S]. exists {| secexp := e |}. apply PrivateKey_from_bytes_iff, S.
Qed.
Theorem C35_private_key_otherwise : forall l, (forall e, ~ scalar l e) ->
  PrivateKey_from_bytes l = Raise (Lib CSecp256k1Error "Invalid private key bytes").
Proof.
  intros l H. destruct (PrivateKey_from_bytes l) as [k|e] eqn:E.
  - apply PrivateKey_from_bytes_iff in E. destruct (H _ E).
  - rewrite (PrivateKey_from_bytes_err _ _ E). reflexivity.
Qed.
Theorem C35_private_key_raw : forall l k, PrivateKey_from_bytes l = Ok k -> PrivateKey_raw k = l.
Proof. exact PrivateKey_raw_id. Qed.
Example C35_examples :
  PrivateKey_from_bytes (z2be 32 1) = Ok {| secexp := 1 |} /\
  PrivateKey_from_bytes (z2be 32 (secp_n - 1)) = Ok {| secexp := secp_n - 1 |} /\
  PrivateKey_from_bytes (z2be 32 secp_n) = Raise (Lib CSecp256k1Error "Invalid private key bytes") /\
  PrivateKey_from_bytes (z2be 32 0) = Raise (Lib CSecp256k1Error "Invalid private key bytes") /\
  PrivateKey_from_bytes (z2be 33 1) = Raise (Lib CSecp256k1Error "Invalid private key bytes") /\
  PrivateKey_from_bytes (z2be 31 1) = Raise (Lib CSecp256k1Error "Invalid private key bytes").
Proof. vm_compute. repeat split. Qed.

(** ** C36: public keys *)
Definition key_at (k : pubkey) (x y : Z) : Prop := PublicKey_point k = Aff x y.
Lemma key_at_eq k x y : key_at k x y -> pk_x k = x /\ pk_y k = y.
Proof. destruct k as [kx ky]. unfold key_at, PublicKey_point. cbn [pk_x pk_y]. intros H. inversion H. auto. Qed.
(** Serialisation: the SEC 1 forms, read back as the same point. *)
Theorem C36_serialise : forall k x y, key_at k x y -> on_curve (Aff x y) ->
  (exists c, raw_compressed k = Ok c /\ sec1_compressed x y c /\ List.length c = 33%nat /\ PublicKey_from_bytes c = Ok k) /\
  (exists u, raw_uncompressed k = Ok u /\ sec1_uncompressed x y u /\ List.length u = 65%nat /\ PublicKey_from_bytes u = Ok k).
Proof.
  intros k x y K O. destruct (key_at_eq _ _ _ K) as [<- <-]. split.
  - destruct (raw_compressed_ok k O) as (c & E & S). exists c. split; [exact E|]. split; [exact S|].
    split; [apply (compressed_length _ _ _ S)|]. apply PublicKey_from_bytes_iff. split; [exact O|auto].
  - destruct (raw_uncompressed_ok k O) as (u & E & S). exists u. split; [exact E|]. split; [exact S|].
    split; [apply (uncompressed_length _ _ _ S)|]. apply PublicKey_from_bytes_iff. split; [exact O|auto].
Qed.
(** raw(public_key_type): only the exact word "compressed" gives the short form. *)
Theorem C36_raw_type : forall k x y t l, key_at k x y -> on_curve (Aff x y) ->
  (PublicKey_raw k t = Ok l <->
   t = str "compressed" /\ sec1_compressed x y l \/ t <> str "compressed" /\ sec1_uncompressed x y l).
Proof.
  intros k x y t l K O. destruct (key_at_eq _ _ _ K) as [<- <-]. unfold PublicKey_raw.
  destruct (str_eqb t (str "compressed")) eqn:T.
  - apply str_eqb_spec in T. rewrite (raw_compressed_iff k l O). tauto.
  - apply str_eqb_false in T. rewrite (raw_uncompressed_iff k l O). tauto.
Qed.
(** Reading: exactly the encodings of curve points with reduced coordinates
    (the two SEC 1 forms, the untagged 64-byte form, the hybrid form). *)
Theorem C36_parse : forall l x y,
  (exists k, PublicKey_from_bytes l = Ok k /\ key_at k x y) <->
  on_curve (Aff x y) /\ (sec1_compressed x y l \/ sec1_uncompressed x y l \/ raw_xy x y l \/ hybrid x y l).
Proof.
  intros l x y. split.
  - intros (k & E & K). destruct (key_at_eq _ _ _ K) as [<- <-]. apply PublicKey_from_bytes_iff in E. exact E.
  - intros H. exists {| pk_x := x; pk_y := y |}. split; [|reflexivity]. apply PublicKey_from_bytes_iff. exact H.
Qed.
Theorem C36_parse_otherwise : forall l,
  (forall x y, on_curve (Aff x y) -> ~ (sec1_compressed x y l \/ sec1_uncompressed x y l \/ raw_xy x y l \/ hybrid x y l)) ->
  PublicKey_from_bytes l = Raise (Lib CSecp256k1Error "Invalid public key bytes").
Proof.
  intros l H. destruct (PublicKey_from_bytes l) as [k|e] eqn:E.
  - apply PublicKey_from_bytes_iff in E. destruct E as [O E]. destruct (H _ _ O E).
  - rewrite (PublicKey_from_bytes_err _ _ E). reflexivity.
Qed.
(** A byte string is an encoding of at most one point. *)
Definition encodes (x y : Z) (l : bytes) : Prop :=
  sec1_compressed x y l \/ sec1_uncompressed x y l \/ raw_xy x y l \/ hybrid x y l.
Theorem C36_unambiguous : forall l x y x' y', on_curve (Aff x y) -> on_curve (Aff x' y') ->
  encodes x y l -> encodes x' y' l -> x = x' /\ y = y'.
Proof.
  intros l x y x' y' O O' E E'. destruct (proj2 (C36_parse l x y) (conj O E)) as (k & F & K).
  destruct (proj2 (C36_parse l x' y') (conj O' E')) as (k' & F' & K').
  rewrite F in F'. injection F' as <-. apply key_at_eq in K, K'. intuition congruence.
Qed.
(** PublicKey.from_point accepts exactly the affine points of the curve. *)
Theorem C36_from_point : forall p k, PublicKey_from_point p = Ok k <-> p = PublicKey_point k /\ on_curve p /\ p <> Inf.
Proof.
  intros p k. rewrite PublicKey_from_point_iff. unfold pk_ok. split.
  - intros [-> O]. split; [reflexivity|]. split; [exact O|discriminate].
  - intros (-> & O & _). auto.
Qed.
Theorem C36_from_point_otherwise : forall p,
  (p = Inf -> PublicKey_from_point p = Raise (Builtin TypeError)) /\
  (forall x y, p = Aff x y -> ~ cong (y * y) (x * x * x + 7) -> PublicKey_from_point p = Raise (Builtin AssertionError)) /\
  (forall x y, p = Aff x y -> cong (y * y) (x * x * x + 7) -> ~ (in_field x /\ in_field y) ->
     PublicKey_from_point p = Raise (Lib CSecp256k1Error "Invalid public key point")).
Proof.
  intros p. split; [intros ->; reflexivity|]. split; intros x y -> C; unfold PublicKey_from_point.
  - destruct (contains_point x y) eqn:E; [apply contains_point_iff in E; contradiction|reflexivity].
  - intros N. apply contains_point_iff in C. rewrite C. cbn [negb].
    destruct (valid_public_point x y) eqn:V; [|reflexivity]. apply valid_public_point_iff in V. destruct V as (V1 & V2 & _). tauto.
Qed.
Example C36_generator : on_curve secp_G /\ (exists c, raw_compressed {| pk_x := G_x; pk_y := G_y |} = Ok c /\ first_byte c = x02).
Proof. split; [exact G_on|]. eexists. split; [reflexivity|reflexivity]. Qed.

(** ** C37: key derivation *)
(** The public key of a private key is the multiple of the generator. *)
Theorem C37_public_key : forall e, 1 <= e < secp_n -> exists k x y,
  PrivateKey_public_key {| secexp := e |} = Ok k /\ key_at k x y /\ on_curve (Aff x y) /\ public_point e x y.
Proof.
  intros e He. destruct (pubof_ok e He) as (E & Q & O). exists (pubof e), (pk_x (pubof e)), (pk_y (pubof e)).
  split; [exact E|]. split; [reflexivity|]. split; [exact O|]. unfold public_point.
  apply ec_multiple_iff; [exact G_on|]. rewrite Z2N.id by lia. exact Q.
Qed.
(** The sum of points is the textbook one, commutative and associative. *)
Theorem C37_addition : forall P Q R, on_curve P -> on_curve Q -> (ec_sum P Q R <-> R = Point_add P Q).
Proof. exact ec_sum_iff. Qed.
Theorem C37_group : forall P Q R, on_curve P -> on_curve Q -> on_curve R ->
  on_curve (Point_add P Q) /\ Point_add P Q = Point_add Q P /\
  Point_add (Point_add P Q) R = Point_add P (Point_add Q R) /\ Point_add P Inf = P /\
  exists P', on_curve P' /\ Point_add P P' = Inf.
Proof.
  intros P Q R OP OQ OR. split; [apply ec_add_on; assumption|]. split; [apply ec_comm; assumption|].
  split; [apply ec_assoc; assumption|]. split; [apply ec_inf_r, OP|]. exists (ec_neg P). split; [apply ec_neg_on, OP|apply ec_add_neg, OP].
Qed.
(** Multiplication is repeated addition. *)
Theorem C37_multiplication : forall k P R, on_curve P -> (ec_multiple k P R <-> R = Point_mul P (Z.of_N k)).
Proof. exact ec_multiple_iff. Qed.
(** Multiplying the public key of a by b gives the public key of a*b mod N. *)
Theorem C37_action : forall a b, 1 <= a < secp_n -> 1 <= b < secp_n -> exists ka kab,
  PrivateKey_public_key {| secexp := a |} = Ok ka /\
  PublicKey_from_point (Point_mul (PublicKey_point ka) b) = Ok kab /\
  1 <= (a * b) mod secp_n < secp_n /\
  PrivateKey_public_key {| secexp := (a * b) mod secp_n |} = Ok kab.
Proof.
  intros a b Ha Hb. destruct (pubof_ok a Ha) as (E & _). exists (pubof a), (pubof ((a * b) mod G_order)).
  split; [exact E|]. split; [apply mul_pub_pub; assumption|]. split; [apply mul_mod_range; assumption|].
  apply pubof_ok, mul_mod_range; assumption.
Qed.
Theorem C37_injective : forall a b, 1 <= a < secp_n -> 1 <= b < secp_n ->
  PrivateKey_public_key {| secexp := a |} = PrivateKey_public_key {| secexp := b |} -> a = b.
Proof.
  intros a b Ha Hb E. destruct (pubof_ok a Ha) as (Ea & Qa & _). destruct (pubof_ok b Hb) as (Eb & Qb & _).
  rewrite Ea, Eb in E. injection E as E. apply ec_mul_G_inj; try (change secp_n with G_order in *; lia). congruence.
Qed.
Example C37_example : exists k, PrivateKey_public_key {| secexp := 1 |} = Ok k /\ PublicKey_point k = secp_G.
Proof. exists {| pk_x := G_x; pk_y := G_y |}. split; [|reflexivity]. unfold PrivateKey_public_key. cbn [secexp]. rewrite ec_mul_1 by exact G_on. reflexivity. Qed.
(** Key 2: the doubled generator of the SEC 2 test vectors. *)
Example C37_example_2 : PrivateKey_public_key {| secexp := 2 |} = Ok {|
  pk_x := 0xC6047F9441ED7D6D3045406E95C07CD85C778E4B8CEF3CA7ABAC09B95C709EE5;
  pk_y := 0x1AE168FEA63DC339A3C58419466CEAEEF7F632653266D0E1236431A950CFE52A |}.
Proof. vm_compute. reflexivity. Qed.

(** ** C38: prime order, cofactor 1 *)
Theorem C38_prime_order : prime secp_n /\ prime secp_p /\ Point_mul secp_G secp_n = Inf /\
  forall P, on_curve P -> exists k, 0 <= k < secp_n /\ P = Point_mul secp_G k.
Proof. split; [exact n_prime|]. split; [exact p_prime|]. split; [exact nG|exact generated_by_G]. Qed.
(** No point supplied by a caller is killed by a scalar in 1..N-1. *)
Theorem C38_multiples_are_points : forall P e, on_curve P -> P <> Inf -> 1 <= e < secp_n ->
  exists x y, Point_mul P e = Aff x y /\ on_curve (Aff x y) /\ exists k, PublicKey_from_point (Point_mul P e) = Ok k.
Proof.
  intros [|x0 y0] e O NI He; [congruence|]. destruct (mul_pub {| pk_x := x0; pk_y := y0 |} e O He) as (k & E & O' & Q).
  exists (pk_x k), (pk_y k). split; [symmetry; exact Q|]. split; [exact O'|]. exists k. exact E.
Qed.
Theorem C38_multiply_injective : forall P a b, on_curve P -> P <> Inf -> 1 <= a < secp_n -> 1 <= b < secp_n ->
  Point_mul P a = Point_mul P b -> a = b.
Proof.
  assert (W : forall P a b, on_curve P -> P <> Inf -> 0 < a <= b -> b < secp_n -> Point_mul P a = Point_mul P b -> a = b).
  { intros P a b O NI Ha Hb E. unfold Point_mul in E. replace b with (a + (b - a)) in E by lia. rewrite ec_mul_add in E by (trivial; lia).
    rewrite <- (ec_inf_r (ec_mul a P)) in E at 1 by (apply ec_mul_on, O).
    apply ec_cancel in E; try (apply ec_mul_on, O); try exact I. symmetry in E. apply (ec_mul_nz _ _ O NI) in E.
    destruct (Z.eq_dec (b - a) 0); [lia|]. apply Z.divide_pos_le in E; [|lia]. change secp_n with G_order in Hb. lia. }
  intros P a b O NI Ha Hb E. destruct (Z_le_gt_dec a b); [apply (W P); trivial; lia|]. symmetry. apply (W P); trivial; try lia. congruence.
Qed.
Example C38_example : on_curve secp_G /\ secp_G <> Inf.
Proof. split; [exact G_on|discriminate]. Qed.

(** ** C46: the Point wrapper *)
Theorem C46_roundtrip : forall x y, on_curve (Aff x y) ->
  (exists c, Point_raw_encoded (Aff x y) = Ok c /\ sec1_compressed x y c /\ Point_from_bytes c = Ok (Aff x y)) /\
  (exists r, Point_raw_decoded (Aff x y) = Ok r /\ raw_xy x y r /\ Point_from_bytes r = Ok (Aff x y)) /\
  Point_raw (Aff x y) = Point_raw_decoded (Aff x y) /\
  Point_x (Aff x y) = Some x /\ Point_y (Aff x y) = Some y.
Proof.
  intros x y O. pose proof (on_curve_x _ _ O) as Hx. pose proof (on_curve_y _ _ O) as Hy. split; [|split; [|auto]].
  - destruct (raw_compressed_ok {| pk_x := x; pk_y := y |} O) as (c & E & S). cbn [pk_x pk_y] in *. exists c.
    split; [exact E|]. split; [exact S|]. apply Point_from_bytes_on; auto.
  - exists (z2be 32 x ++ z2be 32 y). assert (R : raw_xy x y (z2be 32 x ++ z2be 32 y)).
    { exists (z2be 32 x), (z2be 32 y). split; [apply field_fixed; lia|]. split; [apply field_fixed; lia|reflexivity]. }
    split; [|split; [exact R|apply Point_from_bytes_on; auto]].
    cbn [Point_raw_decoded]. rewrite !number_to_string_ok by (apply range_p; lia). reflexivity.
Qed.
Theorem C46_from_coordinates : forall x y,
  (cong (y * y) (x * x * x + 7) -> Point_from_coordinates x y = Ok (Aff x y)) /\
  (~ cong (y * y) (x * x * x + 7) -> Point_from_coordinates x y = Raise (Builtin AssertionError)).
Proof.
  intros x y. unfold Point_from_coordinates. split; intros H.
  - apply contains_point_iff in H. rewrite H. reflexivity.
  - destruct (contains_point x y) eqn:E; [apply contains_point_iff in E; contradiction|reflexivity].
Qed.
(** The untagged and 04-tagged forms are read without checking the curve equation. *)
Theorem C46_off_curve_accepted : forall x y l, raw_xy x y l ->
  Point_from_bytes l = Ok (Aff x y) /\ Point_from_bytes (x04 :: l) = Ok (Aff x y).
Proof.
  intros x y l R. pose proof (raw_xy_length _ _ _ R) as L. pose proof (from_raw_ok _ _ _ R) as E.
  unfold Point_from_bytes, point_coords. cbn [List.length]. rewrite L, E. cbn [Nat.eqb]. split; reflexivity.
Qed.
Example C46_off_curve_example : Point_from_bytes (z2be 32 1 ++ z2be 32 1) = Ok (Aff 1 1) /\ ~ on_curve (Aff 1 1).
Proof.
  split; [vm_compute; reflexivity|]. intros (_ & _ & k & E). unfold secp_p in E. change (2 ^ 256) with (2 * 2 ^ 255) in E. lia.
Qed.
(** Addition and multiplication of Point objects stay on the curve. *)
Theorem C46_closed : forall P Q k, on_curve P -> on_curve Q -> on_curve (Point_add P Q) /\ on_curve (Point_mul P k).
Proof. intros P Q k OP OQ. split; [apply ec_add_on|apply ec_mul_on]; assumption. Qed.
