(** * SecpFacts: square roots, point encodings, keys. *)
From Coq Require Import Lia ZifyBool ZifyNat ZifyN Znumtheory Zpow_facts Ring Field.
From Verif Require Import Py Spec PyFacts Const Curve SpecCurve Primes ECGroup CurveFacts CurveFacts2 Secp256k1.

(** ** Square roots modulo p *)
Lemma some_inj {A} (a b : A) : Some a = Some b -> a = b.
Proof. intros H. injection H as H. exact H. Qed.
Lemma sqrt_some a b : 0 <= a < p_field -> sqrt_mod a = Some b -> 0 <= b < p_field /\ (b * b) mod p_field = a.
Proof.
  intros Ha. unfold sqrt_mod. cbv zeta. set (r := fpow a _).
  destruct (Z.eqb_spec (fmul r r) a) as [E|]; [|discriminate]. intros H. apply some_inj in H. subst b.
  rewrite fmul_mod in E. split; [|exact E]. unfold r. rewrite fpow_mod by (trivial; vm_compute; reflexivity).
  apply Z.mod_pos_bound. pose proof p_big; lia.
Qed.
Lemma sqrt_complete y : exists b, sqrt_mod ((y * y) mod p_field) = Some b.
Proof.
  pose proof p_big as B. set (a := (y * y) mod p_field). assert (Ha : 0 <= a < p_field) by (apply Z.mod_pos_bound; lia).
  unfold sqrt_mod. cbv zeta. set (r := fpow a _). exists r.
  replace (fmul r r =? a) with true; [reflexivity|]. symmetry. apply Z.eqb_eq. rewrite fmul_mod.
  unfold r. assert (E4 : p_field = 4 * ((p_field + 1) / 4) - 1) by (vm_compute; reflexivity).
  assert (P4 : 0 < (p_field + 1) / 4) by (vm_compute; reflexivity).
  set (h := (p_field + 1) / 4) in *. clearbody h.
  rewrite fpow_mod by assumption. rewrite <- Z.mul_mod by lia. rewrite <- Z.pow_add_r by lia.
  unfold a at 1. rewrite <- Zpower_mod by lia. replace (y * y) with (y ^ 2) by ring. rewrite <- Z.pow_mul_r by lia.
  replace (2 * (h + h)) with ((p_field - 1) + 2) by lia. rewrite Z.pow_add_r by lia.
  destruct (Zdivide_dec p_field y) as [D|D].
  - unfold a. destruct D as [k ->]. replace ((k * p_field) ^ 2) with ((k * k * p_field) * p_field) by ring.
    replace (k * p_field * (k * p_field)) with ((k * k * p_field) * p_field) by ring.
    rewrite Z.mul_assoc, !Z.mod_mul by lia. reflexivity.
  - rewrite Z.mul_mod, fermat, Z.mul_1_l, Z.mod_mod by (try lia; try apply p_prime; exact D).
    unfold a. f_equal. ring.
Qed.

(** ** Membership *)
Lemma cong_mod a b : cong a b <-> a mod p_field = b mod p_field.
Proof. rewrite <- m_inj, mk_eq. reflexivity. Qed.
Lemma contains_point_iff x y : contains_point x y = true <-> cong (y * y) (x * x * x + 7).
Proof.
  unfold contains_point, curve_b. rewrite Z.eqb_eq. unfold cong. rewrite secp_p_field.
  pose proof p_big. rewrite Z.mod_divide by lia. reflexivity.
Qed.
Lemma valid_public_point_iff x y : valid_public_point x y = true <-> on_curve (Aff x y).
Proof.
  unfold valid_public_point. cbn [on_curve]. unfold in_field. rewrite secp_p_field.
  rewrite !andb_true_iff, !Z.leb_le, !Z.ltb_lt, contains_point_iff. tauto.
Qed.
Lemma on_curve_y x y : on_curve (Aff x y) -> 0 < y < p_field.
Proof.
  intros O. destruct (O) as (_ & Hy & E). unfold in_field in Hy. rewrite secp_p_field in Hy.
  destruct (Z.eq_dec y 0) as [->|]; [|lia]. exfalso.
  apply (q_no2 (m x)). unfold qb. rewrite <- !mk_mul, <- mk_add, m0. apply m_inj.
  destruct E as [k E]. exists (-k). lia.
Qed.
Lemma on_curve_x x y : on_curve (Aff x y) -> 0 <= x < p_field.
Proof. intros (H & _). unfold in_field in H. rewrite secp_p_field in H. exact H. Qed.
Lemma p_odd : Z.odd p_field = true. Proof. vm_compute. reflexivity. Qed.
Lemma odd_opp b : 0 < b < p_field -> Z.odd (p_field - b) = negb (Z.odd b).
Proof. intros _. rewrite Z.odd_sub, p_odd. destruct (Z.odd b); reflexivity. Qed.

(** The two roots *)
Lemma two_roots x y1 y2 : on_curve (Aff x y1) -> on_curve (Aff x y2) -> y1 = y2 \/ y1 = p_field - y2.
Proof.
  intros O1 O2. pose proof (abs_on _ O1) as A1. pose proof (abs_on _ O2) as A2. cbn [abs] in A1, A2.
  pose proof (on_curve_y _ _ O1) as R1. pose proof (on_curve_y _ _ O2) as R2.
  destruct (q_same_x _ _ _ A1 A2) as [E|E].
  - left. apply mk_eq in E. rewrite !Z.mod_small in E by lia. exact E.
  - right. rewrite <- mk_add in E. unfold F0 in E. apply mk_eq in E. rewrite Z.mod_0_l in E by lia.
    apply Z.mod_divide in E; [|lia]. destruct E as [k E]. assert (k = 1) by nia. lia.
Qed.

(** ** Fixed-width integers *)
Lemma fixed_z2be n z : 0 <= z < 256 ^ Z.of_nat n -> fixed_bytes n z (z2be n z).
Proof. intros H. split; [apply z2be_length|]. rewrite be_value_be2z. apply z2be_small_be2z, H. Qed.
Lemma fixed_unique n z a : fixed_bytes n z a -> a = z2be n z.
Proof. intros [L E]. rewrite be_value_be2z in E. rewrite <- L, <- E. symmetry. apply z2be_be2z. Qed.
Lemma fixed_be2z l : fixed_bytes (List.length l) (be2z l) l.
Proof. split; [reflexivity|apply be_value_be2z]. Qed.
Lemma pow32 : 256 ^ Z.of_nat 32 = 2 ^ 256. Proof. reflexivity. Qed.
Lemma field_fixed z : 0 <= z < p_field -> fixed_bytes 32 z (z2be 32 z).
Proof. intros H. apply fixed_z2be. rewrite pow32. pose proof p_bounds. lia. Qed.
Lemma number_to_string_ok z : 0 <= z < 2 ^ 256 -> number_to_string z = Ok (z2be 32 z).
Proof.
  intros H. unfold number_to_string. destruct (Z.ltb_spec z 0); [lia|]. destruct (Z.ltb_spec z (2 ^ 256)); [reflexivity|lia].
Qed.

(** ** Compressed points *)
Lemma from_compressed_ok x y l : on_curve (Aff x y) -> sec1_compressed x y l -> from_compressed l = Some (x, y).
Proof.
  intros O (xs & [Lx Vx] & ->). rewrite be_value_be2z in Vx. unfold from_compressed, string_to_number. rewrite Vx. cbv zeta.
  pose proof O as (Fx & Fy & C). pose proof (on_curve_y _ _ O) as Hy. pose proof (on_curve_x _ _ O) as Hx.
  unfold curve_b. pose proof p_big as B. pose proof (Z.mod_pos_bound (x * x * x + 7) p_field ltac:(lia)) as Ra.
  apply cong_mod in C. rewrite <- C in *.
  destruct (sqrt_complete y) as [b Eb]. rewrite Eb. destruct (sqrt_some _ _ Ra Eb) as [Rb Sb].
  assert (Ob : on_curve (Aff x b)).
  { split; [exact Fx|]. split; [unfold in_field; rewrite secp_p_field; exact Rb|]. apply cong_mod. rewrite Sb. exact C. }
  pose proof (on_curve_y _ _ Ob) as Hb.
  assert (T : forall e, e = Z.even y -> (if Bool.eqb e (Z.odd b) then p_field - b else b) = y).
  { intros e ->. rewrite <- Z.negb_odd. destruct (two_roots _ _ _ O Ob) as [->| ->].
    - destruct (Z.odd b); reflexivity.
    - rewrite odd_opp by exact Hb. destruct (Z.odd b); reflexivity. }
  destruct (Z.even y) eqn:Ev; cbn [orb Byte.eqb]; change (Byte.eqb x02 x02) with true; change (Byte.eqb x03 x02) with false;
  change (Byte.eqb x03 x03) with true; cbn [orb]; rewrite T by reflexivity; reflexivity.
Qed.
Lemma some_pair {A B} (a c : A) (b d : B) : Some (a, b) = Some (c, d) -> a = c /\ b = d.
Proof. intros H. injection H as H1 H2. auto. Qed.
Lemma from_compressed_sound l x y : List.length l = 33%nat -> from_compressed l = Some (x, y) ->
  on_curve (Aff x y) -> sec1_compressed x y l.
Proof.
  intros L H O. destruct l as [|t xs]; [discriminate|]. cbn [from_compressed] in H.
  destruct (Byte.eqb t x02 || Byte.eqb t x03) eqn:T; [|discriminate]. cbv zeta in H. unfold string_to_number in H.
  destruct (sqrt_mod _) as [b|] eqn:S; [|discriminate]. apply some_pair in H. destruct H as [Hx Hy].
  exists xs. split; [split; [cbn in L; lia|rewrite be_value_be2z; exact Hx]|]. f_equal.
  pose proof (on_curve_y _ _ O) as Ry.
  assert (E : Z.even y = Byte.eqb t x02).
  { rewrite <- Z.negb_odd. destruct (Bool.eqb (Byte.eqb t x02) (Z.odd b)) eqn:Q.
    - apply Bool.eqb_prop in Q. subst y. rewrite odd_opp by lia. rewrite Q, negb_involutive. reflexivity.
    - subst y. apply Bool.eqb_false_iff in Q. destruct (Byte.eqb t x02), (Z.odd b); cbn; congruence. }
  rewrite E. destruct (Byte.eqb t x02) eqn:T2; [apply byte_eqb_spec in T2; exact T2|].
  cbn [orb] in T. apply byte_eqb_spec in T. exact T.
Qed.

(** ** All encodings *)
Lemma from_raw_ok x y l : raw_xy x y l -> from_raw_encoding l = (x, y).
Proof.
  intros (xs & ys & [Lx Vx] & [Ly Vy] & ->). unfold from_raw_encoding, string_to_number.
  rewrite upto_app, from_app by exact Lx. rewrite be_value_be2z in Vx, Vy. congruence.
Qed.
Lemma from_raw_sound l x y : List.length l = 64%nat -> from_raw_encoding l = (x, y) -> raw_xy x y l.
Proof.
  intros L E. unfold from_raw_encoding, string_to_number in E. injection E as Ex Ey.
  exists (upto 32 l), (from 32 l). split; [|split].
  - split; [apply upto_length; lia|rewrite be_value_be2z; exact Ex].
  - split; [rewrite from_length; lia|rewrite be_value_be2z; exact Ey].
  - symmetry. apply upto_from.
Qed.
Lemma raw_xy_length x y l : raw_xy x y l -> List.length l = 64%nat.
Proof. intros (xs & ys & [Lx _] & [Ly _] & ->). rewrite app_length. lia. Qed.
Lemma compressed_length x y l : sec1_compressed x y l -> List.length l = 33%nat.
Proof. intros (xs & [Lx _] & ->). cbn [List.length]. lia. Qed.
Lemma uncompressed_length x y l : sec1_uncompressed x y l -> List.length l = 65%nat.
Proof. intros (xs & ys & [Lx _] & [Ly _] & ->). cbn [List.length]. rewrite app_length. lia. Qed.
Lemma hybrid_length x y l : hybrid x y l -> List.length l = 65%nat.
Proof. intros (xs & ys & [Lx _] & [Ly _] & ->). cbn [List.length]. rewrite app_length. lia. Qed.

(** Exactly the four encodings are read, for points of the curve. *)
Lemma point_coords_iff l x y : on_curve (Aff x y) ->
  (point_coords l = Some (x, y) <->
   sec1_compressed x y l \/ sec1_uncompressed x y l \/ raw_xy x y l \/ hybrid x y l).
Proof.
  intros O. unfold point_coords. cbv zeta. split.
  - destruct (Nat.eqb_spec (List.length l) 64) as [E|E].
    + intros H. apply some_inj in H. right. right. left. apply from_raw_sound; assumption.
    + destruct (Nat.eqb_spec (List.length l) 65) as [E5|E5].
      * destruct l as [|t r]; [discriminate|]. assert (Lr : List.length r = 64%nat) by (cbn in E5; lia).
        destruct (Byte.eqb t x06 || Byte.eqb t x07) eqn:T.
        -- destruct (from_raw_encoding r) as [x' y'] eqn:R. destruct (_ || _) eqn:P in |- *; [discriminate|].
           intros H. injection H as -> ->. right. right. right.
           destruct (from_raw_sound _ _ _ Lr R) as (xs & ys & Hx & Hy & ->). exists xs, ys. split; [exact Hx|]. split; [exact Hy|].
           f_equal. rewrite <- Z.negb_odd.
           destruct (Z.odd y); cbn [negb andb orb] in *.
           ++ destruct (Byte.eqb t x07) eqn:T7; [apply byte_eqb_spec in T7; exact T7|discriminate].
           ++ destruct (Byte.eqb t x06) eqn:T6; [apply byte_eqb_spec in T6; exact T6|discriminate].
        -- destruct (Byte.eqb t x04) eqn:T4; [|discriminate]. intros H. apply some_inj in H. right. left.
           apply byte_eqb_spec in T4. subst t. destruct (from_raw_sound _ _ _ Lr H) as (xs & ys & Hx & Hy & ->).
           exists xs, ys. auto.
      * destruct (Nat.eqb_spec (List.length l) 33) as [E3|E3]; [|discriminate].
        intros H. left. apply from_compressed_sound; assumption.
  - intros [H|[H|[H|H]]].
    + rewrite (compressed_length _ _ _ H). cbn [Nat.eqb]. apply from_compressed_ok; assumption.
    + rewrite (uncompressed_length _ _ _ H). cbn [Nat.eqb]. destruct H as (xs & ys & Hx & Hy & ->).
      change (Byte.eqb x04 x06 || Byte.eqb x04 x07) with false. change (Byte.eqb x04 x04) with true. cbv iota.
      f_equal. apply from_raw_ok. exists xs, ys. auto.
    + rewrite (raw_xy_length _ _ _ H). cbn [Nat.eqb]. f_equal. apply from_raw_ok, H.
    + rewrite (hybrid_length _ _ _ H). cbn [Nat.eqb]. destruct H as (xs & ys & Hx & Hy & ->).
      assert (R : from_raw_encoding (xs ++ ys) = (x, y)) by (apply from_raw_ok; exists xs, ys; auto).
      rewrite <- Z.negb_odd. destruct (Z.odd y) eqn:P; cbn [negb]; rewrite R, P; reflexivity.
Qed.

(** ** Keys *)
Definition pk_ok (k : pubkey) : Prop := on_curve (PublicKey_point k).

Lemma PublicKey_from_bytes_iff l k : PublicKey_from_bytes l = Ok k <->
  pk_ok k /\ (sec1_compressed (pk_x k) (pk_y k) l \/ sec1_uncompressed (pk_x k) (pk_y k) l \/
              raw_xy (pk_x k) (pk_y k) l \/ hybrid (pk_x k) (pk_y k) l).
Proof.
  unfold PublicKey_from_bytes, pk_ok, PublicKey_point. split.
  - destruct (point_coords l) as [[x y]|] eqn:E; [|discriminate].
    destruct (valid_public_point x y) eqn:V; [|discriminate]. intros H. injection H as <-. cbn [pk_x pk_y].
    apply valid_public_point_iff in V. split; [exact V|]. apply point_coords_iff; assumption.
  - destruct k as [x y]. cbn [pk_x pk_y]. intros [O H]. apply (point_coords_iff _ _ _ O) in H. rewrite H.
    apply valid_public_point_iff in O. rewrite O. reflexivity.
Qed.
Lemma PublicKey_from_bytes_err l e : PublicKey_from_bytes l = Raise e ->
  e = Lib CSecp256k1Error "Invalid public key bytes".
Proof.
  unfold PublicKey_from_bytes. destruct (point_coords l) as [[x y]|]; [destruct (valid_public_point x y)|]; congruence.
Qed.

Lemma Point_from_bytes_on l x y : on_curve (Aff x y) ->
  (Point_from_bytes l = Ok (Aff x y) <->
   sec1_compressed x y l \/ sec1_uncompressed x y l \/ raw_xy x y l \/ hybrid x y l).
Proof.
  intros O. rewrite <- (point_coords_iff l x y O). unfold Point_from_bytes.
  destruct (point_coords l) as [[x' y']|]; split; intros H; try discriminate; congruence.
Qed.

Lemma tag_even (y : Z) : (if Z.odd y then x03 else x02) = (if Z.even y then x02 else x03).
Proof. rewrite <- Z.negb_odd. destruct (Z.odd y); reflexivity. Qed.
Lemma range_p z : 0 <= z < p_field -> 0 <= z < 2 ^ 256.
Proof. pose proof p_bounds. lia. Qed.
Lemma raw_compressed_ok k : pk_ok k -> exists l, raw_compressed k = Ok l /\ sec1_compressed (pk_x k) (pk_y k) l.
Proof.
  intros O. pose proof (on_curve_x _ _ O) as Hx. unfold raw_compressed. rewrite number_to_string_ok by apply range_p, Hx.
  cbn [bind]. eexists. split; [reflexivity|]. exists (z2be 32 (pk_x k)). split; [apply field_fixed, Hx|]. rewrite tag_even. reflexivity.
Qed.
Lemma raw_uncompressed_ok k : pk_ok k -> exists l, raw_uncompressed k = Ok l /\ sec1_uncompressed (pk_x k) (pk_y k) l.
Proof.
  intros O. pose proof (on_curve_x _ _ O) as Hx. pose proof (on_curve_y _ _ O) as Hy. unfold raw_uncompressed.
  rewrite !number_to_string_ok by (apply range_p; lia).
  cbn [bind]. eexists. split; [reflexivity|]. exists (z2be 32 (pk_x k)), (z2be 32 (pk_y k)).
  split; [apply field_fixed, Hx|]. split; [apply field_fixed; lia|reflexivity].
Qed.
Lemma sec1_compressed_fun x y a b : sec1_compressed x y a -> sec1_compressed x y b -> a = b.
Proof. intros (xs & Hx & ->) (xs' & Hx' & ->). rewrite (fixed_unique _ _ _ Hx), (fixed_unique _ _ _ Hx'). reflexivity. Qed.
Lemma sec1_uncompressed_fun x y a b : sec1_uncompressed x y a -> sec1_uncompressed x y b -> a = b.
Proof.
  intros (xs & ys & Hx & Hy & ->) (xs' & ys' & Hx' & Hy' & ->).
  rewrite (fixed_unique _ _ _ Hx), (fixed_unique _ _ _ Hx'), (fixed_unique _ _ _ Hy), (fixed_unique _ _ _ Hy'). reflexivity.
Qed.
Lemma raw_compressed_iff k l : pk_ok k -> (raw_compressed k = Ok l <-> sec1_compressed (pk_x k) (pk_y k) l).
Proof.
  intros O. destruct (raw_compressed_ok k O) as [l0 [E S]]. rewrite E. split.
  - intros H. injection H as <-. exact S.
  - intros S'. f_equal. apply (sec1_compressed_fun _ _ _ _ S S').
Qed.
Lemma raw_uncompressed_iff k l : pk_ok k -> (raw_uncompressed k = Ok l <-> sec1_uncompressed (pk_x k) (pk_y k) l).
Proof.
  intros O. destruct (raw_uncompressed_ok k O) as [l0 [E S]]. rewrite E. split.
  - intros H. injection H as <-. exact S.
  - intros S'. f_equal. apply (sec1_uncompressed_fun _ _ _ _ S S').
Qed.

Lemma PrivateKey_from_bytes_iff l k : PrivateKey_from_bytes l = Ok k <-> scalar l (secexp k).
Proof.
  unfold PrivateKey_from_bytes, scalar, fixed_bytes, string_to_number. rewrite be_value_be2z. change secp_n with G_order.
  destruct (Nat.eqb_spec (List.length l) 32) as [E|E]; cbn [negb]; [|split; [discriminate|intros [[? _] _]; contradiction]].
  cbv zeta. destruct ((1 <=? be2z l) && (be2z l <? G_order)) eqn:R.
  - split; [intros H; injection H as <-; cbn [secexp]; split; [auto|lia]|].
    intros [[_ H] _]. rewrite H. destruct k; reflexivity.
  - split; [discriminate|]. intros [[_ H] B]. rewrite H in R. lia.
Qed.
Lemma PrivateKey_from_bytes_err l e : PrivateKey_from_bytes l = Raise e -> e = Lib CSecp256k1Error "Invalid private key bytes".
Proof. unfold PrivateKey_from_bytes. destruct (negb _); [congruence|]. cbv zeta. destruct (_ && _); congruence. Qed.
Lemma PrivateKey_raw_id l k : PrivateKey_from_bytes l = Ok k -> PrivateKey_raw k = l.
Proof.
  intros H. apply PrivateKey_from_bytes_iff in H. destruct H as [H _]. symmetry. apply fixed_unique. exact H.
Qed.

Lemma public_key_ok e : 1 <= e < G_order ->
  exists k, PrivateKey_public_key {| secexp := e |} = Ok k /\ PublicKey_point k = ec_mul e G /\ pk_ok k.
Proof.
  intros He. unfold PrivateKey_public_key. cbn [secexp]. destruct (ec_mul e G) as [|x y] eqn:E.
  - exfalso. apply (ec_mul_order e); [lia|exact E].
  - eexists. split; [reflexivity|]. split; [reflexivity|]. unfold pk_ok, PublicKey_point. cbn [pk_x pk_y]. rewrite <- E. apply ec_mul_on, G_on.
Qed.
(** [PublicKey.from_bytes (factor bytes)]-style multiplication of a public point. *)
Lemma PublicKey_from_point_iff P k : PublicKey_from_point P = Ok k <-> P = PublicKey_point k /\ pk_ok k.
Proof.
  unfold PublicKey_from_point, pk_ok, PublicKey_point. destruct P as [|x y].
  - split; [discriminate|intros [H _]; discriminate].
  - destruct (contains_point x y) eqn:C; cbn [negb].
    + destruct (valid_public_point x y) eqn:V.
      * apply valid_public_point_iff in V. split; [intros H; injection H as <-; cbn; auto|].
        intros [H _]. destruct k as [a b]; cbn in *. congruence.
      * split; [discriminate|]. intros [H O]. destruct k as [a b]; cbn in *. injection H as -> ->.
        apply (valid_public_point_iff a b) in O. congruence.
    + split; [discriminate|]. intros [H O]. destruct k as [a b]; cbn in *. injection H as -> ->.
      destruct O as (_ & _ & O). apply contains_point_iff in O. congruence.
Qed.
Lemma ec_mul_nz k P : on_curve P -> P <> Inf -> (ec_mul k P = Inf <-> (G_order | k)).
Proof.
  intros OP NP. pose proof n_bounds as B. rewrite <- ec_mul_mod by exact OP.
  destruct (generated_by_G P OP) as [a [Ha E]]. assert (Ha0 : a <> 0) by (intros ->; apply NP; exact E).
  pose proof (Z.mod_pos_bound k G_order ltac:(lia)) as R. rewrite <- Z.mod_divide by lia.
  split; [|intros ->; reflexivity]. intros H. rewrite E in H. rewrite <- ec_mul_mul in H by (try lia; apply G_on).
  rewrite <- ec_mul_G_mod in H by nia.
  destruct (Z.eq_dec ((k mod G_order * a) mod G_order) 0) as [D|D].
  - apply Z.mod_divide in D; [|lia]. apply prime_mult in D; [|apply n_prime].
    destruct D as [D|D]; apply Z.mod_divide in D; try lia; rewrite Z.mod_small in D by lia; lia.
  - exfalso. revert H. apply ec_mul_order. pose proof (Z.mod_pos_bound (k mod G_order * a) G_order ltac:(lia)). lia.
Qed.
