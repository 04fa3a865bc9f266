(** * PyFacts: lemmas about Py.v *)
From Coq Require Import Lia ZifyBool ZifyNat ZifyN.
From Verif Require Import Py Spec.
Ltac Zify.zify_post_hook ::= Z.div_mod_to_equations.

Lemma b2z_range b : 0 <= b2z b < 256.
Proof. unfold b2z. pose proof (Byte.to_N_bounded b). lia. Qed.

Lemma z2b_b2z b : z2b (b2z b) = b.
Proof.
  unfold z2b. rewrite Z.mod_small by apply b2z_range.
  unfold b2z. rewrite N2Z.id, Byte.of_to_N. reflexivity.
Qed.

Lemma b2z_z2b z : b2z (z2b z) = z mod 256.
Proof.
  unfold z2b, b2z.
  destruct (Byte.of_N (Z.to_N (z mod 256))) as [b|] eqn:E.
  - apply Byte.to_of_N in E. rewrite E.
    rewrite Z2N.id; [reflexivity|]. apply Z.mod_pos_bound. lia.
  - apply Byte.of_N_None_iff in E. pose proof (Z.mod_pos_bound z 256). lia.
Qed.

Lemma b2z_inj a b : b2z a = b2z b -> a = b.
Proof. intros H. rewrite <- (z2b_b2z a), <- (z2b_b2z b), H. reflexivity. Qed.

Lemma b2z_0 b : b2z b = 0 <-> b = x00.
Proof. split; [intros H; apply b2z_inj; exact H | intros ->; reflexivity]. Qed.

Lemma byte_eqb_spec a b : Byte.eqb a b = true <-> a = b.
Proof. split; [apply Byte.byte_dec_bl | apply Byte.byte_dec_lb]. Qed.

Lemma byte_eqb_refl a : Byte.eqb a a = true.
Proof. apply byte_eqb_spec; reflexivity. Qed.

Lemma list_eqb_spec {A} (eqb : A -> A -> bool) :
  (forall x y, eqb x y = true <-> x = y) ->
  forall a b, list_eqb eqb a b = true <-> a = b.
Proof.
  intros H; induction a as [|x a IH]; intros [|y b]; cbn [list_eqb]; try (split; congruence).
  rewrite andb_true_iff, H, IH. split; [intros [-> ->]; reflexivity|intros E; injection E; auto].
Qed.
Lemma bytes_eqb_spec a b : bytes_eqb a b = true <-> a = b.
Proof. apply list_eqb_spec, byte_eqb_spec. Qed.
Lemma str_eqb_spec a b : str_eqb a b = true <-> a = b.
Proof. apply list_eqb_spec. intros; apply N.eqb_eq. Qed.
Lemma bytes_eqb_refl a : bytes_eqb a a = true.
Proof. apply bytes_eqb_spec; reflexivity. Qed.
Lemma str_eqb_refl a : str_eqb a a = true.
Proof. apply str_eqb_spec; reflexivity. Qed.
Lemma bytes_eqb_false a b : bytes_eqb a b = false <-> a <> b.
Proof. rewrite <- bytes_eqb_spec. destruct (bytes_eqb a b); split; congruence. Qed.
Lemma str_eqb_false a b : str_eqb a b = false <-> a <> b.
Proof. rewrite <- str_eqb_spec. destruct (str_eqb a b); split; congruence. Qed.

Lemma str_in_spec s l : str_in s l = true <-> In s l.
Proof.
  unfold str_in. rewrite existsb_exists. split.
  - intros [x [Hx E]]. apply str_eqb_spec in E. subst; exact Hx.
  - intros H. exists s. split; [exact H|apply str_eqb_refl].
Qed.

(** ** be2z and z2be *)
Lemma be2z_app_acc l acc :
  fold_left (fun acc b => acc * 256 + b2z b) l acc = acc * 256 ^ zlen l + be2z l.
Proof.
  unfold be2z, zlen. revert acc. induction l as [|b l IH]; intros acc; cbn [fold_left List.length].
  - cbn. lia.
  - rewrite IH, (IH (0 * 256 + b2z b)).
    rewrite Nat2Z.inj_succ, Z.pow_succ_r by lia. ring.
Qed.
Lemma be2z_nil : be2z [] = 0. Proof. reflexivity. Qed.
Lemma be2z_cons b l : be2z (b :: l) = b2z b * 256 ^ zlen l + be2z l.
Proof. unfold be2z at 1. cbn [fold_left]. rewrite be2z_app_acc. ring. Qed.
Lemma zlen_app {A} (a b : list A) : zlen (a ++ b) = zlen a + zlen b.
Proof. unfold zlen. rewrite app_length. lia. Qed.
Lemma zlen_nonneg {A} (a : list A) : 0 <= zlen a.
Proof. unfold zlen. lia. Qed.
Lemma be2z_app a b : be2z (a ++ b) = be2z a * 256 ^ zlen b + be2z b.
Proof. unfold be2z at 1. rewrite fold_left_app. fold (be2z a). apply be2z_app_acc. Qed.
Lemma be2z_snoc a b : be2z (a ++ [b]) = be2z a * 256 + b2z b.
Proof. rewrite be2z_app. rewrite be2z_cons. cbn. lia. Qed.

Lemma pow256_pos n : 0 <= n -> 0 < 256 ^ n.
Proof. intros; apply Z.pow_pos_nonneg; lia. Qed.

Lemma be2z_bound l : 0 <= be2z l < 256 ^ zlen l.
Proof.
  induction l as [|b l IH]; [cbn; lia|].
  rewrite be2z_cons. pose proof (b2z_range b).
  replace (zlen (b :: l)) with (zlen l + 1) by (unfold zlen; cbn [List.length]; lia).
  rewrite Z.pow_add_r by (pose proof (zlen_nonneg l); lia). nia.
Qed.

Lemma be_value_be2z l : be_value l = be2z l.
Proof.
  unfold be_value. induction l as [|b l IH]; [reflexivity|].
  cbn [List.map digits_value]. rewrite IH, be2z_cons, map_length. reflexivity.
Qed.

Lemma z2be_length n z : List.length (z2be n z) = n.
Proof.
  revert z; induction n as [|n IH]; intros z; cbn [z2be]; [reflexivity|].
  rewrite app_length, IH. cbn. lia.
Qed.
Lemma be2z_z2be n z : be2z (z2be n z) = z mod 256 ^ Z.of_nat n.
Proof.
  revert z; induction n as [|n IH]; intros z; cbn [z2be].
  - cbn. rewrite Z.mod_1_r. reflexivity.
  - rewrite be2z_snoc, IH, b2z_z2b, Nat2Z.inj_succ, Z.pow_succ_r by lia.
    rewrite Z.rem_mul_r by (try apply Z.pow_nonzero; try apply pow256_pos; lia). ring.
Qed.
Lemma be2z_inj a b : List.length a = List.length b -> be2z a = be2z b -> a = b.
Proof.
  revert b; induction a as [|x a IH]; intros [|y b] L E; cbn in L; try lia; [reflexivity|].
  rewrite !be2z_cons in E. pose proof (be2z_bound a). pose proof (be2z_bound b).
  assert (Hz : zlen a = zlen b) by (unfold zlen; lia). rewrite Hz in *.
  assert (b2z x = b2z y /\ be2z a = be2z b) as [E1 E2].
  { pose proof (pow256_pos (zlen b) (zlen_nonneg b)).
    apply (Z.div_mod_unique (256 ^ zlen b)); try lia. }
  f_equal; [apply b2z_inj; exact E1|apply IH; lia].
Qed.
Lemma z2be_be2z l : z2be (List.length l) (be2z l) = l.
Proof.
  apply be2z_inj; [apply z2be_length|].
  rewrite be2z_z2be. apply Z.mod_small. apply be2z_bound.
Qed.
Lemma z2be_small_be2z n z : 0 <= z < 256 ^ Z.of_nat n -> be2z (z2be n z) = z.
Proof. intros H. rewrite be2z_z2be. apply Z.mod_small; exact H. Qed.

Lemma be2z_zeros k l : be2z (repeat x00 k ++ l) = be2z l.
Proof.
  induction k as [|k IH]; [reflexivity|].
  cbn [repeat app]. rewrite be2z_cons, IH. change (b2z x00) with 0. lia.
Qed.
Lemma be2z_strip l : be2z (strip_zeros l) = be2z l.
Proof.
  induction l as [|b l IH]; [reflexivity|]. cbn [strip_zeros].
  destruct (Byte.eqb b x00) eqn:E; [|reflexivity].
  apply byte_eqb_spec in E; subst b. rewrite IH, be2z_cons. change (b2z x00) with 0. lia.
Qed.
Lemma lstrip0_strip l : lstrip0 l = strip_zeros l.
Proof. induction l as [|b l IH]; [reflexivity|]. destruct b; try reflexivity. cbn. exact IH. Qed.

Lemma strip_zeros_spec l : exists k, l = repeat x00 k ++ strip_zeros l.
Proof.
  induction l as [|b l [k IH]]; [exists 0%nat; reflexivity|]. cbn [strip_zeros].
  destruct (Byte.eqb b x00) eqn:E.
  - apply byte_eqb_spec in E; subst b. exists (S k). cbn. congruence.
  - exists 0%nat. reflexivity.
Qed.
Lemma strip_zeros_first l b r : strip_zeros l = b :: r -> b <> x00.
Proof.
  induction l as [|x l IH]; cbn [strip_zeros]; [discriminate|].
  destruct (Byte.eqb x x00) eqn:E; [exact IH|].
  intros H; injection H as -> ->. intros ->. cbn in E. discriminate.
Qed.
Lemma strip_zeros_id b l : b <> x00 -> strip_zeros (b :: l) = b :: l.
Proof.
  intros H. cbn [strip_zeros]. destruct (Byte.eqb b x00) eqn:E; [|reflexivity].
  apply byte_eqb_spec in E; congruence.
Qed.
Lemma strip_zeros_length l : (List.length (strip_zeros l) <= List.length l)%nat.
Proof.
  destruct (strip_zeros_spec l) as [k H]. rewrite H at 2. rewrite app_length. lia.
Qed.
Lemma strip_zeros_nil l : strip_zeros l = [] <-> be2z l = 0.
Proof.
  split.
  - intros H. rewrite <- be2z_strip, H. reflexivity.
  - intros H. destruct (strip_zeros l) as [|b r] eqn:E; [reflexivity|].
    pose proof (strip_zeros_first _ _ _ E) as Hb.
    rewrite <- be2z_strip, E, be2z_cons in H.
    pose proof (be2z_bound r). pose proof (b2z_range b).
    pose proof (pow256_pos (zlen r) (zlen_nonneg r)).
    assert (b2z b = 0) by nia. apply b2z_0 in H3. contradiction.
Qed.

(** ** from_bytes / to_bytes *)
Lemma from_bytes_big l : from_bytes l Big false = be2z l.
Proof. reflexivity. Qed.
Lemma from_bytes_little l : from_bytes l Little false = be2z (rev l).
Proof. reflexivity. Qed.

Lemma shiftl_1 n : 0 <= n -> Z.shiftl 1 (8 * n) = 256 ^ n.
Proof.
  intros H. rewrite Z.shiftl_mul_pow2 by lia. rewrite Z.mul_1_l.
  change 256 with (2 ^ 8). rewrite <- Z.pow_mul_r by lia. reflexivity.
Qed.

Lemma to_bytes_ok data n e : 0 <= n -> 0 <= data < 256 ^ n ->
  to_bytes data n e false =
  Ok (match e with Big => z2be (Z.to_nat n) data | Little => rev (z2be (Z.to_nat n) data) end).
Proof.
  intros Hn Hd. unfold to_bytes.
  destruct (Z.ltb_spec n 0); [lia|]. rewrite shiftl_1 by lia.
  destruct (Z.leb_spec 0 data); [|lia]. destruct (Z.ltb_spec data (256 ^ n)); [|lia]. reflexivity.
Qed.
Lemma to_bytes_overflow data n e : 0 <= n -> ~ (0 <= data < 256 ^ n) ->
  to_bytes data n e false = Raise (Builtin OverflowError).
Proof.
  intros Hn Hd. unfold to_bytes.
  destruct (Z.ltb_spec n 0); [lia|]. rewrite shiftl_1 by lia.
  destruct (Z.leb_spec 0 data); destruct (Z.ltb_spec data (256 ^ n)); cbn [andb]; try reflexivity; lia.
Qed.

(** ** lists *)
Lemma upto_app {A} n (a b : list A) : List.length a = n -> upto n (a ++ b) = a.
Proof. intros <-. unfold upto. rewrite firstn_app, Nat.sub_diag, firstn_all. cbn. apply app_nil_r. Qed.
Lemma from_app {A} n (a b : list A) : List.length a = n -> from n (a ++ b) = b.
Proof. intros <-. unfold from. rewrite skipn_app, Nat.sub_diag, skipn_all. reflexivity. Qed.
Lemma upto_from {A} n (a : list A) : upto n a ++ from n a = a.
Proof. apply firstn_skipn. Qed.
Lemma upto_length {A} n (a : list A) : (n <= List.length a)%nat -> List.length (upto n a) = n.
Proof. apply firstn_length_le. Qed.
Lemma from_length {A} n (a : list A) : List.length (from n a) = (List.length a - n)%nat.
Proof. apply skipn_length. Qed.
Lemma slice_length {A} i j (a : list A) : (j <= List.length a)%nat ->
  List.length (slice i j a) = (j - i)%nat.
Proof. intros H. unfold slice. rewrite firstn_length, skipn_length. lia. Qed.
Lemma upto_all {A} n (a : list A) : (List.length a <= n)%nat -> upto n a = a.
Proof. apply firstn_all2. Qed.
Lemma slice_0 {A} j (a : list A) : slice 0 j a = upto j a.
Proof. unfold slice, upto. rewrite Nat.sub_0_r. reflexivity. Qed.
Lemma slice_app {A} i j (a b c : list A) :
  List.length a = i -> List.length b = (j - i)%nat -> slice i j (a ++ b ++ c) = b.
Proof.
  intros Ha Hb. unfold slice. change (skipn i (a ++ b ++ c)) with (from i (a ++ b ++ c)).
  rewrite from_app by exact Ha. apply upto_app; exact Hb.
Qed.
Lemma upto_neg_app {A} k (a b : list A) : List.length b = k -> upto_neg k (a ++ b) = a.
Proof.
  intros H. unfold upto_neg. rewrite app_length, H.
  replace (List.length a + k - k)%nat with (List.length a) by lia. apply (upto_app _ a b eq_refl).
Qed.
Lemma from_neg_app {A} k (a b : list A) : List.length b = k -> from_neg k (a ++ b) = b.
Proof.
  intros H. unfold from_neg. rewrite app_length, H.
  replace (List.length a + k - k)%nat with (List.length a) by lia. apply (from_app _ a b eq_refl).
Qed.
Lemma neg_split {A} k (a : list A) : upto_neg k a ++ from_neg k a = a.
Proof. apply firstn_skipn. Qed.
Lemma from_neg_length {A} k (a : list A) : List.length (from_neg k a) = Nat.min k (List.length a).
Proof. unfold from_neg. rewrite skipn_length. lia. Qed.
Lemma upto_neg_length {A} k (a : list A) : List.length (upto_neg k a) = (List.length a - k)%nat.
Proof. unfold upto_neg. rewrite firstn_length. lia. Qed.

(** Cutting a list into consecutive pieces. *)
Lemma cut {A} n (l : list A) : (n <= List.length l)%nat ->
  exists a b, l = a ++ b /\ List.length a = n.
Proof.
  intros H. exists (firstn n l), (skipn n l). split; [symmetry; apply firstn_skipn|].
  apply firstn_length_le; exact H.
Qed.
Lemma app_inj_l {A} (a b c d : list A) :
  List.length a = List.length c -> a ++ b = c ++ d -> a = c /\ b = d.
Proof.
  revert c; induction a as [|x a IH]; intros [|y c] L E; cbn in *; try lia; [auto|].
  injection E as -> E. destruct (IH c) as [-> ->]; [lia|exact E|auto].
Qed.
Lemma app_inj_r {A} (a b c d : list A) :
  List.length b = List.length d -> a ++ b = c ++ d -> a = c /\ b = d.
Proof.
  intros L E. apply app_inj_l; [|exact E].
  apply (f_equal (@List.length A)) in E. rewrite !app_length in E. lia.
Qed.

(** ** bitwise exclusive or *)
Lemma lxor_bound a b k : 0 <= k -> 0 <= a < 2 ^ k -> 0 <= b < 2 ^ k -> 0 <= Z.lxor a b < 2 ^ k.
Proof.
  intros Hk Ha Hb. assert (0 <= Z.lxor a b) by (apply Z.lxor_nonneg; lia). split; [lia|].
  destruct (Z.eq_dec (Z.lxor a b) 0) as [->|]; [apply Z.pow_pos_nonneg; lia|].
  apply Z.log2_lt_pow2; [lia|].
  eapply Z.le_lt_trans; [apply Z.log2_lxor; lia|].
  destruct (Z.eq_dec k 0) as [->|].
  { exfalso. cbn in Ha, Hb. assert (a = 0) by lia. assert (b = 0) by lia. subst. cbn in *. lia. }
  apply Z.max_lub_lt.
  - destruct (Z.eq_dec a 0) as [->|]; [cbn; lia|]. apply Z.log2_lt_pow2; lia.
  - destruct (Z.eq_dec b 0) as [->|]; [cbn; lia|]. apply Z.log2_lt_pow2; lia.
Qed.
Lemma land_shift_low a b k : 0 <= k -> 0 <= b < 2 ^ k -> Z.land (Z.shiftl a k) b = 0.
Proof.
  intros Hk Hb. apply Z.bits_inj'. intros n Hn. rewrite Z.land_spec, Z.bits_0, Z.shiftl_spec by lia.
  destruct (Z.ltb_spec n k).
  - rewrite Z.testbit_neg_r by lia. reflexivity.
  - destruct (Z.eq_dec b 0) as [->|]; [rewrite Z.bits_0; apply andb_false_r|].
    assert (Hl : Z.log2 b < k) by (apply Z.log2_lt_pow2; lia).
    rewrite (Z.bits_above_log2 b n) by lia.
    apply andb_false_r.
Qed.
Lemma lxor_split a b c d k : 0 <= k -> 0 <= b < 2 ^ k -> 0 <= d < 2 ^ k ->
  Z.lxor (a * 2 ^ k + b) (c * 2 ^ k + d) = Z.lxor a c * 2 ^ k + Z.lxor b d.
Proof.
  intros Hk Hb Hd. rewrite <- !Z.shiftl_mul_pow2 by lia.
  rewrite !(Z.add_nocarry_lxor (Z.shiftl _ _)); try (apply land_shift_low; trivial).
  2:{ apply lxor_bound; assumption. }
  rewrite Z.shiftl_lxor. apply Z.bits_inj'. intros n Hn. rewrite !Z.lxor_spec.
  destruct (Z.testbit (Z.shiftl a k) n), (Z.testbit (Z.shiftl c k) n), (Z.testbit b n), (Z.testbit d n); reflexivity.
Qed.
Lemma b2z_xor a b : b2z (byte_xor a b) = Z.lxor (b2z a) (b2z b).
Proof.
  assert (H : 0 <= Z.lxor (b2z a) (b2z b) < 2 ^ 8)
    by (apply lxor_bound; [lia|apply b2z_range|apply b2z_range]).
  unfold byte_xor, b2z in *.
  assert (E : Z.of_N (N.lxor (Byte.to_N a) (Byte.to_N b)) = Z.lxor (Z.of_N (Byte.to_N a)) (Z.of_N (Byte.to_N b))).
  { apply Z.bits_inj'. intros n Hn. rewrite Z.lxor_spec. rewrite <- (Z2N.id n) by lia.
    rewrite !Z.testbit_of_N. apply N.lxor_spec. }
  destruct (Byte.of_N (N.lxor (Byte.to_N a) (Byte.to_N b))) as [c|] eqn:Ec.
  - apply Byte.to_of_N in Ec. rewrite Ec. exact E.
  - apply Byte.of_N_None_iff in Ec. rewrite <- E in H. lia.
Qed.
Lemma xor_length a b : List.length a = List.length b -> List.length (xor a b) = List.length a.
Proof.
  revert b; induction a as [|x a IH]; intros [|y b] L; cbn in *; try lia. rewrite IH; lia.
Qed.
Lemma be2z_xor a b : List.length a = List.length b ->
  be2z (xor a b) = Z.lxor (be2z a) (be2z b).
Proof.
  revert b; induction a as [|x a IH]; intros [|y b] L; cbn in L; try lia; [reflexivity|].
  cbn [xor]. rewrite !be2z_cons, IH by lia.
  assert (L' : List.length a = List.length b) by lia.
  pose proof (be2z_bound a). pose proof (be2z_bound b).
  unfold zlen in *. rewrite xor_length, L' by lia. rewrite L' in *.
  rewrite b2z_xor.
  assert (E256 : 256 ^ Z.of_nat (List.length b) = 2 ^ (8 * Z.of_nat (List.length b))).
  { change 256 with (2 ^ 8). rewrite <- Z.pow_mul_r by lia. reflexivity. }
  rewrite E256 in *. symmetry. apply lxor_split; lia.
Qed.
Lemma byte_xor_comm a b : byte_xor a b = byte_xor b a.
Proof. apply b2z_inj. rewrite !b2z_xor. apply Z.lxor_comm. Qed.
Lemma byte_xor_cancel a b : byte_xor (byte_xor a b) b = a.
Proof. apply b2z_inj. rewrite !b2z_xor, Z.lxor_assoc, Z.lxor_nilpotent. apply Z.lxor_0_r. Qed.
Lemma xor_cancel a b : List.length a = List.length b -> xor (xor a b) b = a.
Proof.
  revert b; induction a as [|x a IH]; intros [|y b] L; cbn in *; try lia; [reflexivity|].
  rewrite byte_xor_cancel, IH; [reflexivity|lia].
Qed.
Lemma byte_xor_0 a b : byte_xor a b = x00 <-> a = b.
Proof.
  rewrite <- b2z_0, b2z_xor, Z.lxor_eq_0_iff. split; [apply b2z_inj|intros ->; reflexivity].
Qed.
Lemma xor_app a b c d : List.length a = List.length c -> xor (a ++ b) (c ++ d) = xor a c ++ xor b d.
Proof.
  revert c; induction a as [|x a IH]; intros [|y c] L; cbn in *; try lia; [reflexivity|].
  rewrite IH; [reflexivity|lia].
Qed.
Lemma first_xor a b : (0 < List.length a)%nat -> List.length a = List.length b ->
  (first_byte (xor a b) = x00 <-> first_byte a = first_byte b).
Proof. intros H L. destruct a, b; cbn in *; try lia. apply byte_xor_0. Qed.

(** ** hex *)
Lemma hexval_hexdigit v : (v < 16)%N -> hexval (hexdigit v) = Some v.
Proof.
  intros H. assert (Hf : forallb (fun k => match hexval (hexdigit (N.of_nat k)) with
     Some w => N.eqb w (N.of_nat k) | None => false end) (seq 0 16) = true) by reflexivity.
  rewrite forallb_forall in Hf. specialize (Hf (N.to_nat v)). rewrite N2Nat.id in Hf.
  rewrite in_seq in Hf. specialize (Hf ltac:(lia)).
  destruct (hexval (hexdigit v)); [|discriminate]. apply N.eqb_eq in Hf. congruence.
Qed.
Lemma is_space_hexdigit v : (v < 16)%N -> is_space (hexdigit v) = false.
Proof.
  intros H. assert (Hf : forallb (fun k => negb (is_space (hexdigit (N.of_nat k)))) (seq 0 16) = true) by reflexivity.
  rewrite forallb_forall in Hf. specialize (Hf (N.to_nat v)). rewrite N2Nat.id in Hf.
  rewrite in_seq in Hf. specialize (Hf ltac:(lia)).
  destruct (is_space (hexdigit v)); [discriminate|reflexivity].
Qed.
Lemma fromhex_tohex b : fromhex (tohex b) = Some b.
Proof.
  induction b as [|x b IH]; [reflexivity|].
  change (tohex (x :: b)) with
    ([hexdigit (Byte.to_N x / 16); hexdigit (Byte.to_N x mod 16)]%N ++ tohex b).
  cbn [app fromhex]. pose proof (Byte.to_N_bounded x).
  assert (H1 : (Byte.to_N x / 16 < 16)%N) by lia.
  assert (H2 : (Byte.to_N x mod 16 < 16)%N) by lia.
  rewrite (is_space_hexdigit _ H1), (hexval_hexdigit _ H1), (hexval_hexdigit _ H2), IH.
  f_equal. f_equal. rewrite <- (z2b_b2z x) at 3. f_equal. unfold b2z. f_equal. lia.
Qed.
Lemma tohex_length b : List.length (tohex b) = (2 * List.length b)%nat.
Proof.
  induction b as [|x b IH]; [reflexivity|].
  change (tohex (x :: b)) with
    ([hexdigit (Byte.to_N x / 16); hexdigit (Byte.to_N x mod 16)]%N ++ tohex b).
  rewrite app_length, IH. cbn. lia.
Qed.
Lemma tohex_inj a b : tohex a = tohex b -> a = b.
Proof.
  intros H. apply (f_equal fromhex) in H. rewrite !fromhex_tohex in H. congruence.
Qed.
Lemma tohex_nil b : tohex b = [] <-> b = [].
Proof. split; [destruct b; [reflexivity|discriminate]|intros ->; reflexivity]. Qed.

(** ** text encodings *)
Lemma n2b_spec n : (n < 256)%N -> Byte.to_N (n2b n) = n.
Proof.
  intros H. unfold n2b. destruct (Byte.of_N n) eqn:E; [apply Byte.to_of_N in E; exact E|].
  apply Byte.of_N_None_iff in E. lia.
Qed.
Lemma ascii_encode_ok s : is_ascii s -> ascii_encode s = Ok (List.map n2b s).
Proof.
  intros H. unfold ascii_encode.
  replace (forallb (fun c => (c <? 128)%N) s) with true; [reflexivity|].
  symmetry. apply forallb_forall. intros c Hc. unfold is_ascii in H. rewrite Forall_forall in H. apply N.ltb_lt. auto.
Qed.
Lemma ascii_encode_err s : ~ is_ascii s -> ascii_encode s = Raise (Builtin UnicodeEncodeError).
Proof.
  intros H. unfold ascii_encode. destruct (forallb (fun c => (c <? 128)%N) s) eqn:E; [|reflexivity].
  exfalso. apply H. apply Forall_forall. intros c Hc. rewrite forallb_forall in E.
  apply N.ltb_lt. auto.
Qed.
Lemma utf8_ascii s : is_ascii s -> utf8_opt s = Some (List.map n2b s).
Proof.
  induction 1 as [|c s Hc Hs IH]; [reflexivity|]. cbn [utf8_opt List.map]. rewrite IH.
  unfold utf8_char. destruct (N.ltb_spec c 128); [reflexivity|lia].
Qed.
Lemma utf8_encode_ascii s : is_ascii s -> utf8_encode s = Ok (List.map n2b s).
Proof. intros H. unfold utf8_encode. rewrite utf8_ascii by exact H. reflexivity. Qed.
