(** * UtilsFacts: lemmas about Utils.v *)
From Coq Require Import Lia ZifyBool ZifyNat ZifyN.
From Verif Require Import Py Spec PyFacts Utils.
Ltac Zify.zify_post_hook ::= Z.div_mod_to_equations.

Lemma be2z_shortest l : be2z (shortest l) = be2z l.
Proof.
  unfold shortest. rewrite <- (be2z_strip l). destruct (strip_zeros l); reflexivity.
Qed.

Definition width (z : Z) : Z := ((if 0 <? z then bit_length z else 1) + 7) / 8.

Lemma width_pos z : 1 <= width z.
Proof.
  unfold width, bit_length. destruct (Z.ltb_spec 0 z); [|cbn; lia].
  pose proof (Z.log2_nonneg z). lia.
Qed.

Lemma width_shortest l : width (be2z l) = zlen (shortest l).
Proof.
  rewrite <- be2z_shortest. unfold shortest. destruct (strip_zeros l) as [|b r] eqn:E.
  - reflexivity.
  - pose proof (strip_zeros_first _ _ _ E) as Hb.
    assert (Hb' : b2z b <> 0) by (rewrite b2z_0; exact Hb).
    pose proof (b2z_range b) as Rb. pose proof (be2z_bound r) as Br.
    pose proof (pow256_pos (zlen r) (zlen_nonneg r)) as Pr.
    rewrite be2z_cons. set (v := b2z b * 256 ^ zlen r + be2z r).
    assert (Hv : 256 ^ zlen r <= v < 256 ^ (zlen r + 1)).
    { unfold v. rewrite Z.pow_add_r by (pose proof (zlen_nonneg r); lia). nia. }
    assert (HL : 8 * zlen r <= Z.log2 v < 8 * zlen r + 8).
    { pose proof (zlen_nonneg r) as Zr. split.
      - apply Z.log2_le_pow2; [lia|]. rewrite Z.pow_mul_r by lia. exact (proj1 Hv).
      - apply Z.log2_lt_pow2; [lia|].
        replace (8 * zlen r + 8) with (8 * (zlen r + 1)) by lia.
        rewrite Z.pow_mul_r by lia. exact (proj2 Hv). }
    unfold width, bit_length. destruct (Z.ltb_spec 0 v); [|lia].
    replace (zlen (b :: r)) with (zlen r + 1) by (unfold zlen; cbn [List.length]; lia). lia.
Qed.

Lemma integer_to_bytes_unfold z : integer_to_bytes z = to_bytes z (width z) Big false.
Proof. reflexivity. Qed.

Lemma integer_to_bytes_be2z l : integer_to_bytes (be2z l) = Ok (shortest l).
Proof.
  rewrite integer_to_bytes_unfold, width_shortest.
  rewrite to_bytes_ok.
  - f_equal. unfold zlen. rewrite Nat2Z.id. rewrite <- be2z_shortest. apply z2be_be2z.
  - apply zlen_nonneg.
  - rewrite <- be2z_shortest. apply be2z_bound.
Qed.

Lemma nonneg_is_be2z z : 0 <= z -> exists l, be2z l = z.
Proof.
  intros H. exists (z2be (Z.to_nat z) z). apply z2be_small_be2z. rewrite Z2Nat.id by lia.
  split; [lia|]. apply Z.pow_gt_lin_r; lia.
Qed.

(** [integer_to_bytes] on every non-negative integer. *)
Lemma integer_to_bytes_nonneg z : 0 <= z ->
  exists l, integer_to_bytes z = Ok l /\ be2z l = z /\ shortest l = l /\ l <> [].
Proof.
  intros H. destruct (nonneg_is_be2z z H) as [l <-]. exists (shortest l).
  rewrite integer_to_bytes_be2z, be2z_shortest. repeat split.
  - unfold shortest. destruct (strip_zeros l) as [|b r] eqn:E; [reflexivity|].
    rewrite strip_zeros_id; [reflexivity|]. eapply strip_zeros_first; exact E.
  - unfold shortest. destruct (strip_zeros l); discriminate.
Qed.
Lemma integer_to_bytes_neg z : z < 0 -> integer_to_bytes z = Raise (Builtin OverflowError).
Proof.
  intros H. rewrite integer_to_bytes_unfold. apply to_bytes_overflow.
  - pose proof (width_pos z); lia.
  - lia.
Qed.

Lemma shortest_id l : first_byte l <> x00 -> shortest l = l.
Proof.
  destruct l as [|b l]; cbn [first_byte]; [congruence|]. intros H.
  unfold shortest. rewrite strip_zeros_id by exact H. reflexivity.
Qed.
Lemma shortest_length_lt l : (1 < List.length l)%nat -> first_byte l = x00 ->
  (List.length (shortest l) < List.length l)%nat.
Proof.
  destruct l as [|b l]; cbn [first_byte List.length]; [lia|]. intros H ->.
  unfold shortest. cbn [strip_zeros]. cbn [Byte.eqb]. 
  replace (Byte.eqb x00 x00) with true by reflexivity.
  pose proof (strip_zeros_length l). destruct (strip_zeros l); cbn [List.length] in *; lia.
Qed.
Lemma shortest_length_le l : (0 < List.length l)%nat -> (List.length (shortest l) <= List.length l)%nat.
Proof.
  intros H. unfold shortest. pose proof (strip_zeros_length l). destruct (strip_zeros l); cbn [List.length] in *; lia.
Qed.
Lemma shortest_length_eq l : (1 < List.length l)%nat ->
  (List.length (shortest l) = List.length l <-> first_byte l <> x00).
Proof.
  intros H. split.
  - intros E F. pose proof (shortest_length_lt l H F). lia.
  - intros F. rewrite shortest_id by exact F. reflexivity.
Qed.
Lemma shortest_nonempty l : shortest l <> [].
Proof. unfold shortest. destruct (strip_zeros l); discriminate. Qed.

Lemma bytes_to_integer_be2z l : bytes_to_integer l = be2z l.
Proof. reflexivity. Qed.

(** With a width. *)
Lemma integer_to_bytes_n_ok z n : 0 < n -> 0 <= z < 256 ^ n ->
  integer_to_bytes_n z n = Ok (z2be (Z.to_nat n) z).
Proof.
  intros Hn Hz. unfold integer_to_bytes_n, integer_to_bytes_full.
  destruct (Z.eqb_spec n 0); [lia|]. apply to_bytes_ok; [lia|exact Hz].
Qed.

(** ** The xor of two byte strings through integers *)
Lemma pad_left_length n l : (List.length l <= n)%nat -> List.length (pad_left n l) = n.
Proof. intros H. unfold pad_left. rewrite app_length, repeat_length. lia. Qed.
Lemma be2z_pad n l : be2z (pad_left n l) = be2z l.
Proof. apply be2z_zeros. Qed.

Lemma lxor_integer_to_bytes a b :
  let n := Nat.max (List.length a) (List.length b) in
  integer_to_bytes (Z.lxor (be2z a) (be2z b)) = Ok (shortest (xor (pad_left n a) (pad_left n b))).
Proof.
  intros n. rewrite <- integer_to_bytes_be2z, be2z_xor, !be2z_pad; [reflexivity|].
  rewrite !pad_left_length by lia. reflexivity.
Qed.
Lemma lxor_integer_to_bytes_eq a b : List.length a = List.length b ->
  integer_to_bytes (Z.lxor (be2z a) (be2z b)) = Ok (shortest (xor a b)).
Proof. intros H. rewrite <- integer_to_bytes_be2z, be2z_xor; [reflexivity|exact H]. Qed.

(** ** get_bytes / bytes_to_string *)
Lemma get_bytes_bytes b h : get_bytes (PBytes b) h = Ok b.
Proof. unfold get_bytes. destruct b; reflexivity. Qed.
Lemma get_bytes_hex s : get_bytes (PStr s) true =
  match fromhex s with Some b => Ok b | None => Raise (Builtin ValueError) end.
Proof. unfold get_bytes. destruct s; reflexivity. Qed.
Lemma get_bytes_utf8 s : get_bytes (PStr s) false = utf8_encode s.
Proof. unfold get_bytes. destruct s; reflexivity. Qed.
Lemma bytes_to_string_bytes b : bytes_to_string (PBytes b) = Ok (tohex b).
Proof. unfold bytes_to_string. destruct b; reflexivity. Qed.
Lemma get_bytes_tohex b : get_bytes (PStr (tohex b)) true = Ok b.
Proof. rewrite get_bytes_hex, fromhex_tohex. reflexivity. Qed.

(** ** Reversal *)
Lemma bytes_reverse_invol b : bytes_reverse (bytes_reverse b) = b.
Proof. apply rev_involutive. Qed.
