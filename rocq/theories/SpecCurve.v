(** * SpecCurve: secp256k1 as in SEC 2, section 2.4.1, with the textbook
    chord-and-tangent law.  Only the type [pt] (infinity, or a pair of
    integers) is taken from the model. *)
From Verif Require Import Py.
From Verif Require Import Curve.

(** The field prime, the group order and the generator of SEC 2. *)
Definition secp_p : Z := 2 ^ 256 - 2 ^ 32 - 2 ^ 9 - 2 ^ 8 - 2 ^ 7 - 2 ^ 6 - 2 ^ 4 - 1.
Definition secp_n : Z := 0xFFFFFFFFFFFFFFFFFFFFFFFFFFFFFFFEBAAEDCE6AF48A03BBFD25E8CD0364141.
Definition secp_G : pt :=
  Aff 0x79BE667EF9DCBBAC55A06295CE870B07029BFCDB2DCE28D959F2815B16F81798
      0x483ADA7726A3C4655DA4FBFC0E1108A8FD17B448A68554199C47D08FFB10D4B8.

(** Congruence modulo the field prime. *)
Definition cong (a b : Z) : Prop := exists k, a - b = k * secp_p.
Definition in_field (x : Z) : Prop := 0 <= x < secp_p.

(** Points of the curve: infinity and the solutions of y^2 = x^3 + 7. *)
Definition on_curve (P : pt) : Prop :=
  match P with
  | Inf => True
  | Aff x y => in_field x /\ in_field y /\ cong (y * y) (x * x * x + 7)
  end.

(** [ec_sum P Q R]: R is the sum of P and Q. *)
Inductive ec_sum : pt -> pt -> pt -> Prop :=
  | sum_inf_l : forall Q, ec_sum Inf Q Q
  | sum_inf_r : forall P, ec_sum P Inf P
  | sum_opposite : forall x y1 y2, cong (y1 + y2) 0 -> ec_sum (Aff x y1) (Aff x y2) Inf
  | sum_chord : forall x1 y1 x2 y2 l x3 y3,
      x1 <> x2 -> cong (l * (x2 - x1)) (y2 - y1) ->
      in_field x3 -> cong x3 (l * l - x1 - x2) ->
      in_field y3 -> cong y3 (l * (x1 - x3) - y1) ->
      ec_sum (Aff x1 y1) (Aff x2 y2) (Aff x3 y3)
  | sum_tangent : forall x y l x3 y3,
      ~ cong (y + y) 0 -> cong (l * (2 * y)) (3 * (x * x)) ->
      in_field x3 -> cong x3 (l * l - x - x) ->
      in_field y3 -> cong y3 (l * (x - x3) - y) ->
      ec_sum (Aff x y) (Aff x y) (Aff x3 y3).

(** [ec_multiple k P R]: R = P + ... + P, k times. *)
Inductive ec_multiple : N -> pt -> pt -> Prop :=
  | multiple_0 : forall P, ec_multiple 0 P Inf
  | multiple_S : forall k P Q R, ec_multiple k P Q -> ec_sum P Q R -> ec_multiple (N.succ k) P R.

(** ** Encodings of points and scalars (SEC 1, sections 2.3.3, 2.3.5, 2.3.7) *)
From Verif Require Import Spec.
(** The [n]-byte big-endian form of an integer. *)
Definition fixed_bytes (n : nat) (z : Z) (l : bytes) : Prop :=
  List.length l = n /\ be_value l = z.
(** 02 or 03 (y even or odd) and x *)
Definition sec1_compressed (x y : Z) (l : bytes) : Prop :=
  exists xs, fixed_bytes 32 x xs /\ l = (if Z.even y then x02 else x03) :: xs.
(** 04, x and y *)
Definition sec1_uncompressed (x y : Z) (l : bytes) : Prop :=
  exists xs ys, fixed_bytes 32 x xs /\ fixed_bytes 32 y ys /\ l = x04 :: xs ++ ys.
(** x and y, without a tag *)
Definition raw_xy (x y : Z) (l : bytes) : Prop :=
  exists xs ys, fixed_bytes 32 x xs /\ fixed_bytes 32 y ys /\ l = xs ++ ys.
(** 06 or 07 (y even or odd), x and y (ANSI X9.62 hybrid form) *)
Definition hybrid (x y : Z) (l : bytes) : Prop :=
  exists xs ys, fixed_bytes 32 x xs /\ fixed_bytes 32 y ys /\
    l = (if Z.even y then x06 else x07) :: xs ++ ys.
(** A private key: 32 bytes denoting an integer from 1 to the order less one. *)
Definition scalar (l : bytes) (e : Z) : Prop := fixed_bytes 32 e l /\ 1 <= e < secp_n.
