(** * Curve: the part of the ecdsa package (ecdsa.ecdsa, ecdsa.ellipticcurve,
    ecdsa.keys, >= 0.18) that /repo/bip38/secp256k1 calls.

    The package is not part of /repo; this is the model of a dependency.  The
    package computes with Jacobian coordinates; here points are multiplied
    with the complete projective formulas for y^2 = x^3 + b.  CurveFacts.v
    proves that the result is the textbook chord-and-tangent group law on
    affine points (Spec.v), which is the behaviour assumed of the package. *)
From Verif Require Import Py.

(** ecdsa.ecdsa.curve_secp256k1: y^2 = x^3 + 7 over GF(p) *)
Definition p_field : Z := 0xFFFFFFFFFFFFFFFFFFFFFFFFFFFFFFFFFFFFFFFFFFFFFFFFFFFFFFFEFFFFFC2F.
Definition curve_b : Z := 7.
(** ecdsa.ecdsa.generator_secp256k1 and its order *)
Definition G_x : Z := 0x79BE667EF9DCBBAC55A06295CE870B07029BFCDB2DCE28D959F2815B16F81798.
Definition G_y : Z := 0x483ADA7726A3C4655DA4FBFC0E1108A8FD17B448A68554199C47D08FFB10D4B8.
Definition G_order : Z := 0xFFFFFFFFFFFFFFFFFFFFFFFFFFFFFFFEBAAEDCE6AF48A03BBFD25E8CD0364141.

(** A point: infinity (ecdsa INFINITY, whose coordinates are None) or a pair
    of integers, not necessarily reduced or on the curve. *)
Inductive pt := Inf | Aff (x y : Z).
Definition G : pt := Aff G_x G_y.

(** Reduction modulo p, using 2^256 = 2^32 + 977 (mod p).  CurveFacts.v:
    [fred x = x mod p_field]. *)
Definition fold256 (x : Z) : Z := Z.land x (Z.ones 256) + Z.shiftr x 256 * 4294968273.
Definition fred (x : Z) : Z :=
  if (0 <=? x) && (x <? 2 ^ 520) then
    let y := fold256 (fold256 x) in
    if y <? p_field then y else y mod p_field
  else x mod p_field.

Definition fadd (a b : Z) : Z := let s := a + b in if s <? p_field then s else s - p_field.
Definition fsub (a b : Z) : Z := let s := a - b in if s <? 0 then s + p_field else s.
Definition fmul (a b : Z) : Z := fred (a * b).
Fixpoint fpow_pos (a : Z) (e : positive) : Z :=
  match e with
  | xH => a
  | xO e' => let r := fpow_pos a e' in fmul r r
  | xI e' => let r := fpow_pos a e' in fmul (fmul r r) a
  end.
Definition fpow (a e : Z) : Z :=
  match e with Zpos e' => fpow_pos a e' | _ => 1 end.
(** inverse modulo p (pow(z, -1, p)) *)
Definition finv (a : Z) : Z := fpow a (p_field - 2).

(** Projective coordinates (X : Y : Z). *)
Definition ppt := (Z * Z * Z)%type.
Definition b3 : Z := 3 * curve_b.

(** Complete addition for a = 0 (Renes, Costello, Batina 2016, section 3.1) *)
Definition padd (P Q : ppt) : ppt :=
  let '(X1, Y1, Z1) := P in
  let '(X2, Y2, Z2) := Q in
  let xx := fmul X1 X2 in
  let yy := fmul Y1 Y2 in
  let zz := fmul b3 (fmul Z1 Z2) in
  let xy := fadd (fmul X1 Y2) (fmul X2 Y1) in
  let yz := fadd (fmul Y1 Z2) (fmul Y2 Z1) in
  let xz := fadd (fmul X1 Z2) (fmul X2 Z1) in
  let xx3 := fadd (fadd xx xx) xx in
  let m := fsub yy zz in
  let a := fadd yy zz in
  let bxz := fmul b3 xz in
  (fsub (fmul xy m) (fmul yz bxz),
   fadd (fmul a m) (fmul xx3 bxz),
   fadd (fmul yz a) (fmul xx3 xy)).

Definition to_proj (P : pt) : ppt :=
  match P with
  | Inf => (0, 1, 0)
  | Aff x y => (fred x, fred y, 1)
  end.
Definition to_aff (P : ppt) : pt :=
  let '(X, Y, Z) := P in
  if Z =? 0 then Inf
  else let i := finv Z in Aff (fmul X i) (fmul Y i).

Fixpoint pmul (k : positive) (P : ppt) : ppt :=
  match k with
  | xH => P
  | xO k' => let R := pmul k' P in padd R R
  | xI k' => let R := pmul k' P in padd (padd R R) P
  end.

(** Point + Point *)
Definition ec_add (P Q : pt) : pt := to_aff (padd (to_proj P) (to_proj Q)).
(** -Point *)
Definition ec_neg (P : pt) : pt :=
  match P with Inf => Inf | Aff x y => Aff x (fred (- y)) end.
(** Point * int; a negative scalar multiplies the negated point. *)
Definition ec_mul (k : Z) (P : pt) : pt :=
  match k with
  | Z0 => Inf
  | Zpos q => to_aff (pmul q (to_proj P))
  | Zneg q => to_aff (pmul q (to_proj (ec_neg P)))
  end.

(** curve.contains_point(x, y) *)
Definition contains_point (x y : Z) : bool :=
  (y * y - (x * x * x + curve_b)) mod p_field =? 0.

(** numbertheory.square_root_mod_prime(a, p) for p = 3 mod 4 and 0 <= a < p;
    [None] stands for SquareRootError.  The package decides solvability with
    the Jacobi symbol; here the candidate root is squared (equivalent for a prime p). *)
Definition sqrt_mod (a : Z) : option Z :=
  let beta := fpow a ((p_field + 1) / 4) in
  if fmul beta beta =? a then Some beta else None.

(** util.number_to_string(num, order): 32-byte big-endian for numbers below
    2^256; AssertionError or binascii.Error (a ValueError) otherwise. *)
Definition number_to_string (n : Z) : res bytes :=
  if n <? 0 then Raise (Builtin ValueError)
  else if n <? 2 ^ 256 then Ok (z2be 32 n)
  else if Z.even (Z.log2 n / 4 + 1) then Raise (Builtin AssertionError)
  else Raise (Builtin ValueError).
(** util.string_to_number *)
Definition string_to_number (b : bytes) : Z := be2z b.

(** AbstractPoint._from_raw_encoding *)
Definition from_raw_encoding (data : bytes) : Z * Z :=
  (string_to_number (upto 32 data), string_to_number (from 32 data)).

(** AbstractPoint._from_compressed; [None] is MalformedPointError *)
Definition from_compressed (data : bytes) : option (Z * Z) :=
  match data with
  | tag :: xs =>
      if Byte.eqb tag x02 || Byte.eqb tag x03 then
        let is_even := Byte.eqb tag x02 in
        let x := string_to_number xs in
        let alpha := (x * x * x + curve_b) mod p_field in
        match sqrt_mod alpha with
        | None => None
        | Some beta =>
            Some (x, if Bool.eqb is_even (Z.odd beta) then p_field - beta else beta)
        end
      else None
  | [] => None
  end.

(** AbstractPoint.from_bytes with all encodings enabled (raw, uncompressed,
    hybrid, compressed); no check that the point is on the curve.
    [None] is MalformedPointError. *)
Definition point_coords (data : bytes) : option (Z * Z) :=
  let n := List.length data in
  if Nat.eqb n 64 then Some (from_raw_encoding data)
  else if Nat.eqb n 65 then
    match data with
    | tag :: rest =>
        if Byte.eqb tag x06 || Byte.eqb tag x07 then
          let '(x, y) := from_raw_encoding rest in
          if (Z.odd y && negb (Byte.eqb tag x07)) || (negb (Z.odd y) && negb (Byte.eqb tag x06))
          then None else Some (x, y)
        else if Byte.eqb tag x04 then Some (from_raw_encoding rest)
        else None
    | [] => None
    end
  else if Nat.eqb n 33 then from_compressed data
  else None.

(** ecdsa.Public_key(generator, point, verify=True): coordinates in range and
    on the curve (cofactor 1: no order check) *)
Definition valid_public_point (x y : Z) : bool :=
  (0 <=? x) && (x <? p_field) && (0 <=? y) && (y <? p_field) && contains_point x y.
