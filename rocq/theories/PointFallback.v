(** * PointFallback: the [except AttributeError] branches of
    /repo/bip38/secp256k1/point.py, taken when the installed ecdsa package is so
    old that its points have no from_bytes / to_bytes methods. *)
From Verif Require Import Py Const Utils Curve Secp256k1.

(** point.py:54-58, Point.from_bytes *)
Definition Point_from_bytes_old (point : bytes) : res pt :=
  Point_from_coordinates
    (bytes_to_integer (upto COORDINATE_POINT_LENGTH point))
    (bytes_to_integer (from COORDINATE_POINT_LENGTH point)).

(** point.py:130-134, Point.raw_encoded.  At infinity x() is None, which has no
    to_bytes: the second AttributeError is not caught. *)
Definition Point_raw_encoded_old (P : pt) : res bytes :=
  match P with
  | Inf => Raise (Builtin AttributeError)
  | Aff x y =>
      let* xs := integer_to_bytes_n x (Z.of_nat COORDINATE_POINT_LENGTH) in
      Ok (if Z.odd y then [x03] ++ xs else [x02] ++ xs)
  end.

(** point.py:147-153, Point.raw_decoded *)
Definition Point_raw_decoded_old (P : pt) : res bytes :=
  match P with
  | Inf => Raise (Builtin AttributeError)
  | Aff x y =>
      let* xs := integer_to_bytes_n x (Z.of_nat COORDINATE_POINT_LENGTH) in
      let* ys := integer_to_bytes_n y (Z.of_nat COORDINATE_POINT_LENGTH) in
      Ok (xs ++ ys)
  end.
