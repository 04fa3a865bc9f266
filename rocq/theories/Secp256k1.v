(** * Secp256k1: /repo/bip38/secp256k1/{point,public_key,private_key}.py *)
From Verif Require Import Py Const Curve.

(** ** point.py.  A Point object wraps an ecdsa point; the model uses [pt]. *)

(** point.py:34-58, Point.from_bytes.  PointJacobi.from_bytes exists in every
    supported ecdsa version, so the AttributeError branch (54-58) is dead. *)
Definition Point_from_bytes (point : bytes) : res pt :=
  match point_coords point with
  | Some (x, y) => Ok (Aff x y)
  | None => Raise (Lib CSecp256k1Error "Invalid point key bytes")
  end.

(** point.py:60-78, Point.from_coordinates; ellipticcurve.Point asserts that
    the coordinates are on the curve *)
Definition Point_from_coordinates (x y : Z) : res pt :=
  if contains_point x y then Ok (Aff x y) else Raise (Builtin AssertionError).

(** point.py:90-108, Point.x and Point.y; None for the point at infinity *)
Definition Point_x (P : pt) : option Z := match P with Inf => None | Aff x _ => Some x end.
Definition Point_y (P : pt) : option Z := match P with Inf => None | Aff _ y => Some y end.

(** point.py:120-134, Point.raw_encoded (to_bytes("compressed")).  The curve
    of ecdsa INFINITY is None, so to_bytes fails with AttributeError; the
    except branch (129-134) then calls to_bytes on the coordinate None. *)
Definition Point_raw_encoded (P : pt) : res bytes :=
  match P with
  | Inf => Raise (Builtin AttributeError)
  | Aff x y => let* xs := number_to_string x in
               Ok ((if Z.odd y then x03 else x02) :: xs)
  end.

(** point.py:136-153, Point.raw_decoded (to_bytes(), i.e. raw); infinity as above *)
Definition Point_raw_decoded (P : pt) : res bytes :=
  match P with
  | Inf => Raise (Builtin AttributeError)
  | Aff x y => let* xs := number_to_string x in
               let* ys := number_to_string y in
               Ok (xs ++ ys)
  end.
(** point.py:110-118, Point.raw *)
Definition Point_raw (P : pt) : res bytes := Point_raw_decoded P.

(** point.py:155-179, Point.__add__ and __radd__ *)
Definition Point_add (P Q : pt) : pt := ec_add P Q.
(** point.py:181-205, Point.__mul__ and __rmul__ *)
Definition Point_mul (P : pt) (scalar : Z) : pt := ec_mul scalar P.

(** ** public_key.py.  A PublicKey holds a VerifyingKey, i.e. a pair of coordinates. *)
Record pubkey := { pk_x : Z; pk_y : Z }.

(** public_key.py:35-54, PublicKey.from_bytes *)
Definition PublicKey_from_bytes (public_key : bytes) : res pubkey :=
  match point_coords public_key with
  | Some (x, y) =>
      if valid_public_point x y then Ok {| pk_x := x; pk_y := y |}
      else Raise (Lib CSecp256k1Error "Invalid public key bytes")
  | None => Raise (Lib CSecp256k1Error "Invalid public key bytes")
  end.

(** public_key.py:56-78, PublicKey.from_point.  For the point at infinity
    contains_point(None, None) is a TypeError; off-curve coordinates fail the
    assertion in ellipticcurve.Point; out-of-range ones are rejected by
    ecdsa.Public_key. *)
Definition PublicKey_from_point (point : pt) : res pubkey :=
  match point with
  | Inf => Raise (Builtin TypeError)
  | Aff x y =>
      if negb (contains_point x y) then Raise (Builtin AssertionError)
      else if valid_public_point x y then Ok {| pk_x := x; pk_y := y |}
      else Raise (Lib CSecp256k1Error "Invalid public key point")
  end.

(** public_key.py:80-100 *)
Definition PublicKey_compressed_length : Z := COMPRESSED_PUBLIC_KEY_LENGTH.
Definition PublicKey_uncompressed_length : Z := UNCOMPRESSED_PUBLIC_KEY_LENGTH.

(** public_key.py:122-130, raw_compressed *)
Definition raw_compressed (k : pubkey) : res bytes :=
  let* xs := number_to_string (pk_x k) in
  Ok ((if Z.odd (pk_y k) then x03 else x02) :: xs).
(** public_key.py:132-140, raw_uncompressed *)
Definition raw_uncompressed (k : pubkey) : res bytes :=
  let* xs := number_to_string (pk_x k) in
  let* ys := number_to_string (pk_y k) in
  Ok (x04 :: xs ++ ys).
(** public_key.py:112-120, raw *)
Definition PublicKey_raw (k : pubkey) (public_key_type : pystr) : res bytes :=
  if str_eqb public_key_type (str "compressed") then raw_compressed k else raw_uncompressed k.
(** public_key.py:142-150, point *)
Definition PublicKey_point (k : pubkey) : pt := Aff (pk_x k) (pk_y k).

(** ** private_key.py.  A PrivateKey holds a SigningKey, i.e. the secret exponent. *)
Record privkey := { secexp : Z }.

(** private_key.py:32-51, PrivateKey.from_bytes.  SigningKey.from_string raises
    MalformedPointError for a wrong length or an exponent outside 1..n-1. *)
Definition PrivateKey_from_bytes (private_key : bytes) : res privkey :=
  if negb (Nat.eqb (List.length private_key) 32)
  then Raise (Lib CSecp256k1Error "Invalid private key bytes")
  else
    let e := string_to_number private_key in
    if (1 <=? e) && (e <? G_order) then Ok {| secexp := e |}
    else Raise (Lib CSecp256k1Error "Invalid private key bytes").

(** private_key.py:53-62 *)
Definition PrivateKey_length : Z := PRIVATE_KEY_LENGTH.

(** private_key.py:74-82, raw (to_string: 32 bytes) *)
Definition PrivateKey_raw (k : privkey) : bytes := z2be 32 (secexp k).

(** private_key.py:84-92, public_key; the verifying key is generator * secexp.
    (For the point at infinity, excluded by CurveFacts.v, the range check of
    ecdsa.Public_key compares with None: TypeError.) *)
Definition PrivateKey_public_key (k : privkey) : res pubkey :=
  match ec_mul (secexp k) G with
  | Inf => Raise (Builtin TypeError)
  | Aff x y => Ok {| pk_x := x; pk_y := y |}
  end.
