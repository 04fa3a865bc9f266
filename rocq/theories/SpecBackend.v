(** * SpecBackend: what is asked of a curve package.

    Only what SEC 1 and SEC 2 say about keys and points that are valid, and that private
    and public keys given as bytes are refused if they are not.  Nothing is said about
    points off the curve, coordinates out of range or exponents out of range. *)
From Verif Require Import Py Curve SpecCurve Secp256k1 Spec SpecBip38 Backend.

(** A byte string that denotes a point for ecdsa: SEC 1 compressed or uncompressed, the
    bare coordinates, or the ANSI hybrid form *)
Definition denotes (x y : Z) (l : bytes) : Prop :=
  on_curve (Aff x y) /\ (sec1_compressed x y l \/ sec1_uncompressed x y l \/ raw_xy x y l \/ hybrid x y l).
(** ... and one that is a SEC 1 compressed point *)
Definition compresses (x y : Z) (l : bytes) : Prop := on_curve (Aff x y) /\ sec1_compressed x y l.

Record keeps_to_sec1 (B : backend) : Prop := {
  (* private keys: 32 bytes, from 1 to n - 1 *)
  sec1_private : forall l e, scalar l e -> b_private B l = Ok {| secexp := e |};
  sec1_private_refused : forall l, (forall e, ~ scalar l e) ->
    b_private B l = Raise (Lib CSecp256k1Error "Invalid private key bytes");
  sec1_secret : forall l e, scalar l e -> b_secret B {| secexp := e |} = l;
  (* the public key is that multiple of the generator *)
  sec1_public : forall e x y, 1 <= e < secp_n -> public_point e x y ->
    b_public B {| secexp := e |} = Ok {| pk_x := x; pk_y := y |};
  (* public keys as bytes, of no more than the 33 bytes of a compressed point *)
  sec1_from_bytes : forall l x y, compresses x y l -> b_from_bytes B l = Ok {| pk_x := x; pk_y := y |};
  sec1_from_bytes_refused : forall l, (List.length l <= 33)%nat -> (forall x y, ~ compresses x y l) ->
    b_from_bytes B l = Raise (Lib CSecp256k1Error "Invalid public key bytes");
  (* multiples of a public key, by 1 to n - 1 *)
  sec1_mul : forall x y e R, on_curve (Aff x y) -> 1 <= e < secp_n ->
    ec_multiple (Z.to_N e) (Aff x y) R -> b_mul B {| pk_x := x; pk_y := y |} e = R;
  sec1_from_point : forall x y, on_curve (Aff x y) -> b_from_point B (Aff x y) = Ok {| pk_x := x; pk_y := y |};
  (* public keys to bytes *)
  sec1_to_compressed : forall x y l, on_curve (Aff x y) -> sec1_compressed x y l ->
    b_compressed B {| pk_x := x; pk_y := y |} = Ok l;
  sec1_to_uncompressed : forall x y l, on_curve (Aff x y) -> sec1_uncompressed x y l ->
    b_uncompressed B {| pk_x := x; pk_y := y |} = Ok l
}.

(** A package that also reads the other forms ecdsa reads, and no more *)
Record reads_every_form (B : backend) : Prop := {
  form_read : forall l x y, denotes x y l -> b_from_bytes B l = Ok {| pk_x := x; pk_y := y |};
  form_refused : forall l, (forall x y, ~ denotes x y l) ->
    b_from_bytes B l = Raise (Lib CSecp256k1Error "Invalid public key bytes")
}.
