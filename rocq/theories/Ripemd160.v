(** * Ripemd160: /repo/bip38/libs/ripemd160.py, on Python's unbounded
    integers (so with negative intermediate values and lazy masking). *)
From Verif Require Import Py.

(** ripemd160.py:18-24 *)
Definition ML : list nat := [
  0; 1; 2; 3; 4; 5; 6; 7; 8; 9; 10; 11; 12; 13; 14; 15;
  7; 4; 13; 1; 10; 6; 15; 3; 12; 0; 9; 5; 2; 14; 11; 8;
  3; 10; 14; 4; 9; 15; 8; 1; 2; 7; 0; 6; 13; 11; 5; 12;
  1; 9; 11; 10; 0; 8; 12; 4; 13; 3; 7; 15; 14; 5; 6; 2;
  4; 0; 5; 9; 7; 12; 2; 10; 14; 1; 3; 8; 11; 6; 15; 13 ]%nat.
(** ripemd160.py:27-33 *)
Definition MR : list nat := [
  5; 14; 7; 0; 9; 2; 11; 4; 13; 6; 15; 8; 1; 10; 3; 12;
  6; 11; 3; 7; 0; 13; 5; 10; 14; 15; 8; 12; 4; 9; 1; 2;
  15; 5; 1; 3; 7; 14; 6; 9; 11; 8; 12; 2; 10; 0; 4; 13;
  8; 6; 4; 1; 3; 11; 15; 0; 5; 12; 2; 13; 9; 7; 10; 14;
  12; 15; 10; 4; 1; 5; 8; 7; 6; 2; 13; 14; 0; 3; 9; 11 ]%nat.
(** ripemd160.py:36-42 *)
Definition RL : list Z := [
  11; 14; 15; 12; 5; 8; 7; 9; 11; 13; 14; 15; 6; 7; 9; 8;
  7; 6; 8; 13; 11; 9; 7; 15; 7; 12; 15; 9; 11; 7; 13; 12;
  11; 13; 6; 7; 14; 9; 13; 15; 14; 8; 13; 6; 5; 12; 7; 5;
  11; 12; 14; 15; 14; 15; 9; 8; 9; 14; 5; 6; 8; 6; 5; 12;
  9; 15; 5; 11; 6; 8; 13; 12; 5; 12; 13; 14; 11; 8; 5; 6 ].
(** ripemd160.py:45-51 *)
Definition RR : list Z := [
  8; 9; 9; 11; 13; 15; 15; 5; 7; 7; 8; 11; 14; 14; 12; 6;
  9; 13; 15; 7; 12; 8; 9; 11; 7; 7; 12; 7; 6; 15; 13; 11;
  9; 7; 15; 11; 8; 6; 6; 14; 12; 13; 5; 14; 13; 13; 7; 5;
  15; 5; 8; 11; 14; 14; 6; 14; 6; 9; 12; 9; 12; 5; 15; 8;
  8; 5; 12; 9; 12; 5; 14; 6; 8; 13; 6; 5; 15; 13; 11; 11 ].
(** ripemd160.py:54,57 *)
Definition KL : list Z := [0; 0x5a827999; 0x6ed9eba1; 0x8f1bbcdc; 0xa953fd4e].
Definition KR : list Z := [0x50a28be6; 0x5c4dd124; 0x6d703ef3; 0x7a6d76e9; 0].

(** ripemd160.py:60-73, fi; Python's &, |, ^, ~ on unbounded integers are
    Z.land, Z.lor, Z.lxor, Z.lnot.  The [assert False] branch (i > 4) is
    unreachable (rnd is 0..4) and is given the value 0. *)
Definition fi (x y z : Z) (i : nat) : Z :=
  match i with
  | 0%nat => Z.lxor (Z.lxor x y) z
  | 1%nat => Z.lor (Z.land x y) (Z.land (Z.lnot x) z)
  | 2%nat => Z.lxor (Z.lor x (Z.lnot y)) z
  | 3%nat => Z.lor (Z.land x z) (Z.land y (Z.lnot z))
  | 4%nat => Z.lxor x (Z.lor y (Z.lnot z))
  | _ => 0
  end.

(** ripemd160.py:76-78, rol *)
Definition rol (x i : Z) : Z :=
  Z.land (Z.lor (Z.shiftl x i) (Z.shiftr (Z.land x 0xffffffff) (32 - i))) 0xffffffff.

(** struct.unpack("<L", w)[0] on 4 bytes *)
Definition unpack_L (w : bytes) : Z := from_bytes w Little false.

(** A chaining state (h0,h1,h2,h3,h4). *)
Definition st5 := (Z * Z * Z * Z * Z)%type.

(** ripemd160.py:91-98, one iteration of the round loop *)
Definition round (x : list Z) (lr : st5 * st5) (j : nat) : st5 * st5 :=
  let '((al, bl, cl, dl, el), (ar, br, cr, dr, er)) := lr in
  let rnd := Nat.div j 16 in
  let al := rol (al + fi bl cl dl rnd + nth (nth j ML 0%nat) x 0 + nth rnd KL 0) (nth j RL 0) + el in
  let '(al, bl, cl, dl, el) := (el, al, bl, rol cl 10, dl) in
  let ar := rol (ar + fi br cr dr (4 - rnd) + nth (nth j MR 0%nat) x 0 + nth rnd KR 0) (nth j RR 0) + er in
  let '(ar, br, cr, dr, er) := (er, ar, br, rol cr 10, dr) in
  ((al, bl, cl, dl, el), (ar, br, cr, dr, er)).

(** ripemd160.py:81-101, compress *)
Definition compress (st : st5) (block : bytes) : st5 :=
  let '(h0, h1, h2, h3, h4) := st in
  let x := List.map (fun i => unpack_L (slice (4 * i) (4 * (i + 1)) block)) (seq 0 16) in
  let '((al, bl, cl, dl, el), (ar, br, cr, dr, er)) :=
    fold_left (round x) (seq 0 80) ((h0, h1, h2, h3, h4), (h0, h1, h2, h3, h4)) in
  (h1 + cl + dr, h2 + dl + er, h3 + el + ar, h4 + al + br, h0 + bl + cr).

(** ripemd160.py:109-111 and 116-118: compress the full 64-byte blocks *)
Definition process (data : bytes) (st : st5) : st5 :=
  fold_left (fun st b => compress st (slice (64 * b) (64 * (b + 1)) data))
            (seq 0 (Nat.div (List.length data) 64)) st.

(** struct.pack("<L", h & 0xffffffff) *)
Definition pack_L (h : Z) : bytes := rev (z2be 4 (Z.land h 0xffffffff)).

(** ripemd160.py:104-120, ripemd160.  struct.pack("<Q", v) raises struct.error
    when v >= 2^64. [len(data) & ~63] is 64 * (len(data) >> 6). *)
Definition ripemd160 (data : bytes) : res bytes :=
  let state := (0x67452301, 0xefcdab89, 0x98badcfe, 0x10325476, 0xc3d2e1f0) in
  let state := process data state in
  let pad := x80 :: repeat x00 (Z.to_nat (Z.land (119 - zlen data) 63)) in
  if 2 ^ 64 <=? 8 * zlen data then Raise (Builtin StructError)
  else
    let fin := from (Z.to_nat (Z.land (zlen data) (Z.lnot 63))) data ++ pad
               ++ rev (z2be 8 (8 * zlen data)) in
    let '(h0, h1, h2, h3, h4) := process fin state in
    Ok (pack_L h0 ++ pack_L h1 ++ pack_L h2 ++ pack_L h3 ++ pack_L h4).
