(** * SpecRipemd: RIPEMD-160 as published (Dobbertin, Bosselaers, Preneel,
    "RIPEMD-160: a strengthened version of RIPEMD", 1996), on 32-bit words.
    Independent of the model: the message order is given by the permutations
    rho and pi of the paper, the rotations by its table of shifts per word, and
    the constants are the published ones. *)
From Verif Require Import Py.

Definition word (z : Z) : Z := z mod 2 ^ 32.
Definition rotl (x s : Z) : Z := (x * 2 ^ s) mod 2 ^ 32 + x / 2 ^ (32 - s).
(** bitwise complement of a 32-bit word *)
Definition compl (x : Z) : Z := 2 ^ 32 - 1 - x.

(** the five non-linear functions *)
Definition nonlinear (r : nat) (x y z : Z) : Z :=
  match r with
  | 0%nat => Z.lxor (Z.lxor x y) z
  | 1%nat => Z.lor (Z.land x y) (Z.land (compl x) z)
  | 2%nat => Z.lxor (Z.lor x (compl y)) z
  | 3%nat => Z.lor (Z.land x z) (Z.land y (compl z))
  | _ => Z.lxor x (Z.lor y (compl z))
  end.

(** message word order: round r of the left line uses rho^r, of the right line rho^r o pi *)
Definition rho : list nat := [7; 4; 13; 1; 10; 6; 15; 3; 12; 0; 9; 5; 2; 14; 11; 8]%nat.
Definition pi (i : nat) : nat := Nat.modulo (9 * i + 5) 16.
Definition order_left (j : nat) : nat := Nat.iter (j / 16) (fun i => nth i rho 0%nat) (Nat.modulo j 16).
Definition order_right (j : nat) : nat := Nat.iter (j / 16) (fun i => nth i rho 0%nat) (pi (Nat.modulo j 16)).
(** shift applied with message word X_i in each of the five rounds *)
Definition shifts : list (list Z) :=
  [ [11; 14; 15; 12; 5; 8; 7; 9; 11; 13; 14; 15; 6; 7; 9; 8];
    [12; 13; 11; 15; 6; 9; 9; 7; 12; 15; 11; 13; 7; 8; 7; 7];
    [13; 15; 14; 11; 7; 7; 6; 8; 13; 14; 13; 12; 5; 5; 6; 9];
    [14; 11; 12; 14; 8; 6; 5; 5; 15; 12; 15; 14; 9; 9; 8; 6];
    [15; 12; 13; 13; 9; 5; 8; 6; 14; 11; 12; 11; 8; 6; 5; 5] ].
Definition shift (j i : nat) : Z := nth i (nth (j / 16) shifts []) 0.
(** added constants: integer parts of 2^30 times the square roots (left) and
    cube roots (right) of 2, 3, 5, 7 *)
Definition const_left (r : nat) : Z :=
  match r with 0%nat => 0 | 1%nat => Z.sqrt (2 * 2 ^ 60) | 2%nat => Z.sqrt (3 * 2 ^ 60)
             | 3%nat => Z.sqrt (5 * 2 ^ 60) | _ => Z.sqrt (7 * 2 ^ 60) end.
Definition const_right (r : nat) : Z :=
  match r with 0%nat => 0x50A28BE6 | 1%nat => 0x5C4DD124 | 2%nat => 0x6D703EF3 | 3%nat => 0x7A6D76E9 | _ => 0 end.

Definition words := (Z * Z * Z * Z * Z)%type.
(** one step of a line *)
Definition step (f : Z -> Z -> Z -> Z) (x k s : Z) (st : words) : words :=
  let '(a, b, c, d, e) := st in
  (e, word (rotl (word (a + f b c d + x + k)) s + e), b, rotl c 10, d).
Definition left_step (X : list Z) (st : words) (j : nat) : words :=
  step (nonlinear (j / 16)) (nth (order_left j) X 0) (const_left (j / 16)) (shift j (order_left j)) st.
Definition right_step (X : list Z) (st : words) (j : nat) : words :=
  step (nonlinear (4 - j / 16)) (nth (order_right j) X 0) (const_right (j / 16)) (shift j (order_right j)) st.

(** little-endian value of a 4-byte word *)
Definition le_value (l : bytes) : Z := be2z (rev l).
(** the list split into [k] pieces of [n] bytes *)
Fixpoint chunks (k n : nat) (l : bytes) : list bytes :=
  match k with O => [] | S k' => firstn n l :: chunks k' n (skipn n l) end.

Definition compression (h : words) (block : bytes) : words :=
  let X := List.map le_value (chunks 16 4 block) in
  let '(a, b, c, d, e) := fold_left (left_step X) (seq 0 80) h in
  let '(a', b', c', d', e') := fold_left (right_step X) (seq 0 80) h in
  let '(h0, h1, h2, h3, h4) := h in
  (word (h1 + c + d'), word (h2 + d + e'), word (h3 + e + a'), word (h4 + a + b'), word (h0 + b + c')).

Definition initial : words := (0x67452301, 0xEFCDAB89, 0x98BADCFE, 0x10325476, 0xC3D2E1F0).

(** MD4-style padding: 0x80, the least number of zero bytes that makes the total a
    multiple of 64, the bit length as a little-endian 64-bit integer *)
Definition zero_padding (len : Z) : nat := Z.to_nat ((- (len + 9)) mod 64).
Definition padded (msg : bytes) : bytes :=
  msg ++ [x80] ++ repeat x00 (zero_padding (zlen msg)) ++ rev (z2be 8 (8 * zlen msg)).

Definition le_word (z : Z) : bytes := rev (z2be 4 z).
Definition rmd160 (msg : bytes) : bytes :=
  let p := padded msg in
  let '(h0, h1, h2, h3, h4) := fold_left compression (chunks (List.length p / 64) 64 p) initial in
  le_word h0 ++ le_word h1 ++ le_word h2 ++ le_word h3 ++ le_word h4.
