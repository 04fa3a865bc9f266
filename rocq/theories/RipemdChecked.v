(** * RipemdChecked: /repo/bip38/libs/ripemd160.py with every operation that can fail.

    [Ripemd160.v] gives list accesses a default and leaves out the failing branch of fi.
    Here each of them fails as in Python: a list index out of range is an IndexError,
    struct.unpack("<L", w) of anything but 4 bytes and struct.pack("<Q", v) of a number
    out of range are struct.error, a negative shift is a ValueError, and fi with an index
    other than 0 to 4 fails with [outside]: AssertionError normally; under python -O fi
    returns None there and the addition in compress is a TypeError. *)
From Verif Require Import Py Const Ripemd160.

(** l[i] for an index that is not negative *)
Definition item {A} (l : list A) (i : nat) : res A :=
  match nth_error l i with Some a => Ok a | None => Raise (Builtin IndexError) end.

(** ripemd160.py:60-73, fi *)
Definition fi_c (outside : exn) (x y z i : Z) : res Z :=
  if i =? 0 then Ok (Z.lxor (Z.lxor x y) z)
  else if i =? 1 then Ok (Z.lor (Z.land x y) (Z.land (Z.lnot x) z))
  else if i =? 2 then Ok (Z.lxor (Z.lor x (Z.lnot y)) z)
  else if i =? 3 then Ok (Z.lor (Z.land x z) (Z.land y (Z.lnot z)))
  else if i =? 4 then Ok (Z.lxor x (Z.lor y (Z.lnot z)))
  else Raise outside.

(** ripemd160.py:76-78, rol *)
Definition rol_c (x i : Z) : res Z :=
  if (i <? 0) || (32 - i <? 0) then Raise (Builtin ValueError)
  else Ok (Z.land (Z.lor (Z.shiftl x i) (Z.shiftr (Z.land x 0xffffffff) (32 - i))) 0xffffffff).

(** struct.unpack("<L", w)[0] *)
Definition unpack_c (w : bytes) : res Z :=
  if Nat.eqb (List.length w) 4 then Ok (from_bytes w Little false) else Raise (Builtin StructError).

(** A list comprehension, left to right *)
Fixpoint each {A B} (f : A -> res B) (l : list A) : res (list B) :=
  match l with
  | [] => Ok []
  | a :: l => let* b := f a in let* bs := each f l in Ok (b :: bs)
  end.
(** A for loop: the body takes the variables to their new values *)
Fixpoint loop {A S} (body : S -> A -> res S) (l : list A) (s : S) : res S :=
  match l with
  | [] => Ok s
  | a :: l => let* s := body s a in loop body l s
  end.

(** ripemd160.py:91-98, one iteration of the round loop; [j >> 4] for j from 0 *)
Definition round_c (outside : exn) (x : list Z) (lr : st5 * st5) (j : nat) : res (st5 * st5) :=
  let '((al, bl, cl, dl, el), (ar, br, cr, dr, er)) := lr in
  let rnd := Nat.div j 16 in
  let* f := fi_c outside bl cl dl (Z.of_nat rnd) in
  let* w := item ML j in
  let* xw := item x w in
  let* k := item KL rnd in
  let* s := item RL j in
  let* r := rol_c (al + f + xw + k) s in
  let al := r + el in
  let* c10 := rol_c cl 10 in
  let '(al, bl, cl, dl, el) := (el, al, bl, c10, dl) in
  let* f := fi_c outside br cr dr (4 - Z.of_nat rnd) in
  let* w := item MR j in
  let* xw := item x w in
  let* k := item KR rnd in
  let* s := item RR j in
  let* r := rol_c (ar + f + xw + k) s in
  let ar := r + er in
  let* c10 := rol_c cr 10 in
  let '(ar, br, cr, dr, er) := (er, ar, br, c10, dr) in
  Ok ((al, bl, cl, dl, el), (ar, br, cr, dr, er)).

(** ripemd160.py:81-101, compress *)
Definition compress_c (outside : exn) (st : st5) (block : bytes) : res st5 :=
  let '(h0, h1, h2, h3, h4) := st in
  let* x := each (fun i => unpack_c (slice (4 * i) (4 * (i + 1)) block)) (seq 0 16) in
  let* lr := loop (round_c outside x) (seq 0 80) ((h0, h1, h2, h3, h4), (h0, h1, h2, h3, h4)) in
  let '((al, bl, cl, dl, el), (ar, br, cr, dr, er)) := lr in
  Ok (h1 + cl + dr, h2 + dl + er, h3 + el + ar, h4 + al + br, h0 + bl + cr).

(** ripemd160.py:109-111 and 116-118 *)
Definition process_c (outside : exn) (data : bytes) (st : st5) : res st5 :=
  loop (fun st b => compress_c outside st (slice (64 * b) (64 * (b + 1)) data))
       (seq 0 (Nat.div (List.length data) 64)) st.

(** struct.pack("<Q", v) *)
Definition pack_Q (v : Z) : res bytes :=
  if (0 <=? v) && (v <? 2 ^ 64) then Ok (rev (z2be 8 v)) else Raise (Builtin StructError).

(** ripemd160.py:104-120, ripemd160 *)
Definition ripemd160_c (outside : exn) (data : bytes) : res bytes :=
  let state := (0x67452301, 0xefcdab89, 0x98badcfe, 0x10325476, 0xc3d2e1f0) in
  let* state := process_c outside data state in
  let pad := x80 :: repeat x00 (Z.to_nat (Z.land (119 - zlen data) 63)) in
  let* q := pack_Q (8 * zlen data) in
  let fin := from (Z.to_nat (Z.land (zlen data) (Z.lnot 63))) data ++ pad ++ q in
  let* state := process_c outside fin state in
  let '(h0, h1, h2, h3, h4) := state in
  Ok (pack_L h0 ++ pack_L h1 ++ pack_L h2 ++ pack_L h3 ++ pack_L h4).
