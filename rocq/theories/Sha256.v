(** * Sha256: SHA-256 (FIPS 180-4), HMAC (RFC 2104), PBKDF2 (RFC 8018) and scrypt
    (RFC 7914), as functions on byte strings.

    None of these is in /repo: hashlib and the scrypt package provide them.  They
    are here to show that the assumptions [prims_ok] of Prims.v hold of the real
    functions. *)
From Coq Require Import Lia.
From Verif Require Import Py PyFacts Spec SpecRipemd.

(** 32-bit words *)
Definition w32 (x : Z) : Z := Z.land x 0xffffffff.
Definition shr (x n : Z) : Z := Z.shiftr x n.
Definition rotr (x n : Z) : Z := Z.lor (Z.shiftr x n) (w32 (Z.shiftl x (32 - n))).
Definition rol (x n : Z) : Z := Z.lor (w32 (Z.shiftl x n)) (Z.shiftr x (32 - n)).
Definition not32 (x : Z) : Z := 0xffffffff - x.
Definition xor3 (a b c : Z) : Z := Z.lxor (Z.lxor a b) c.

(** FIPS 180-4, 5.3.3 and 4.2.2 (tools/gen_instances.py: fractional parts of
    the square and cube roots of the first primes) *)
Definition sha_initial : list Z :=
  [ 0x6a09e667; 0xbb67ae85; 0x3c6ef372; 0xa54ff53a; 0x510e527f; 0x9b05688c; 0x1f83d9ab; 0x5be0cd19 ].
Definition sha_constants : list Z :=
  [ 0x428a2f98; 0x71374491; 0xb5c0fbcf; 0xe9b5dba5; 0x3956c25b; 0x59f111f1; 0x923f82a4; 0xab1c5ed5;
    0xd807aa98; 0x12835b01; 0x243185be; 0x550c7dc3; 0x72be5d74; 0x80deb1fe; 0x9bdc06a7; 0xc19bf174;
    0xe49b69c1; 0xefbe4786; 0x0fc19dc6; 0x240ca1cc; 0x2de92c6f; 0x4a7484aa; 0x5cb0a9dc; 0x76f988da;
    0x983e5152; 0xa831c66d; 0xb00327c8; 0xbf597fc7; 0xc6e00bf3; 0xd5a79147; 0x06ca6351; 0x14292967;
    0x27b70a85; 0x2e1b2138; 0x4d2c6dfc; 0x53380d13; 0x650a7354; 0x766a0abb; 0x81c2c92e; 0x92722c85;
    0xa2bfe8a1; 0xa81a664b; 0xc24b8b70; 0xc76c51a3; 0xd192e819; 0xd6990624; 0xf40e3585; 0x106aa070;
    0x19a4c116; 0x1e376c08; 0x2748774c; 0x34b0bcb5; 0x391c0cb3; 0x4ed8aa4a; 0x5b9cca4f; 0x682e6ff3;
    0x748f82ee; 0x78a5636f; 0x84c87814; 0x8cc70208; 0x90befffa; 0xa4506ceb; 0xbef9a3f7; 0xc67178f2 ].

Definition sha_state := (Z * Z * Z * Z * Z * Z * Z * Z)%type.
(** 6.2.2, step 1: the message schedule; [w] holds the last 16 words, newest first *)
Fixpoint schedule (n : nat) (w : list Z) : list Z :=
  match n with
  | O => []
  | S m =>
      let w2 := nth 1 w 0 in let w7 := nth 6 w 0 in let w15 := nth 14 w 0 in let w16 := nth 15 w 0 in
      let s1 := xor3 (rotr w2 17) (rotr w2 19) (shr w2 10) in
      let s0 := xor3 (rotr w15 7) (rotr w15 18) (shr w15 3) in
      let x := w32 (s1 + w7 + s0 + w16) in
      x :: schedule m (x :: firstn 15 w)
  end.
(** step 3 *)
Definition sha_round (st : sha_state) (kw : Z * Z) : sha_state :=
  let '(a, b, c, d, e, f, g, h) := st in
  let s1 := xor3 (rotr e 6) (rotr e 11) (rotr e 25) in
  let ch := Z.lxor (Z.land e f) (Z.land (not32 e) g) in
  let t1 := h + s1 + ch + fst kw + snd kw in
  let s0 := xor3 (rotr a 2) (rotr a 13) (rotr a 22) in
  let maj := xor3 (Z.land a b) (Z.land a c) (Z.land b c) in
  (w32 (t1 + s0 + maj), a, b, c, w32 (d + t1), e, f, g).
Definition sha_block (st : sha_state) (block : bytes) : sha_state :=
  let w := List.map be2z (chunks 16 4 block) in
  let ws := w ++ schedule 48 (rev w) in
  let '(a, b, c, d, e, f, g, h) := fold_left sha_round (List.combine sha_constants ws) st in
  let '(a0, b0, c0, d0, e0, f0, g0, h0) := st in
  (w32 (a0 + a), w32 (b0 + b), w32 (c0 + c), w32 (d0 + d), w32 (e0 + e), w32 (f0 + f), w32 (g0 + g), w32 (h0 + h)).
Definition sha_start : sha_state :=
  let h i := nth i sha_initial 0 in
  (h 0%nat, h 1%nat, h 2%nat, h 3%nat, h 4%nat, h 5%nat, h 6%nat, h 7%nat).
(** 5.1.1: padding, the length big-endian *)
Definition sha_padded (msg : bytes) : bytes :=
  msg ++ [x80] ++ repeat x00 (zero_padding (zlen msg)) ++ z2be 8 (8 * zlen msg).
Definition sha256 (msg : bytes) : bytes :=
  let p := sha_padded msg in
  let '(a, b, c, d, e, f, g, h) := fold_left sha_block (chunks (List.length p / 64) 64 p) sha_start in
  z2be 4 a ++ z2be 4 b ++ z2be 4 c ++ z2be 4 d ++ z2be 4 e ++ z2be 4 f ++ z2be 4 g ++ z2be 4 h.
Lemma sha256_length msg : List.length (sha256 msg) = 32%nat.
Proof.
  unfold sha256. destruct (fold_left _ _ _) as [[[[[[[a b] c] d] e] f] g] h].
  rewrite !app_length, !z2be_length. reflexivity.
Qed.

(** HMAC-SHA-256 *)
Definition pad_right (n : nat) (l : bytes) : bytes := l ++ repeat x00 (n - List.length l).
Definition hmac (key msg : bytes) : bytes :=
  let k := pad_right 64 (if Nat.ltb 64 (List.length key) then sha256 key else key) in
  sha256 (xor k (repeat x5c 64) ++ sha256 (xor k (repeat x36 64) ++ msg)).
(** PBKDF2-HMAC-SHA-256 with one iteration *)
Definition pbkdf2 (pw salt : bytes) (l : nat) : bytes :=
  firstn l (List.concat (List.map (fun i => hmac pw (salt ++ z2be 4 (Z.of_nat i))) (seq 1 (l / 32 + 1)))).
Lemma pbkdf2_length pw salt l : List.length (pbkdf2 pw salt l) = l.
Proof.
  unfold pbkdf2. rewrite firstn_length. apply Nat.min_l. set (n := (l / 32 + 1)%nat). set (g := fun i => hmac pw (salt ++ z2be 4 (Z.of_nat i))).
  assert (H : forall k s, List.length (List.concat (List.map g (seq s k))) = (32 * k)%nat).
  { intros k. induction k as [|k IH]; intros s; [reflexivity|]. cbn [seq List.map List.concat]. rewrite app_length, IH. unfold g at 1, hmac. rewrite sha256_length. lia. }
  rewrite H. unfold n. pose proof (Nat.div_mod l 32 ltac:(lia)). pose proof (Nat.mod_upper_bound l 32 ltac:(lia)). lia.
Qed.

(** Salsa20/8 on sixteen words *)
Definition upd (i : nat) (v : Z) (l : list Z) : list Z := firstn i l ++ v :: skipn (S i) l.
Definition salsa_step (x : list Z) (s : nat * nat * nat * nat) : list Z :=
  let '(d, a, b, r) := s in
  upd d (Z.lxor (nth d x 0) (rol (w32 (nth a x 0 + nth b x 0)) (Z.of_nat r))) x.
Definition salsa_double : list (nat * nat * nat * nat) :=
  [ (4,0,12,7); (8,4,0,9); (12,8,4,13); (0,12,8,18); (9,5,1,7); (13,9,5,9); (1,13,9,13); (5,1,13,18);
    (14,10,6,7); (2,14,10,9); (6,2,14,13); (10,6,2,18); (3,15,11,7); (7,3,15,9); (11,7,3,13); (15,11,7,18);
    (1,0,3,7); (2,1,0,9); (3,2,1,13); (0,3,2,18); (6,5,4,7); (7,6,5,9); (4,7,6,13); (5,4,7,18);
    (11,10,9,7); (8,11,10,9); (9,8,11,13); (10,9,8,18); (12,15,14,7); (13,12,15,9); (14,13,12,13); (15,14,13,18) ]%nat.
Definition salsa20_8 (x : list Z) : list Z :=
  let y := Nat.iter 4 (fun z => fold_left salsa_step salsa_double z) x in
  List.map (fun p => w32 (fst p + snd p)) (List.combine x y).
(** scryptBlockMix on 2r blocks of sixteen words *)
Fixpoint mix_loop (X : list Z) (blocks even odd : list (list Z)) (parity : bool) : list (list Z) :=
  match blocks with
  | [] => rev even ++ rev odd
  | b :: rest =>
      let X' := salsa20_8 (List.map (fun p => Z.lxor (fst p) (snd p)) (List.combine X b)) in
      if parity then mix_loop X' rest even (X' :: odd) false else mix_loop X' rest (X' :: even) odd true
  end.
Definition block_mix (B : list (list Z)) : list (list Z) := mix_loop (last B []) B [] [] false.
(** scryptROMix; [Integerify]: low 32 bits of the last block, little-endian *)
Definition integerify (B : list (list Z)) : Z := nth 0 (last B []) 0.
Definition xor_blocks (A B : list (list Z)) : list (list Z) :=
  List.map (fun p => List.map (fun q => Z.lxor (fst q) (snd q)) (List.combine (fst p) (snd p))) (List.combine A B).
Definition ro_mix (n : Z) (B : list (list Z)) : list (list Z) :=
  let (X, V) := Z.iter n (fun xv => (block_mix (fst xv), fst xv :: snd xv)) (B, []) in
  let V := rev V in
  Z.iter n (fun X => block_mix (xor_blocks X (nth (Z.to_nat (integerify X mod n)) V []))) X.
(** scrypt *)
Definition to_words (l : bytes) : list (list Z) :=
  List.map (fun b => List.map le_value (chunks 16 4 b)) (chunks (List.length l / 64) 64 l).
Definition of_words (B : list (list Z)) : bytes := List.concat (List.map (fun b => List.concat (List.map le_word b)) B).
Definition scrypt (pw salt : bytes) (n r p : Z) (l : nat) : bytes :=
  let sz := Z.to_nat (128 * r) in
  let B := chunks (Z.to_nat p) sz (pbkdf2 pw salt (Z.to_nat p * sz)) in
  pbkdf2 pw (List.concat (List.map (fun b => of_words (ro_mix n (to_words b))) B)) l.
Lemma scrypt_length pw salt n r p l : List.length (scrypt pw salt n r p l) = l.
Proof. apply pbkdf2_length. Qed.

(** The FIPS 180-4 test vector, and a small scrypt computation with the result
    Python's hashlib.scrypt gives *)
Example sha256_abc : tohex (sha256 [x61; x62; x63]) = str "ba7816bf8f01cfea414140de5dae2223b00361a396177a9cb410ff61f20015ad".
Proof. vm_compute. reflexivity. Qed.
Example scrypt_empty : tohex (scrypt [] [] 2 1 1 64) =
  str "fa76e020d54d9e8aa24023c6baecdd46e2bb067236e8092a93ea46aac54a38594b75fa8ea7e879ab804b64d8f1aee9ff3d09488adf7a20aa4b6db3236d3cc75a".
Proof. vm_compute. reflexivity. Qed.
