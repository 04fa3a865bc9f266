(** * Aes: AES-256 on one block (FIPS 197), and that decryption inverts encryption.

    Not in /repo: the pyaes package provides it.  It is here to show that the
    assumption [aes_dec_enc] of Prims.v holds of the real cipher. *)
From Coq Require Import Lia.
From Verif Require Import Py PyFacts Spec.

(** The S-box and its inverse (tools/gen_instances.py) *)
Definition sbox_table : bytes :=
  [ x63; x7c; x77; x7b; xf2; x6b; x6f; xc5; x30; x01; x67; x2b; xfe; xd7; xab; x76;
    xca; x82; xc9; x7d; xfa; x59; x47; xf0; xad; xd4; xa2; xaf; x9c; xa4; x72; xc0;
    xb7; xfd; x93; x26; x36; x3f; xf7; xcc; x34; xa5; xe5; xf1; x71; xd8; x31; x15;
    x04; xc7; x23; xc3; x18; x96; x05; x9a; x07; x12; x80; xe2; xeb; x27; xb2; x75;
    x09; x83; x2c; x1a; x1b; x6e; x5a; xa0; x52; x3b; xd6; xb3; x29; xe3; x2f; x84;
    x53; xd1; x00; xed; x20; xfc; xb1; x5b; x6a; xcb; xbe; x39; x4a; x4c; x58; xcf;
    xd0; xef; xaa; xfb; x43; x4d; x33; x85; x45; xf9; x02; x7f; x50; x3c; x9f; xa8;
    x51; xa3; x40; x8f; x92; x9d; x38; xf5; xbc; xb6; xda; x21; x10; xff; xf3; xd2;
    xcd; x0c; x13; xec; x5f; x97; x44; x17; xc4; xa7; x7e; x3d; x64; x5d; x19; x73;
    x60; x81; x4f; xdc; x22; x2a; x90; x88; x46; xee; xb8; x14; xde; x5e; x0b; xdb;
    xe0; x32; x3a; x0a; x49; x06; x24; x5c; xc2; xd3; xac; x62; x91; x95; xe4; x79;
    xe7; xc8; x37; x6d; x8d; xd5; x4e; xa9; x6c; x56; xf4; xea; x65; x7a; xae; x08;
    xba; x78; x25; x2e; x1c; xa6; xb4; xc6; xe8; xdd; x74; x1f; x4b; xbd; x8b; x8a;
    x70; x3e; xb5; x66; x48; x03; xf6; x0e; x61; x35; x57; xb9; x86; xc1; x1d; x9e;
    xe1; xf8; x98; x11; x69; xd9; x8e; x94; x9b; x1e; x87; xe9; xce; x55; x28; xdf;
    x8c; xa1; x89; x0d; xbf; xe6; x42; x68; x41; x99; x2d; x0f; xb0; x54; xbb; x16 ].
Definition inv_sbox_table : bytes :=
  [ x52; x09; x6a; xd5; x30; x36; xa5; x38; xbf; x40; xa3; x9e; x81; xf3; xd7; xfb;
    x7c; xe3; x39; x82; x9b; x2f; xff; x87; x34; x8e; x43; x44; xc4; xde; xe9; xcb;
    x54; x7b; x94; x32; xa6; xc2; x23; x3d; xee; x4c; x95; x0b; x42; xfa; xc3; x4e;
    x08; x2e; xa1; x66; x28; xd9; x24; xb2; x76; x5b; xa2; x49; x6d; x8b; xd1; x25;
    x72; xf8; xf6; x64; x86; x68; x98; x16; xd4; xa4; x5c; xcc; x5d; x65; xb6; x92;
    x6c; x70; x48; x50; xfd; xed; xb9; xda; x5e; x15; x46; x57; xa7; x8d; x9d; x84;
    x90; xd8; xab; x00; x8c; xbc; xd3; x0a; xf7; xe4; x58; x05; xb8; xb3; x45; x06;
    xd0; x2c; x1e; x8f; xca; x3f; x0f; x02; xc1; xaf; xbd; x03; x01; x13; x8a; x6b;
    x3a; x91; x11; x41; x4f; x67; xdc; xea; x97; xf2; xcf; xce; xf0; xb4; xe6; x73;
    x96; xac; x74; x22; xe7; xad; x35; x85; xe2; xf9; x37; xe8; x1c; x75; xdf; x6e;
    x47; xf1; x1a; x71; x1d; x29; xc5; x89; x6f; xb7; x62; x0e; xaa; x18; xbe; x1b;
    xfc; x56; x3e; x4b; xc6; xd2; x79; x20; x9a; xdb; xc0; xfe; x78; xcd; x5a; xf4;
    x1f; xdd; xa8; x33; x88; x07; xc7; x31; xb1; x12; x10; x59; x27; x80; xec; x5f;
    x60; x51; x7f; xa9; x19; xb5; x4a; x0d; x2d; xe5; x7a; x9f; x93; xc9; x9c; xef;
    xa0; xe0; x3b; x4d; xae; x2a; xf5; xb0; xc8; xeb; xbb; x3c; x83; x53; x99; x61;
    x17; x2b; x04; x7e; xba; x77; xd6; x26; xe1; x69; x14; x63; x55; x21; x0c; x7d ].
Definition look (t : bytes) (b : byte) : byte := nth (N.to_nat (Byte.to_N b)) t x00.
Definition sbox (b : byte) : byte := look sbox_table b.
Definition inv_sbox (b : byte) : byte := look inv_sbox_table b.

(** 4.2: multiplication by x modulo x^8 + x^4 + x^3 + x + 1, and by small constants *)
Definition xtime (b : byte) : byte :=
  let n := (2 * Byte.to_N b)%N in n2b (if (n <? 256)%N then n else N.lxor n 0x11b).
Definition mul3 (b : byte) : byte := byte_xor (xtime b) b.
Definition mul4 (b : byte) : byte := xtime (xtime b).
Definition mul8 (b : byte) : byte := xtime (mul4 b).
Definition mul9 (b : byte) : byte := byte_xor (mul8 b) b.
Definition mul11 (b : byte) : byte := byte_xor (byte_xor (mul8 b) (xtime b)) b.
Definition mul13 (b : byte) : byte := byte_xor (byte_xor (mul8 b) (mul4 b)) b.
Definition mul14 (b : byte) : byte := byte_xor (byte_xor (mul8 b) (mul4 b)) (xtime b).
Definition sum4 (a b c d : byte) : byte := byte_xor (byte_xor a b) (byte_xor c d).

(** The state is sixteen bytes, column by column (3.4). *)
Definition sub_bytes (s : bytes) : bytes := List.map sbox s.
Definition inv_sub_bytes (s : bytes) : bytes := List.map inv_sbox s.
Definition pick (p : list nat) (s : bytes) : bytes := List.map (fun i => nth i s x00) p.
Definition shift_rows (s : bytes) : bytes := pick [0; 5; 10; 15; 4; 9; 14; 3; 8; 13; 2; 7; 12; 1; 6; 11]%nat s.
Definition inv_shift_rows (s : bytes) : bytes := pick [0; 13; 10; 7; 4; 1; 14; 11; 8; 5; 2; 15; 12; 9; 6; 3]%nat s.
Fixpoint mix_columns (s : bytes) : bytes :=
  match s with
  | a :: b :: c :: d :: r =>
      sum4 (xtime a) (mul3 b) c d :: sum4 a (xtime b) (mul3 c) d ::
      sum4 a b (xtime c) (mul3 d) :: sum4 (mul3 a) b c (xtime d) :: mix_columns r
  | _ => []
  end.
Fixpoint inv_mix_columns (s : bytes) : bytes :=
  match s with
  | a :: b :: c :: d :: r =>
      sum4 (mul14 a) (mul11 b) (mul13 c) (mul9 d) :: sum4 (mul9 a) (mul14 b) (mul11 c) (mul13 d) ::
      sum4 (mul13 a) (mul9 b) (mul14 c) (mul11 d) :: sum4 (mul11 a) (mul13 b) (mul9 c) (mul14 d) :: inv_mix_columns r
  | _ => []
  end.

(** 5.2: key expansion, [ws] are the words so far, newest first *)
Definition rcon (i : nat) : bytes := [Nat.iter (i - 1) xtime x01; x00; x00; x00].
Definition rot_word (w : bytes) : bytes := match w with a :: r => r ++ [a] | [] => [] end.
Fixpoint expand (i n : nat) (ws : list bytes) : list bytes :=
  match n with
  | O => rev ws
  | S m =>
      let prev := nth 0 ws [] in
      let t := if Nat.eqb (i mod 8) 0 then xor (sub_bytes (rot_word prev)) (rcon (i / 8))
               else if Nat.eqb (i mod 8) 4 then sub_bytes prev else prev in
      expand (S i) m (xor (nth 7 ws []) t :: ws)
  end.
Definition key_words (k : bytes) : list bytes :=
  rev [slice 0 4 k; slice 4 8 k; slice 8 12 k; slice 12 16 k; slice 16 20 k; slice 20 24 k; slice 24 28 k; slice 28 32 k].
Definition expanded (k : bytes) : list bytes := expand 8 52 (key_words k).
Definition round_key (k : bytes) (i : nat) : bytes := List.concat (firstn 4 (skipn (4 * i) (expanded k))).
Definition round_keys (k : bytes) : list bytes := List.map (round_key k) (seq 0 15).

(** 5.1 and 5.3: fourteen rounds *)
Definition enc_round (s rk : bytes) : bytes := xor (mix_columns (shift_rows (sub_bytes s))) rk.
Definition dec_round (s rk : bytes) : bytes := inv_sub_bytes (inv_shift_rows (inv_mix_columns (xor s rk))).
Definition aes256_enc (k block : bytes) : bytes :=
  let rks := round_keys k in
  let s := fold_left enc_round (firstn 13 (skipn 1 rks)) (xor block (nth 0 rks [])) in
  xor (shift_rows (sub_bytes s)) (nth 14 rks []).
Definition aes256_dec (k block : bytes) : bytes :=
  let rks := round_keys k in
  let s := inv_sub_bytes (inv_shift_rows (xor block (nth 14 rks []))) in
  xor (fold_left dec_round (rev (firstn 13 (skipn 1 rks))) s) (nth 0 rks []).

(** ** Inverses *)
Lemma inv_sbox_sbox b : inv_sbox (sbox b) = b.
Proof. destruct b; vm_compute; reflexivity. Qed.
Lemma inv_sub_sub s : inv_sub_bytes (sub_bytes s) = s.
Proof. unfold inv_sub_bytes, sub_bytes. rewrite map_map. induction s as [|b s IH]; [reflexivity|]. cbn [List.map]. rewrite inv_sbox_sbox, IH. reflexivity. Qed.
Lemma sixteen (s : bytes) : List.length s = 16%nat -> exists a b c d e f g h i j k l m n o p, s = [a; b; c; d; e; f; g; h; i; j; k; l; m; n; o; p].
Proof. intros L. do 16 (destruct s as [|? s]; [discriminate L|]). destruct s; [|discriminate L]. repeat eexists. Qed.
Lemma inv_shift_shift s : List.length s = 16%nat -> inv_shift_rows (shift_rows s) = s.
Proof. intros L. destruct (sixteen s L) as (a & b & c & d & e & f & g & h & i & j & k & l & m & n & o & p & ->). reflexivity. Qed.

(** multiplication is linear *)
Definition all_bytes : bytes := List.map (fun i => n2b (N.of_nat i)) (seq 0 256).
Lemma in_all b : In b all_bytes.
Proof. assert (H : existsb (Byte.eqb b) all_bytes = true) by (destruct b; vm_compute; reflexivity). apply existsb_exists in H. destruct H as (x & I & E). apply Byte.byte_dec_bl in E. subst x. exact I. Qed.
Lemma xtime_check : forallb (fun a => forallb (fun b => Byte.eqb (xtime (byte_xor a b)) (byte_xor (xtime a) (xtime b))) all_bytes) all_bytes = true.
Proof. vm_compute. reflexivity. Qed.
Lemma xtime_xor a b : xtime (byte_xor a b) = byte_xor (xtime a) (xtime b).
Proof.
  pose proof xtime_check as H. rewrite forallb_forall in H. specialize (H a (in_all a)). cbv beta in H. rewrite forallb_forall in H.
  apply Byte.byte_dec_bl, (H b (in_all b)).
Qed.
Lemma bx_assoc a b c : byte_xor (byte_xor a b) c = byte_xor a (byte_xor b c).
Proof. apply b2z_inj. rewrite !b2z_xor. apply Z.lxor_assoc. Qed.
Lemma bx_swap a b c : byte_xor a (byte_xor b c) = byte_xor b (byte_xor a c).
Proof. rewrite <- !bx_assoc, (byte_xor_comm a b). reflexivity. Qed.
Lemma bx_4 a b c d : byte_xor (byte_xor a b) (byte_xor c d) = byte_xor (byte_xor a c) (byte_xor b d).
Proof. rewrite !bx_assoc, (bx_swap b c d). reflexivity. Qed.
Lemma bx_6 x x' y y' z z' : byte_xor (byte_xor (byte_xor x x') (byte_xor y y')) (byte_xor z z') = byte_xor (byte_xor (byte_xor x y) z) (byte_xor (byte_xor x' y') z').
Proof. rewrite (bx_4 x x' y y'). apply bx_4. Qed.
Lemma mul3_xor a b : mul3 (byte_xor a b) = byte_xor (mul3 a) (mul3 b). Proof. unfold mul3. rewrite xtime_xor. apply bx_4. Qed.
Lemma mul4_xor a b : mul4 (byte_xor a b) = byte_xor (mul4 a) (mul4 b). Proof. unfold mul4. rewrite !xtime_xor. reflexivity. Qed.
Lemma mul8_xor a b : mul8 (byte_xor a b) = byte_xor (mul8 a) (mul8 b). Proof. unfold mul8. rewrite mul4_xor, xtime_xor. reflexivity. Qed.
Lemma mul9_xor a b : mul9 (byte_xor a b) = byte_xor (mul9 a) (mul9 b). Proof. unfold mul9. rewrite mul8_xor. apply bx_4. Qed.
Lemma mul11_xor a b : mul11 (byte_xor a b) = byte_xor (mul11 a) (mul11 b). Proof. unfold mul11. rewrite mul8_xor, xtime_xor. apply bx_6. Qed.
Lemma mul13_xor a b : mul13 (byte_xor a b) = byte_xor (mul13 a) (mul13 b). Proof. unfold mul13. rewrite mul8_xor, mul4_xor. apply bx_6. Qed.
Lemma mul14_xor a b : mul14 (byte_xor a b) = byte_xor (mul14 a) (mul14 b). Proof. unfold mul14. rewrite mul8_xor, mul4_xor, xtime_xor. apply bx_6. Qed.
(** the sixteen entries of the product of the two matrices: the identity *)
Lemma diag a : sum4 (mul14 (xtime a)) (mul11 a) (mul13 a) (mul9 (mul3 a)) = a. Proof. destruct a; vm_compute; reflexivity. Qed.
Lemma off1 a : sum4 (mul14 (mul3 a)) (mul11 (xtime a)) (mul13 a) (mul9 a) = x00. Proof. destruct a; vm_compute; reflexivity. Qed.
Lemma off2 a : sum4 (mul14 a) (mul11 (mul3 a)) (mul13 (xtime a)) (mul9 a) = x00. Proof. destruct a; vm_compute; reflexivity. Qed.
Lemma off3 a : sum4 (mul14 a) (mul11 a) (mul13 (mul3 a)) (mul9 (xtime a)) = x00. Proof. destruct a; vm_compute; reflexivity. Qed.
Lemma bx_0 a : byte_xor a x00 = a. Proof. destruct a; reflexivity. Qed.
Lemma bx_0_l a : byte_xor x00 a = a. Proof. destruct a; reflexivity. Qed.
(** sum of four sums, transposed *)
Lemma sum4_t a1 a2 a3 a4 b1 b2 b3 b4 c1 c2 c3 c4 d1 d2 d3 d4 :
  sum4 (sum4 a1 a2 a3 a4) (sum4 b1 b2 b3 b4) (sum4 c1 c2 c3 c4) (sum4 d1 d2 d3 d4) =
  sum4 (sum4 a1 b1 c1 d1) (sum4 a2 b2 c2 d2) (sum4 a3 b3 c3 d3) (sum4 a4 b4 c4 d4).
Proof.
  assert (P : forall w x y z w' x' y' z', byte_xor (sum4 w x y z) (sum4 w' x' y' z') = sum4 (byte_xor w w') (byte_xor x x') (byte_xor y y') (byte_xor z z')).
  { intros. unfold sum4. rewrite bx_4. f_equal; apply bx_4. }
  assert (Q : forall s1 s2 s3 s4, sum4 s1 s2 s3 s4 = byte_xor (byte_xor s1 s2) (byte_xor s3 s4)) by reflexivity.
  rewrite Q, !P. reflexivity.
Qed.
Lemma sum4_0 a : sum4 a x00 x00 x00 = a /\ sum4 x00 a x00 x00 = a /\ sum4 x00 x00 a x00 = a /\ sum4 x00 x00 x00 a = a.
Proof. destruct a; repeat split; reflexivity. Qed.
Lemma sum4_comm a b c d : sum4 a b c d = sum4 b c d a.
Proof. unfold sum4. rewrite bx_assoc, (byte_xor_comm a), !bx_assoc. reflexivity. Qed.
Lemma lin f (H : forall x y, f (byte_xor x y) = byte_xor (f x) (f y)) a b c d : f (sum4 a b c d) = sum4 (f a) (f b) (f c) (f d).
Proof. unfold sum4. rewrite !H. reflexivity. Qed.
Lemma column a b c d :
  let p := sum4 (xtime a) (mul3 b) c d in let q := sum4 a (xtime b) (mul3 c) d in
  let r := sum4 a b (xtime c) (mul3 d) in let s := sum4 (mul3 a) b c (xtime d) in
  sum4 (mul14 p) (mul11 q) (mul13 r) (mul9 s) = a /\ sum4 (mul9 p) (mul14 q) (mul11 r) (mul13 s) = b /\
  sum4 (mul13 p) (mul9 q) (mul14 r) (mul11 s) = c /\ sum4 (mul11 p) (mul13 q) (mul9 r) (mul14 s) = d.
Proof.
  intros p q r s. unfold p, q, r, s.
  rewrite !(lin mul14 mul14_xor), !(lin mul11 mul11_xor), !(lin mul13 mul13_xor), !(lin mul9 mul9_xor).
  split; [|split; [|split]]; rewrite sum4_t;
    match goal with |- sum4 ?A ?B ?C ?D = _ =>
      first [replace A with a by (symmetry; clear; destruct a; vm_compute; reflexivity)|replace A with x00 by (symmetry; clear; destruct a; vm_compute; reflexivity)];
      first [replace B with b by (symmetry; clear; destruct b; vm_compute; reflexivity)|replace B with x00 by (symmetry; clear; destruct b; vm_compute; reflexivity)];
      first [replace C with c by (symmetry; clear; destruct c; vm_compute; reflexivity)|replace C with x00 by (symmetry; clear; destruct c; vm_compute; reflexivity)];
      first [replace D with d by (symmetry; clear; destruct d; vm_compute; reflexivity)|replace D with x00 by (symmetry; clear; destruct d; vm_compute; reflexivity)] end;
    apply sum4_0.
Qed.
Lemma inv_mix_mix s : List.length s = 16%nat -> inv_mix_columns (mix_columns s) = s.
Proof.
  intros L. destruct (sixteen s L) as (a & b & c & d & e & f & g & h & i & j & k & l & m & n & o & p & ->).
  cbn [mix_columns inv_mix_columns].
  destruct (column a b c d) as (-> & -> & -> & ->), (column e f g h) as (-> & -> & -> & ->),
    (column i j k l) as (-> & -> & -> & ->), (column m n o p) as (-> & -> & -> & ->). reflexivity.
Qed.
Lemma sub_length s : List.length (sub_bytes s) = List.length s. Proof. apply map_length. Qed.
Lemma shift_length s : List.length (shift_rows s) = 16%nat. Proof. reflexivity. Qed.
Lemma inv_shift_length s : List.length (inv_shift_rows s) = 16%nat. Proof. reflexivity. Qed.
Lemma mix_length s : List.length s = 16%nat -> List.length (mix_columns s) = 16%nat.
Proof. intros L. destruct (sixteen s L) as (a & b & c & d & e & f & g & h & i & j & k & l & m & n & o & p & ->). reflexivity. Qed.
Lemma inv_mix_length s : List.length s = 16%nat -> List.length (inv_mix_columns s) = 16%nat.
Proof. intros L. destruct (sixteen s L) as (a & b & c & d & e & f & g & h & i & j & k & l & m & n & o & p & ->). reflexivity. Qed.

(** Round keys have sixteen bytes. *)
Definition four (w : bytes) : Prop := List.length w = 4%nat.
Lemma expand_four n : forall i ws, Forall four ws -> (8 <= List.length ws)%nat ->
  Forall four (expand i n ws) /\ List.length (expand i n ws) = (n + List.length ws)%nat.
Proof.
  induction n as [|n IH]; intros i ws F L; cbn [expand].
  - split; [apply Forall_rev, F|apply rev_length].
  - assert (N : forall j, (j < 8)%nat -> four (nth j ws [])) by (intros j Hj; rewrite Forall_forall in F; apply F, nth_In; lia).
    assert (F0 := N 0%nat ltac:(lia)). assert (F7 := N 7%nat ltac:(lia)).
    match goal with |- context [xor (nth 7 ws []) ?t :: ws] => set (T := t) end.
    assert (FT : four T).
    { unfold T, four. destruct (Nat.eqb _ _); [|destruct (Nat.eqb _ _); [rewrite sub_length; exact F0|exact F0]].
      assert (X : List.length (sub_bytes (rot_word (nth 0 ws []))) = 4%nat).
      { rewrite sub_length. unfold four in F0. destruct (nth 0 ws []) as [|x r]; [discriminate|]. cbn [rot_word]. rewrite app_length. cbn in *. lia. }
      rewrite xor_length; [exact X|rewrite X; reflexivity]. }
    destruct (IH (S i) (xor (nth 7 ws []) T :: ws)) as [A B].
    + constructor; [|exact F]. unfold four in *. rewrite xor_length; congruence.
    + cbn [List.length]. lia.
    + split; [exact A|]. rewrite B. cbn [List.length]. lia.
Qed.
Lemma expanded_ok k : List.length k = 32%nat -> Forall four (expanded k) /\ List.length (expanded k) = 60%nat.
Proof.
  intros L. unfold expanded. assert (F : Forall four (key_words k)).
  { unfold key_words. apply Forall_rev. repeat constructor; unfold four; rewrite slice_length; lia. }
  destruct (expand_four 52 8 (key_words k) F) as [A B]; [reflexivity|]. split; [exact A|]. rewrite B. reflexivity.
Qed.
Lemma concat_four l : Forall four l -> List.length (List.concat l) = (4 * List.length l)%nat.
Proof. intros F. induction F as [|w l H F IH]; [reflexivity|]. cbn [List.concat List.length]. rewrite app_length, IH, H. lia. Qed.
Lemma round_key_length k i : List.length k = 32%nat -> (i < 15)%nat -> List.length (round_key k i) = 16%nat.
Proof.
  intros L Hi. destruct (expanded_ok k L) as [F E]. unfold round_key. rewrite concat_four.
  - rewrite firstn_length, skipn_length, E. lia.
  - rewrite Forall_forall in *. intros w Hw. apply F.
    rewrite <- (firstn_skipn (4 * i) (expanded k)). apply in_or_app. right. rewrite <- (firstn_skipn 4 (skipn (4 * i) (expanded k))). apply in_or_app. left. exact Hw.
Qed.
Lemma round_keys_ok k : List.length k = 32%nat -> Forall (fun w => List.length w = 16%nat) (round_keys k).
Proof.
  intros L. unfold round_keys. rewrite Forall_forall. intros w Hw. apply in_map_iff in Hw. destruct Hw as (i & <- & Hi). apply in_seq in Hi. apply round_key_length; [exact L|lia].
Qed.

(** ** Lengths and the inverse, over all rounds *)
Lemma enc_round_length s rk : List.length s = 16%nat -> List.length rk = 16%nat -> List.length (enc_round s rk) = 16%nat.
Proof.
  intros L1 L2. unfold enc_round.
  assert (X : List.length (mix_columns (shift_rows (sub_bytes s))) = 16%nat) by (apply mix_length, shift_length).
  rewrite xor_length; congruence.
Qed.
Lemma dec_round_length s rk : List.length s = 16%nat -> List.length rk = 16%nat -> List.length (dec_round s rk) = 16%nat.
Proof. intros L1 L2. unfold dec_round, inv_sub_bytes. rewrite map_length. apply inv_shift_length. Qed.
Lemma dec_enc_round s rk : List.length s = 16%nat -> List.length rk = 16%nat -> dec_round (enc_round s rk) rk = s.
Proof.
  intros L1 L2. unfold dec_round, enc_round.
  assert (X : List.length (mix_columns (shift_rows (sub_bytes s))) = 16%nat) by (apply mix_length, shift_length).
  rewrite xor_cancel by congruence. rewrite inv_mix_mix by apply shift_length. rewrite inv_shift_shift by (rewrite sub_length; exact L1). apply inv_sub_sub.
Qed.
Lemma fold_length (f : bytes -> bytes -> bytes) (Hf : forall s rk, List.length s = 16%nat -> List.length rk = 16%nat -> List.length (f s rk) = 16%nat) rks :
  Forall (fun w => List.length w = 16%nat) rks -> forall s, List.length s = 16%nat -> List.length (fold_left f rks s) = 16%nat.
Proof. intros F. induction F as [|w rks H F IH]; intros s L; [exact L|]. cbn [fold_left]. apply IH, Hf; assumption. Qed.
Lemma dec_enc_rounds rks : Forall (fun w => List.length w = 16%nat) rks -> forall s, List.length s = 16%nat ->
  fold_left dec_round (rev rks) (fold_left enc_round rks s) = s.
Proof.
  intros F. induction F as [|w rks H F IH]; intros s L; [reflexivity|]. cbn [fold_left rev].
  rewrite fold_left_app. cbn [fold_left]. rewrite IH by (apply enc_round_length; assumption). apply dec_enc_round; assumption.
Qed.
Lemma middle_keys k : List.length k = 32%nat -> Forall (fun w => List.length w = 16%nat) (firstn 13 (skipn 1 (round_keys k))) /\
  List.length (nth 0 (round_keys k) []) = 16%nat /\ List.length (nth 14 (round_keys k) []) = 16%nat.
Proof.
  intros L. pose proof (round_keys_ok k L) as F. assert (E : List.length (round_keys k) = 15%nat) by (unfold round_keys; rewrite map_length; apply seq_length).
  rewrite Forall_forall in F. split.
  - apply Forall_forall. intros w Hw. apply F. rewrite <- (firstn_skipn 1 (round_keys k)). apply in_or_app. right.
    rewrite <- (firstn_skipn 13 (skipn 1 (round_keys k))). apply in_or_app. left. exact Hw.
  - split; apply F, nth_In; lia.
Qed.
Theorem aes256_enc_length k b : List.length k = 32%nat -> List.length b = 16%nat -> List.length (aes256_enc k b) = 16%nat.
Proof.
  intros Lk Lb. destruct (middle_keys k Lk) as (F & L0 & L14). unfold aes256_enc. rewrite xor_length; [reflexivity|]. rewrite shift_length. congruence.
Qed.
Theorem aes256_dec_length k b : List.length k = 32%nat -> List.length b = 16%nat -> List.length (aes256_dec k b) = 16%nat.
Proof.
  intros Lk Lb. destruct (middle_keys k Lk) as (F & L0 & L14). unfold aes256_dec. cbv zeta.
  assert (X : List.length (fold_left dec_round (rev (firstn 13 (skipn 1 (round_keys k)))) (inv_sub_bytes (inv_shift_rows (xor b (nth 14 (round_keys k) []))))) = 16%nat).
  { apply (fold_length dec_round dec_round_length); [apply Forall_rev, F|]. unfold inv_sub_bytes. rewrite map_length. apply inv_shift_length. }
  rewrite xor_length; congruence.
Qed.
Theorem aes256_dec_enc k b : List.length k = 32%nat -> List.length b = 16%nat -> aes256_dec k (aes256_enc k b) = b.
Proof.
  intros Lk Lb. destruct (middle_keys k Lk) as (F & L0 & L14). unfold aes256_dec, aes256_enc. cbv zeta.
  assert (X0 : List.length (xor b (nth 0 (round_keys k) [])) = 16%nat) by (rewrite xor_length; congruence).
  set (s := fold_left enc_round (firstn 13 (skipn 1 (round_keys k))) (xor b (nth 0 (round_keys k) []))).
  assert (Ls : List.length s = 16%nat) by (apply (fold_length enc_round enc_round_length); assumption).
  rewrite xor_cancel by (rewrite shift_length; congruence). rewrite inv_shift_shift by (rewrite sub_length; exact Ls). rewrite inv_sub_sub.
  unfold s. rewrite dec_enc_rounds by assumption. apply xor_cancel. congruence.
Qed.

(** FIPS 197, C.3 *)
Example aes256_vector : tohex (aes256_enc (z2be 32 0x000102030405060708090a0b0c0d0e0f101112131415161718191a1b1c1d1e1f) (z2be 16 0x00112233445566778899aabbccddeeff)) =
  str "8ea2b7ca516745bfeafc49904b496089".
Proof. vm_compute. reflexivity. Qed.
