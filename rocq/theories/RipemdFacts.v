(** * RipemdFacts: the pure-Python RIPEMD-160 is RIPEMD-160. *)
From Coq Require Import Lia ZifyBool ZifyNat ZifyN.
From Verif Require Import Py Spec PyFacts SpecRipemd Ripemd160.

Definition M32 : Z := 2 ^ 32.
Lemma word_land x : Z.land x 0xffffffff = word x.
Proof. change 0xffffffff with (Z.ones 32). apply Z.land_ones. lia. Qed.
Lemma word_range x : 0 <= word x < 2 ^ 32.
Proof. apply Z.mod_pos_bound. lia. Qed.
Lemma word_small x : 0 <= x < 2 ^ 32 -> word x = x.
Proof. apply Z.mod_small. Qed.
Lemma word_idem x : word (word x) = word x.
Proof. apply word_small, word_range. Qed.
Lemma word_add x y : word (word x + word y) = word (x + y).
Proof. unfold word. rewrite <- Z.add_mod by lia. reflexivity. Qed.
Lemma word_bit x i : 0 <= i -> Z.testbit (word x) i = (i <? 32) && Z.testbit x i.
Proof.
  intros Hi. unfold word. destruct (Z.ltb_spec i 32).
  - apply Z.mod_pow2_bits_low. lia.
  - apply Z.mod_pow2_bits_high. lia.
Qed.
Lemma compl_word x : compl (word x) = word (Z.lnot x).
Proof.
  unfold compl, word, Z.lnot. rewrite <- Z.sub_1_r. 
  assert (E : - x - 1 = (2 ^ 32 - 1 - x mod 2 ^ 32) + (- (x / 2 ^ 32) - 1) * 2 ^ 32).
  { pose proof (Z.div_mod x (2 ^ 32) ltac:(lia)). lia. }
  rewrite E, Z.mod_add by lia. symmetry. apply Z.mod_small. pose proof (Z.mod_pos_bound x (2 ^ 32) ltac:(lia)). lia.
Qed.
Lemma word_lor x y : word (Z.lor x y) = Z.lor (word x) (word y).
Proof. rewrite <- !word_land. apply Z.land_lor_distr_l. Qed.
Lemma word_lxor x y : word (Z.lxor x y) = Z.lxor (word x) (word y).
Proof.
  apply Z.bits_inj'. intros i Hi. rewrite Z.lxor_spec, !word_bit, Z.lxor_spec by exact Hi.
  destruct (i <? 32), (Z.testbit x i), (Z.testbit y i); reflexivity.
Qed.
Lemma word_land2 x y : word (Z.land x y) = Z.land (word x) (word y).
Proof.
  apply Z.bits_inj'. intros i Hi. rewrite Z.land_spec, !word_bit, Z.land_spec by exact Hi.
  destruct (i <? 32), (Z.testbit x i), (Z.testbit y i); reflexivity.
Qed.

Lemma fi_word x y z r : (r <= 4)%nat -> word (fi x y z r) = nonlinear r (word x) (word y) (word z).
Proof.
  intros Hr. destruct r as [|[|[|[|[|r]]]]]; [..|lia]; cbn [fi nonlinear];
  rewrite ?word_lor, ?word_lxor, ?word_land2, ?word_lor, ?word_lxor, ?word_land2, ?compl_word; reflexivity.
Qed.
Lemma rol_word x s : 0 < s < 32 -> rol x s = rotl (word x) s.
Proof.
  intros Hs. unfold rol. rewrite !word_land, word_lor. unfold rotl.
  rewrite Z.shiftl_mul_pow2, Z.shiftr_div_pow2 by lia.
  assert (E1 : word (x * 2 ^ s) = (word x * 2 ^ s) mod 2 ^ 32).
  { unfold word. rewrite Z.mul_mod_idemp_l by lia. reflexivity. }
  pose proof (word_range x) as R. rewrite E1. set (y := word x) in *. clearbody y.
  assert (P : 2 ^ 32 = 2 ^ s * 2 ^ (32 - s)) by (rewrite <- Z.pow_add_r by lia; f_equal; lia).
  assert (S0 : 0 < 2 ^ s) by (apply Z.pow_pos_nonneg; lia).
  assert (S1 : 0 < 2 ^ (32 - s)) by (apply Z.pow_pos_nonneg; lia).
  assert (Q : 0 <= y / 2 ^ (32 - s) < 2 ^ s).
  { split; [apply Z.div_pos; lia|]. apply Z.div_lt_upper_bound; [lia|]. rewrite Z.mul_comm, <- P. lia. }
  assert (Q2 : 2 ^ s <= 2 ^ 32) by (apply Z.pow_le_mono_r; lia).
  rewrite word_small by lia.
  assert (E2 : (y * 2 ^ s) mod 2 ^ 32 = Z.shiftl (y mod 2 ^ (32 - s)) s).
  { rewrite Z.shiftl_mul_pow2 by lia. rewrite P, (Z.mul_comm (2 ^ s)), Z.mul_mod_distr_r by lia. reflexivity. }
  rewrite E2. assert (D : Z.land (Z.shiftl (y mod 2 ^ (32 - s)) s) (y / 2 ^ (32 - s)) = 0).
  { apply land_shift_low; [lia|exact Q]. }
  rewrite Z.add_nocarry_lxor by exact D.
  symmetry. apply Z.lxor_lor. exact D.
Qed.

(** ** Tables *)
Definition tables_ok (j : nat) : bool :=
  Nat.eqb (nth j ML 0%nat) (order_left j) && Nat.eqb (nth j MR 0%nat) (order_right j) &&
  (nth j RL 0 =? shift j (order_left j)) && (nth j RR 0 =? shift j (order_right j)) &&
  (nth (j / 16) KL 0 =? const_left (j / 16)) && (nth (j / 16) KR 0 =? const_right (j / 16)) &&
  (0 <? nth j RL 0) && (nth j RL 0 <? 32) && (0 <? nth j RR 0) && (nth j RR 0 <? 32) && Nat.leb (j / 16) 4.
Lemma tables : forall j, In j (seq 0 80) -> tables_ok j = true.
Proof. apply forallb_forall. vm_compute. reflexivity. Qed.
(** The right-hand constants are cube roots. *)
Lemma const_right_cube r q : In (r, q) [(0%nat, 2); (1%nat, 3); (2%nat, 5); (3%nat, 7)] ->
  const_right r ^ 3 <= q * 2 ^ 90 < (const_right r + 1) ^ 3.
Proof. cbn [In]. intros [H|[H|[H|[H|[]]]]]; injection H as <- <-; vm_compute; intuition discriminate. Qed.

(** ** One round *)
Definition words_of (s : st5) : words :=
  let '(a, b, c, d, e) := s in (word a, word b, word c, word d, word e).
Lemma word_add4 a b c d : word (word a + word b + c + d) = word (a + b + c + d).
Proof.
  unfold word. rewrite <- !Z.add_assoc. rewrite Z.add_mod_idemp_l by lia.
  rewrite (Z.add_comm a), (Z.add_comm a), <- !Z.add_assoc. rewrite Z.add_mod_idemp_l by lia. reflexivity.
Qed.
Lemma rotl_range x s : 0 < s < 32 -> 0 <= x < 2 ^ 32 -> 0 <= rotl x s < 2 ^ 32.
Proof.
  intros Hs Hx. rewrite <- (word_small x Hx). rewrite <- rol_word by exact Hs. unfold rol. rewrite (word_land (Z.lor _ _)). apply word_range.
Qed.
Lemma step_words a b c d e x k s r : 0 < s < 32 -> (r <= 4)%nat ->
  words_of (e, rol (a + fi b c d r + x + k) s + e, b, rol c 10, d)
  = step (nonlinear r) x k s (words_of (a, b, c, d, e)).
Proof.
  intros Hs Hr. cbn [words_of step]. rewrite <- fi_word by exact Hr. rewrite word_add4.
  rewrite rol_word by exact Hs. rewrite (rol_word c) by lia.
  rewrite (word_small (rotl (word c) 10)) by (apply rotl_range; [lia|apply word_range]).
  f_equal. f_equal. f_equal. f_equal.
  set (t := rotl _ s). unfold word. rewrite Z.add_mod_idemp_r by lia. reflexivity.
Qed.
Lemma round_words x l r j : In j (seq 0 80) ->
  words_of (fst (round x (l, r) j)) = left_step x (words_of l) j /\
  words_of (snd (round x (l, r) j)) = right_step x (words_of r) j.
Proof.
  intros Hj. pose proof (tables j Hj) as T. unfold tables_ok in T.
  rewrite !andb_true_iff, !Nat.eqb_eq, !Z.eqb_eq, !Z.ltb_lt, Nat.leb_le in T.
  destruct T as ((((((((((T1 & T2) & T3) & T4) & T5) & T6) & T7) & T8) & T9) & T10) & T11).
  destruct l as [[[[al bl] cl] dl] el], r as [[[[ar br] cr] dr] er].
  unfold round, left_step, right_step. cbv zeta. cbn [fst snd].
  rewrite <- T3, <- T4, <- T1, <- T2, <- T5, <- T6. split; apply step_words; lia.
Qed.
Lemma rounds_words x js : (forall j, In j js -> In j (seq 0 80)) -> forall l r,
  words_of (fst (fold_left (round x) js (l, r))) = fold_left (left_step x) js (words_of l) /\
  words_of (snd (fold_left (round x) js (l, r))) = fold_left (right_step x) js (words_of r).
Proof.
  induction js as [|j js IH]; intros H l r; [split; reflexivity|]. cbn [fold_left].
  destruct (round_words x l r j (H j (or_introl eq_refl))) as [E1 E2].
  destruct (round x (l, r) j) as [l' r']. cbn [fst snd] in E1, E2. rewrite <- E1, <- E2.
  apply IH. intros i Hi. apply H. right. exact Hi.
Qed.

(** ** Blocks *)
Lemma skipn_skipn {A} x y (l : list A) : skipn x (skipn y l) = skipn (x + y) l.
Proof.
  revert l. induction y as [|y IH]; intros l; [rewrite Nat.add_0_r; reflexivity|].
  destruct l as [|a l]; [rewrite !skipn_nil; reflexivity|]. rewrite Nat.add_succ_r. cbn [skipn]. apply IH.
Qed.
Lemma chunks_slices k n l : chunks k n l = List.map (fun i => slice (n * i) (n * (i + 1)) l) (seq 0 k).
Proof.
  assert (G : forall k o, chunks k n (skipn (n * o) l) = List.map (fun i => slice (n * i) (n * (i + 1)) l) (seq o k)).
  { clear k. induction k as [|k IH]; intros o; [reflexivity|]. cbn [chunks seq List.map]. f_equal.
    - unfold slice. f_equal. lia.
    - rewrite skipn_skipn, <- IH. f_equal. f_equal. lia. }
  rewrite <- G. rewrite Nat.mul_0_r. reflexivity.
Qed.
Lemma fold_map {A B C} (f : A -> B -> A) (g : C -> B) l : forall a,
  fold_left f (List.map g l) a = fold_left (fun a c => f a (g c)) l a.
Proof. induction l as [|c l IH]; intros a; [reflexivity|]. cbn. apply IH. Qed.
Lemma word_add3 a b c : word (word a + word b + word c) = word (a + b + c).
Proof.
  rewrite <- (word_add (a + b) c), <- (word_add a b), <- (word_add (word a + word b) (word c)), !word_idem. reflexivity.
Qed.

Lemma combine_words h0 h1 h2 h3 h4 (t : st5 * st5) (u u' : words) :
  words_of (fst t) = u -> words_of (snd t) = u' ->
  words_of (let '((al, bl, cl, dl, el), (ar, br, cr, dr, er)) := t in
            (h1 + cl + dr, h2 + dl + er, h3 + el + ar, h4 + al + br, h0 + bl + cr))
  = (let '(a, b, c, d, e) := u in let '(a', b', c', d', e') := u' in
     let '(k0, k1, k2, k3, k4) := words_of (h0, h1, h2, h3, h4) in
     (word (k1 + c + d'), word (k2 + d + e'), word (k3 + e + a'), word (k4 + a + b'), word (k0 + b + c'))).
Proof.
  intros <- <-. destruct t as [[[[[al bl] cl] dl] el] [[[[ar br] cr] dr] er]]. cbn [fst snd words_of].
  rewrite !word_add3. reflexivity.
Qed.
Lemma compress_words st block : words_of (compress st block) = compression (words_of st) block.
Proof.
  destruct st as [[[[h0 h1] h2] h3] h4]. unfold compress, compression.
  rewrite chunks_slices, map_map.
  change (fun x => le_value (slice (4 * x) (4 * (x + 1)) block)) with (fun i => unpack_L (slice (4 * i) (4 * (i + 1)) block)).
  set (x := List.map _ (seq 0 16)).
  destruct (rounds_words x (seq 0 80) (fun j H => H) (h0, h1, h2, h3, h4) (h0, h1, h2, h3, h4)) as [E1 E2].
  apply (combine_words h0 h1 h2 h3 h4 _ _ _ E1 E2).
Qed.
Lemma process_words data st : words_of (process data st) =
  fold_left compression (chunks (List.length data / 64) 64 data) (words_of st).
Proof.
  unfold process. rewrite chunks_slices, fold_map. generalize (seq 0 (List.length data / 64)). intros js. revert st.
  induction js as [|j js IH]; intros st; [reflexivity|]. cbn [fold_left]. rewrite IH, compress_words. reflexivity.
Qed.

Lemma chunks_app k k' n a b : List.length a = (n * k)%nat -> chunks (k + k') n (a ++ b) = chunks k n a ++ chunks k' n b.
Proof.
  revert a. induction k as [|k IH]; intros a L.
  - destruct a; [reflexivity|cbn in L; lia].
  - cbn [chunks Nat.add app]. f_equal.
    + rewrite firstn_app. replace (n - List.length a)%nat with 0%nat by lia. cbn [firstn]. apply app_nil_r.
    + rewrite skipn_app. replace (n - List.length a)%nat with 0%nat by lia. cbn [skipn]. apply IH. rewrite skipn_length. lia.
Qed.
Lemma chunks_firstn k n l : chunks k n l = chunks k n (firstn (n * k) l).
Proof.
  revert l. induction k as [|k IH]; intros l; [reflexivity|]. cbn [chunks]. f_equal.
  - rewrite firstn_firstn. f_equal. lia.
  - rewrite IH. rewrite (IH (skipn n (firstn (n * S k) l))). f_equal. rewrite skipn_firstn_comm, firstn_firstn. f_equal. lia.
Qed.

Lemma pad_count len : 0 <= len -> Z.to_nat (Z.land (119 - len) 63) = zero_padding len.
Proof.
  intros H. unfold zero_padding. f_equal. change 63 with (Z.ones 6). rewrite Z.land_ones by lia. change (2 ^ 6) with 64.
  replace (119 - len) with (- (len + 9) + 2 * 64) by lia. apply Z.mod_add. lia.
Qed.
Lemma tail_start (l : bytes) : Z.to_nat (Z.land (zlen l) (Z.lnot 63)) = (64 * (List.length l / 64))%nat.
Proof.
  assert (E : Z.land (zlen l) (Z.lnot 63) = 64 * (zlen l / 64)).
  { change (Z.lnot 63) with (Z.lnot (Z.ones 6)). rewrite <- Z.ldiff_land, Z.ldiff_ones_r, Z.shiftl_mul_pow2, Z.shiftr_div_pow2 by lia.
    change (2 ^ 6) with 64. lia. }
  rewrite E. unfold zlen. rewrite <- (Nat2Z.inj_div _ 64), <- (Nat2Z.inj_mul 64), Nat2Z.id. reflexivity.
Qed.
Lemma padded_length msg : exists m, List.length (padded msg) = (64 * m)%nat.
Proof.
  unfold padded. rewrite !app_length, repeat_length, rev_length, z2be_length. cbn [List.length].
  unfold zero_padding, zlen. pose proof (Z.mod_pos_bound (- (Z.of_nat (List.length msg) + 9)) 64 ltac:(lia)) as R.
  pose proof (Z.div_mod (- (Z.of_nat (List.length msg) + 9)) 64 ltac:(lia)) as D.
  exists (Z.to_nat (- (- (Z.of_nat (List.length msg) + 9) / 64))). lia.
Qed.

Theorem ripemd160_is_rmd160 msg : 8 * zlen msg < 2 ^ 64 -> ripemd160 msg = Ok (rmd160 msg).
Proof.
  intros H. unfold ripemd160. cbv zeta. destruct (Z.leb_spec (2 ^ 64) (8 * zlen msg)) as [|_]; [lia|].
  rewrite pad_count by (unfold zlen; lia). rewrite tail_start.
  set (q := (List.length msg / 64)%nat).
  assert (Hq : (64 * q <= List.length msg)%nat) by (apply Nat.mul_div_le; lia).
  set (padding := (x80 :: repeat x00 (zero_padding (zlen msg))) ++ rev (z2be 8 (8 * zlen msg))).
  assert (Ep : padded msg = upto (64 * q) msg ++ (from (64 * q) msg ++ padding)).
  { unfold padded, padding. rewrite (app_assoc (upto _ _)), upto_from. reflexivity. }
  set (fin := from (64 * q) msg ++ padding) in *.
  assert (Eq : forall A (x y : A), x = y -> Ok x = Ok y) by congruence.
  pose proof (process_words fin (process msg initial)) as W. rewrite (process_words msg) in W.
  change (words_of initial) with initial in W.
  fold q in W. rewrite (chunks_firstn q 64 msg) in W. fold (upto (64 * q) msg) in W. rewrite <- fold_left_app in W.
  assert (Lq : List.length (upto (64 * q) msg) = (64 * q)%nat) by (apply upto_length; exact Hq).
  rewrite <- (chunks_app q _ 64 _ fin Lq) in W. rewrite <- Ep in W.
  assert (Ed : (q + List.length fin / 64 = List.length (padded msg) / 64)%nat).
  { destruct (padded_length msg) as [m E]. rewrite E. rewrite Ep, app_length, Lq in E.
    rewrite (Nat.mul_comm 64 m), Nat.div_mul by lia.
    replace (List.length fin) with ((m - q) * 64)%nat by lia. rewrite Nat.div_mul by lia. lia. }
  rewrite Ed in W. unfold rmd160. cbv zeta. rewrite <- W.
  change (0x67452301, 0xefcdab89, 0x98badcfe, 0x10325476, 0xc3d2e1f0) with initial.
  destruct (process fin (process msg initial)) as [[[[h0 h1] h2] h3] h4]. cbn [words_of].
  unfold pack_L, le_word. rewrite !word_land. reflexivity.
Qed.
Theorem ripemd160_too_long msg : 2 ^ 64 <= 8 * zlen msg -> ripemd160 msg = Raise (Builtin StructError).
Proof. intros H. unfold ripemd160. cbv zeta. destruct (Z.leb_spec (2 ^ 64) (8 * zlen msg)); [reflexivity|lia]. Qed.
Lemma rmd160_length msg : List.length (rmd160 msg) = 20%nat.
Proof.
  unfold rmd160. cbv zeta. destruct (fold_left _ _ _) as [[[[h0 h1] h2] h3] h4]. unfold le_word.
  rewrite !app_length, !rev_length, !z2be_length. reflexivity.
Qed.
