(** * PropRipemdChecked: C96, no operation of the bundled RIPEMD-160 fails. *)
From Coq Require Import Lia.
From Verif Require Import Py Const Ripemd160 SpecRipemd PyFacts RipemdFacts RipemdChecked.

Lemma each_ok {A B} (f : A -> res B) (g : A -> B) l : (forall a, In a l -> f a = Ok (g a)) -> each f l = Ok (map g l).
Proof.
  induction l as [|a l IH]; intros H; [reflexivity|]. cbn [each map]. rewrite (H a) by (left; reflexivity). cbn [bind].
  rewrite IH by (intros b Hb; apply H; right; exact Hb). reflexivity.
Qed.
Lemma loop_ok {A S} (f : S -> A -> res S) (g : S -> A -> S) l : (forall s a, In a l -> f s a = Ok (g s a)) ->
  forall s, loop f l s = Ok (fold_left g l s).
Proof.
  induction l as [|a l IH]; intros H s; [reflexivity|]. cbn [loop fold_left]. rewrite (H s a) by (left; reflexivity). cbn [bind].
  apply IH. intros t b Hb. apply H. right. exact Hb.
Qed.
Lemma item_ok {A} (l : list A) i d : (i < List.length l)%nat -> item l i = Ok (nth i l d).
Proof. intros H. unfold item. rewrite (nth_error_nth' l d H). reflexivity. Qed.
Lemma fi_ok o x y z r : (r <= 4)%nat -> fi_c o x y z (Z.of_nat r) = Ok (fi x y z r).
Proof. intros H. destruct r as [|[|[|[|[|r]]]]]; [reflexivity..|lia]. Qed.
Lemma rol_ok x i : 0 <= i <= 32 -> rol_c x i = Ok (rol x i).
Proof. intros H. unfold rol_c. destruct (Z.ltb_spec i 0); [lia|]. destruct (Z.ltb_spec (32 - i) 0); [lia|]. reflexivity. Qed.
Lemma tables_ok : forall j, (j < 80)%nat ->
  (nth j ML 0 < 16)%nat /\ (nth j MR 0 < 16)%nat /\ 0 <= nth j RL 0 <= 32 /\ 0 <= nth j RR 0 <= 32.
Proof.
  assert (F : forallb (fun j => Nat.ltb (nth j ML 0%nat) 16 && Nat.ltb (nth j MR 0%nat) 16 && (0 <=? nth j RL 0) && (nth j RL 0 <=? 32)
    && (0 <=? nth j RR 0) && (nth j RR 0 <=? 32)) (seq 0 80) = true) by reflexivity.
  intros j Hj. rewrite forallb_forall in F. specialize (F j). assert (I : In j (seq 0 80)) by (apply in_seq; lia). specialize (F I).
  repeat (apply andb_prop in F; destruct F as [F ?]). rewrite ?Nat.ltb_lt, ?Z.leb_le in *. lia.
Qed.
Lemma round_ok o x lr j : List.length x = 16%nat -> (j < 80)%nat -> round_c o x lr j = Ok (round x lr j).
Proof.
  intros Lx Hj. destruct lr as [[[[[al bl] cl] dl] el] [[[[ar br] cr] dr] er]].
  assert (Hr : (Nat.div j 16 <= 4)%nat) by (pose proof (Nat.div_lt_upper_bound j 16 5); lia).
  destruct (tables_ok j Hj) as (A & B & C & D). unfold round_c, round. set (rnd := Nat.div j 16) in *. clearbody rnd.
  rewrite fi_ok by exact Hr. cbn [bind]. rewrite (item_ok ML j 0%nat) by (cbn; lia). cbn [bind].
  rewrite (item_ok x _ 0) by lia. cbn [bind]. rewrite (item_ok KL rnd 0) by (cbn; lia). cbn [bind].
  rewrite (item_ok RL j 0) by (cbn; lia). cbn [bind]. rewrite rol_ok by exact C. cbn [bind]. rewrite rol_ok by lia. cbn [bind].
  replace (4 - Z.of_nat rnd) with (Z.of_nat (4 - rnd)) by lia.
  rewrite fi_ok by lia. cbn [bind]. rewrite (item_ok MR j 0%nat) by (cbn; lia). cbn [bind].
  rewrite (item_ok x _ 0) by lia. cbn [bind]. rewrite (item_ok KR rnd 0) by (cbn; lia). cbn [bind].
  rewrite (item_ok RR j 0) by (cbn; lia). cbn [bind]. rewrite rol_ok by exact D. cbn [bind]. rewrite rol_ok by lia. reflexivity.
Qed.
Lemma compress_ok o st block : List.length block = 64%nat -> compress_c o st block = Ok (compress st block).
Proof.
  intros L. destruct st as [[[[h0 h1] h2] h3] h4]. unfold compress_c, compress.
  rewrite (each_ok _ (fun i => unpack_L (slice (4 * i) (4 * (i + 1)) block))).
  2:{ intros i Hi. apply in_seq in Hi. unfold unpack_c. rewrite slice_length by lia.
      replace (4 * (i + 1) - 4 * i)%nat with 4%nat by lia. reflexivity. }
  cbn [bind]. rewrite (loop_ok _ (round (map (fun i => unpack_L (slice (4 * i) (4 * (i + 1)) block)) (seq 0 16)))).
  2:{ intros s a Ha. apply in_seq in Ha. apply round_ok; [rewrite map_length, seq_length; reflexivity|lia]. }
  cbn [bind]. destruct (fold_left _ _ _) as [[[[[al bl] cl] dl] el] [[[[ar br] cr] dr] er]]. reflexivity.
Qed.
Lemma process_ok o data st : process_c o data st = Ok (process data st).
Proof.
  unfold process_c, process. rewrite (loop_ok _ (fun st b => compress st (slice (64 * b) (64 * (b + 1)) data))); [reflexivity|].
  intros s a Ha. apply in_seq in Ha. apply compress_ok. pose proof (Nat.mul_div_le (List.length data) 64). rewrite slice_length by lia. lia.
Qed.

(** Whatever would happen outside the range of fi, with every failure written out,
    ripemd160 returns what the model of it does ... *)
Theorem C96_same : forall outside data, ripemd160_c outside data = ripemd160 data.
Proof.
  intros o data. unfold ripemd160_c, ripemd160. rewrite process_ok. cbn [bind]. unfold pack_Q.
  destruct (Z.leb_spec (2 ^ 64) (8 * zlen data)) as [L|L].
  - destruct (Z.ltb_spec (8 * zlen data) (2 ^ 64)); [lia|]. rewrite Bool.andb_false_r. reflexivity.
  - destruct (Z.leb_spec 0 (8 * zlen data)); [|unfold zlen in *; lia]. destruct (Z.ltb_spec (8 * zlen data) (2 ^ 64)); [|lia].
    cbn [andb bind]. rewrite process_ok. reflexivity.
Qed.
(** ... so for data of less than 2^61 bytes it returns the digest of the RIPEMD-160
    specification and never fails; for longer data it fails, with struct.error. *)
Theorem C96_never_fails : forall outside data, zlen data < 2 ^ 61 -> ripemd160_c outside data = Ok (rmd160 data).
Proof. intros o data L. rewrite C96_same. apply ripemd160_is_rmd160. lia. Qed.
Theorem C96_too_long : forall outside data, 2 ^ 61 <= zlen data ->
  ripemd160_c outside data = Raise (Builtin StructError).
Proof.
  intros o data L. rewrite C96_same. unfold ripemd160. destruct (Z.leb_spec (2 ^ 64) (8 * zlen data)); [reflexivity|].
  change (2 ^ 64) with (8 * 2 ^ 61) in *; lia.
Qed.
(** A case: the branch that is never reached does fail, and a short block too. *)
Example C96_ex : fi_c (Builtin AssertionError) 1 2 3 5 = Raise (Builtin AssertionError) /\
  compress_c (Builtin AssertionError) (0, 0, 0, 0, 0) [x00] = Raise (Builtin StructError) /\
  zlen [x61] < 2 ^ 61.
Proof. repeat split. Qed.
