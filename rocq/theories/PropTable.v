(** * C86: the tables of supported coins (docs/tools) *)
From Coq Require Import Lia Permutation Sorted HexadecimalString HexadecimalPos HexadecimalN HexadecimalFacts.
From Verif Require Import Py PyFacts Cryptocurrencies SpecTable CoinTable PropDigits.

(** ** What is claimed: the rows that show a coin *)
(** the cells that show a network; [hx] writes numbers *)
Definition network_cells (tag : pystr) (hx : Z -> pystr) (e : pystr * (Z * Z)) : list (pystr * pystr) :=
  let '(n, (w, a)) := e in [(tag, n); (tag, str "0x" ++ hx w); (tag, str "0x" ++ hx a)]%list.
(** the first row shows the name too, in a cell as high as all rows of the coin *)
Definition coin_cells (name_tag : pystr -> pystr) (tag : pystr) (hx : Z -> pystr) (c : coin) : list (list (pystr * pystr)) :=
  match c_networks c with
  | [] => []
  | e :: l => ((name_tag (dec (Z.of_nat (List.length (c_networks c)))), c_name c) :: network_cells tag hx e) :: List.map (network_cells tag hx) l
  end.

(** ** Order *)
Lemma leb_refl a : text_leb a a = true.
Proof. induction a as [|x a IH]; [reflexivity|]. cbn [text_leb]. rewrite N.eqb_refl, IH, orb_true_r. reflexivity. Qed.
Lemma leb_total a : forall b, text_leb a b = false -> text_leb b a = true.
Proof.
  induction a as [|x a IH]; intros [|y b]; cbn [text_leb]; try discriminate; trivial.
  destruct (N.ltb_spec x y); [discriminate|]. destruct (N.eqb_spec x y) as [->|Ne]; cbn [orb andb].
  - intros H'. rewrite N.eqb_refl, (IH _ H'), orb_true_r. reflexivity.
  - intros _. destruct (N.ltb_spec y x); [reflexivity|lia].
Qed.
Lemma leb_trans a : forall b c, text_leb a b = true -> text_leb b c = true -> text_leb a c = true.
Proof.
  induction a as [|x a IH]; intros [|y b] [|z c]; cbn [text_leb]; try discriminate; trivial.
  rewrite !orb_true_iff, !andb_true_iff, !N.ltb_lt, !N.eqb_eq. intros [H|[-> H]] [G|[-> G]]; [left; lia|left; lia|left; lia|right].
  split; [reflexivity|]. apply (IH _ _ H G).
Qed.
Lemma leb_before a : forall b, text_leb a b = true -> a <> b -> before a b.
Proof.
  induction a as [|x a IH]; intros [|y b] H N; [congruence| |discriminate|].
  - right. exists y, b. reflexivity.
  - cbn [text_leb] in H. rewrite orb_true_iff, andb_true_iff, N.ltb_lt, N.eqb_eq in H. destruct H as [H|[-> H]].
    + left. exists [], x, y, a, b. auto.
    + destruct (IH b H ltac:(congruence)) as [(p & u & v & r & r' & -> & -> & L)|(u & r & ->)].
      * left. exists (y :: p), u, v, r, r'. auto.
      * right. exists u, r. reflexivity.
Qed.
Lemma insert_perm c l : Permutation (insert_coin c l) (c :: l).
Proof.
  induction l as [|d l IH]; [reflexivity|]. cbn [insert_coin]. destruct (text_leb _ _); [reflexivity|].
  rewrite IH. apply perm_swap.
Qed.
Lemma sorted_perm l : Permutation (sorted_coins l) l.
Proof. induction l as [|c l IH]; [reflexivity|]. cbn [sorted_coins List.fold_right]. fold (sorted_coins l). rewrite insert_perm, IH. reflexivity. Qed.
Definition leC (c d : coin) : Prop := text_leb (c_name c) (c_name d) = true.
Lemma insert_sorted c l : StronglySorted leC l -> StronglySorted leC (insert_coin c l).
Proof.
  induction 1 as [|d l S IH F]; cbn [insert_coin]; [repeat constructor|].
  destruct (text_leb (c_name c) (c_name d)) eqn:E.
  - constructor; [constructor; assumption|]. constructor; [exact E|]. eapply Forall_impl; [|exact F]. intros x Hx. apply (leb_trans _ _ _ E Hx).
  - constructor; [exact IH|]. apply (Permutation_Forall (Permutation_sym (insert_perm c l))). constructor; [apply leb_total, E|exact F].
Qed.
Lemma sorted_sorted l : StronglySorted leC (sorted_coins l).
Proof. induction l as [|c l IH]; [constructor|]. apply insert_sorted, IH. Qed.
Lemma sorted_strict l : NoDup (List.map c_name l) -> StronglySorted leC l -> StronglySorted (fun c d => before (c_name c) (c_name d)) l.
Proof.
  intros N S. induction S as [|c l S IH F]; [constructor|]. cbn [List.map] in N. inversion N as [|? ? Nc Nl]; subst.
  constructor; [apply IH, Nl|]. apply Forall_forall. intros d Hd. apply leb_before; [apply (proj1 (Forall_forall _ _) F d Hd)|].
  intros E. apply Nc. rewrite E. apply in_map, Hd.
Qed.

(** ** Hexadecimal numbers *)
Fixpoint hl (u : Hexadecimal.uint) : list Z :=
  match u with
  | Hexadecimal.Nil => []
  | Hexadecimal.D0 u => 0 :: hl u | Hexadecimal.D1 u => 1 :: hl u | Hexadecimal.D2 u => 2 :: hl u | Hexadecimal.D3 u => 3 :: hl u
  | Hexadecimal.D4 u => 4 :: hl u | Hexadecimal.D5 u => 5 :: hl u | Hexadecimal.D6 u => 6 :: hl u | Hexadecimal.D7 u => 7 :: hl u
  | Hexadecimal.D8 u => 8 :: hl u | Hexadecimal.D9 u => 9 :: hl u | Hexadecimal.Da u => 10 :: hl u | Hexadecimal.Db u => 11 :: hl u
  | Hexadecimal.Dc u => 12 :: hl u | Hexadecimal.Dd u => 13 :: hl u | Hexadecimal.De u => 14 :: hl u | Hexadecimal.Df u => 15 :: hl u
  end.
Definition hstep (v d : Z) := 16 * v + d.
Definition hchar (d : Z) : N := nth (Z.to_nat d) (str "0123456789abcdef") 0%N.
Lemma hl_range u : Forall (fun d => 0 <= d < 16) (hl u).
Proof. induction u; cbn [hl]; constructor; trivial; lia. Qed.
Lemma hl_length u : List.length (hl u) = Hexadecimal.nb_digits u.
Proof. induction u; cbn [hl List.length Hexadecimal.nb_digits]; congruence. Qed.
Lemma hchars u : str (NilEmpty.string_of_uint u) = List.map hchar (hl u).
Proof. induction u; [reflexivity|..]; cbn [NilEmpty.string_of_uint hl List.map]; rewrite <- IHu; reflexivity. Qed.
Lemma hacc_value u : forall p, Z.pos (Pos.of_hex_uint_acc u p) = fold_left hstep (hl u) (Z.pos p).
Proof. induction u; intros p; cbn [Pos.of_hex_uint_acc hl fold_left]; [reflexivity|..]; rewrite IHu; f_equal; unfold hstep; lia. Qed.
Lemma hvalue u : Z.of_N (Pos.of_hex_uint u) = fold_left hstep (hl u) 0.
Proof. induction u; cbn [Pos.of_hex_uint hl fold_left]; [reflexivity|exact IHu|..]; cbn [Z.of_N]; apply hacc_value. Qed.
Lemma huint_head p : exists d l, hl (Pos.to_hex_uint p) = d :: l /\ 1 <= d < 16.
Proof.
  pose proof (HexadecimalPos.Unsigned.to_of (Pos.to_hex_uint p)) as U. rewrite HexadecimalPos.Unsigned.of_to in U. cbn [N.to_hex_uint] in U.
  pose proof (HexadecimalPos.Unsigned.to_uint_nonnil p) as N. pose proof (HexadecimalPos.Unsigned.to_uint_nonzero p) as Z0.
  destruct (Pos.to_hex_uint p) as [|u|u|u|u|u|u|u|u|u|u|u|u|u|u|u|u]; [congruence| |..]; [|eexists; eexists; split; [reflexivity|lia]..].
  exfalso. unfold Hexadecimal.unorm in U. cbn [Hexadecimal.nzhead] in U. pose proof (nb_digits_nzhead u) as L.
  destruct (Hexadecimal.nzhead u); [injection U as ->; congruence|..]; rewrite <- U in L; cbn [Hexadecimal.nb_digits] in L; lia.
Qed.
(** the digits of a number, and what they look like *)
Lemma hdigits n : exists ds, Forall (fun d => 0 <= d < 16) ds /\ str (NilZero.string_of_uint (N.to_hex_uint n)) = List.map hchar ds /\
  fold_left hstep ds 0 = Z.of_N n /\ ((1 < List.length ds)%nat -> List.hd 0 ds <> 0) /\ (0 < List.length ds)%nat.
Proof.
  destruct n as [|p].
  - exists [0]. split; [repeat constructor; lia|]. split; [reflexivity|]. split; [reflexivity|]. cbn. lia.
  - cbn [N.to_hex_uint]. exists (hl (Pos.to_hex_uint p)). split; [apply hl_range|]. destruct (huint_head p) as (d & l & D & Hd). split; [|split].
    + rewrite <- hchars. pose proof (HexadecimalPos.Unsigned.to_uint_nonnil p). destruct (Pos.to_hex_uint p); [congruence|reflexivity..].
    + rewrite <- hvalue, HexadecimalPos.Unsigned.of_to. reflexivity.
    + rewrite D. cbn. lia.
Qed.
Lemma hex02_hexadecimal z : 0 <= z -> hexadecimal z (hex02 z).
Proof.
  intros H. unfold hex02. destruct (Z.ltb_spec z 0); [lia|]. rewrite Z.abs_eq by exact H.
  destruct (hdigits (Z.to_N z)) as (ds & F & E & V & Hd & L). rewrite Z2N.id in V by exact H. rewrite E, map_length.
  destruct (Nat.ltb_spec (List.length ds) 2) as [S|S].
  - exists (0 :: ds). split; [constructor; [lia|exact F]|]. split; [reflexivity|]. split; [symmetry; exact V|]. left. cbn [List.length]. lia.
  - exists ds. split; [exact F|]. split; [reflexivity|]. split; [symmetry; exact V|].
    destruct (Nat.eq_dec (List.length ds) 2); [left; assumption|right]. split; [lia|apply Hd; lia].
Qed.
Lemma hchar_not d c : 0 <= d < 16 -> (c = 60 \/ c = 62)%N -> hchar d <> c.
Proof.
  intros H C E. assert (G : forallb (fun x => negb (x =? 60)%N && negb (x =? 62)%N) (str "0123456789abcdef") = true) by reflexivity.
  rewrite forallb_forall in G. specialize (G (hchar d)). rewrite E in G. 
  assert (I : In c (str "0123456789abcdef")). { rewrite <- E. apply nth_In. change (List.length (str "0123456789abcdef")) with 16%nat. lia. }
  specialize (G I). destruct C as [-> | ->]; discriminate.
Qed.
Lemma hex02_text z : ~ In 60%N (hex02 z).
Proof.
  assert (D : ~ In 60%N (str (NilZero.string_of_uint (N.to_hex_uint (Z.to_N (Z.abs z)))))).
  { destruct (hdigits (Z.to_N (Z.abs z))) as (ds & F & -> & _). intros I. apply in_map_iff in I. destruct I as (d & E & I).
    apply (hchar_not d 60); [apply (proj1 (Forall_forall _ _) F d I)|left; reflexivity|exact E]. }
  unfold hex02. destruct (z <? 0); [|destruct (Nat.ltb _ 2)]; rewrite ?in_app_iff; [|intros [I|I]|exact D]; try (apply D; exact I).
  - intros [I|I]; [|apply D, I]. cbn in I. intuition discriminate.
  - cbn in I. intuition discriminate.
Qed.
Lemma dec_no_tag n : ~ In 62%N (dec (Z.of_nat n)).
Proof.
  destruct n as [|n]; [change (Z.of_nat 0) with 0; rewrite dec_zero; cbn; intuition discriminate|].
  change (Z.of_nat (S n)) with (Z.pos (Pos.of_succ_nat n)). rewrite dec_pos. intros I. apply in_map_iff in I. destruct I as (d & E & I).
  pose proof (proj1 (Forall_forall _ _) (dl_range _) d I). cbv beta in H. lia.
Qed.

(** ** The reader *)
Definition at_ (b : bool) (t c : pystr) (r : list (pystr * pystr)) (rs : list (list (pystr * pystr))) : reader :=
  {| in_tag := b; buffer := t; cell := c; row := r; rows := rs |}.
Notation reads s r := (fold_left read_char s r).
Lemma read_text s : ~ In 60%N s -> forall t c r rs, reads s (at_ false t c r rs) = at_ false (t ++ s)%list c r rs.
Proof.
  induction s as [|x s IH]; intros N t c r rs; [rewrite app_nil_r; reflexivity|]. cbn [fold_left]. unfold read_char at 2. cbn [at_ in_tag].
  destruct (N.eqb_spec x 60); [destruct N; left; congruence|]. unfold put. cbn [at_ in_tag buffer cell row rows].
  change ({| in_tag := false; buffer := (t ++ [x])%list; cell := c; row := r; rows := rs |}) with (at_ false (t ++ [x])%list c r rs).
  rewrite IH by (intros I; apply N; right; exact I). rewrite <- app_assoc. reflexivity.
Qed.
Lemma read_tag s : ~ In 62%N s -> forall t c r rs, reads s (at_ true t c r rs) = at_ true (t ++ s)%list c r rs.
Proof.
  induction s as [|x s IH]; intros N t c r rs; [rewrite app_nil_r; reflexivity|]. cbn [fold_left]. unfold read_char at 2. cbn [at_ in_tag].
  destruct (N.eqb_spec x 62); [destruct N; left; congruence|]. unfold put. cbn [at_ in_tag buffer cell row rows].
  change ({| in_tag := true; buffer := (t ++ [x])%list; cell := c; row := r; rows := rs |}) with (at_ true (t ++ [x])%list c r rs).
  rewrite IH by (intros I; apply N; right; exact I). rewrite <- app_assoc. reflexivity.
Qed.
Lemma read_lt s t c r rs : t <> [] -> reads (60%N :: s) (at_ false t c r rs) = reads s (at_ true [] c (r ++ [(c, t)])%list rs).
Proof. intros N. destruct t as [|x t]; [congruence|reflexivity]. Qed.

Definition md_name_tag (n : pystr) : pystr := (str "td align='left' rowspan='" ++ n ++ str "'")%list.
Definition rst_name_tag (n : pystr) : pystr := (str "td class='name' rowspan='" ++ n ++ str "'")%list.

(** What the two ways of writing have in common *)
Definition writes (first : pystr -> nat -> nat -> pystr) (rw : pystr -> Z -> Z -> pystr) (name_tag : pystr -> pystr) (tag : pystr) : Prop :=
  (forall name n c r rs, showable name -> reads (first name n 0%nat) (at_ false [] c r rs) =
     at_ false [] (name_tag (dec (Z.of_nat n))) [(name_tag (dec (Z.of_nat n)), name)] rs) /\
  (forall name n i c r rs, reads (first name n (S i)) (at_ false [] c r rs) = at_ false [] c [] rs) /\
  (forall net w a c r rs, showable net -> exists c' r', reads (rw net w a) (at_ false [] c r rs) =
     at_ false [] c' r' (rs ++ [r ++ network_cells tag hex02 (net, (w, a))])%list).

Lemma md_writes : writes markdown_begin markdown_row md_name_tag (str "td align='center'").
Proof.
  split; [|split].
  - intros name n c r rs [N L]. unfold markdown_begin. cbn [Nat.eqb]. rewrite !fold_left_app.
    assert (S1 : forall c r rs, reads (str "<tr><td align='left' rowspan='") (at_ false [] c r rs) = at_ true (str "td align='left' rowspan='") c [] rs)
      by (intros; vm_compute; reflexivity).
    rewrite S1, read_tag by apply dec_no_tag. generalize (dec (Z.of_nat n)). intros d.
    assert (S2 : forall c r rs, reads (str "'>") (at_ true (str "td align='left' rowspan='" ++ d)%list c r rs) = at_ false [] (md_name_tag d) r rs).
    { intros. unfold md_name_tag. rewrite app_assoc. vm_compute. reflexivity. }
    rewrite S2, read_text by exact L. cbn [app]. change (str "</td>") with (60%N :: str "/td>"). rewrite read_lt by exact N.
    generalize (md_name_tag d). intros t. vm_compute. reflexivity.
  - intros. vm_compute. reflexivity.
  - intros net w a c r rs [N L]. unfold markdown_row, network_cells.
    pose proof (hex02_text w) as W. pose proof (hex02_text a) as A. generalize dependent (hex02 a). generalize dependent (hex02 w). intros hw W ha A. eexists. eexists. rewrite !fold_left_app.
    assert (S1 : forall c r rs, reads (str "<td align='center'><code>") (at_ false [] c r rs) = at_ false [] (str "td align='center'") r rs)
      by (intros; vm_compute; reflexivity).
    assert (S2 : forall c r rs, reads (str "<td align='center'><code>0x") (at_ false [] c r rs) = at_ false (str "0x") (str "td align='center'") r rs)
      by (intros; vm_compute; reflexivity).
    assert (S3 : forall c r rs, reads (str "/code></td>") (at_ true [] c r rs) = at_ false [] c r rs) by (intros; vm_compute; reflexivity).
    assert (S4 : forall c r rs, reads (str "/code></td></tr>") (at_ true [] c r rs) = at_ false [] c r (rs ++ [r])%list) by (intros; vm_compute; reflexivity).
    rewrite S1, read_text by exact L. cbn [app]. change (str "</code></td>") with (60%N :: str "/code></td>"). rewrite read_lt by exact N.
    rewrite S3, S2, read_text, read_lt by (exact W || discriminate). rewrite S3, S2, read_text by exact A.
    change (str "</code></td></tr>") with (60%N :: str "/code></td></tr>"). rewrite read_lt by discriminate. rewrite S4, <- !app_assoc. reflexivity.
Qed.
Lemma rst_writes : writes rst_begin rst_row rst_name_tag (str "td").
Proof.
  split; [|split].
  - intros name n c r rs [N L]. unfold rst_begin. cbn [Nat.eqb]. rewrite !fold_left_app.
    assert (S1 : forall c r rs, reads (str "<tr class='row-even'><td class='name' rowspan='") (at_ false [] c r rs) = at_ true (str "td class='name' rowspan='") c [] rs)
      by (intros; vm_compute; reflexivity).
    rewrite S1, read_tag by apply dec_no_tag. generalize (dec (Z.of_nat n)). intros d.
    assert (S2 : forall c r rs, reads (str "'><p>") (at_ true (str "td class='name' rowspan='" ++ d)%list c r rs) = at_ false [] (rst_name_tag d) r rs).
    { intros. unfold rst_name_tag. rewrite app_assoc. vm_compute. reflexivity. }
    rewrite S2, read_text by exact L. cbn [app]. change (str "</p></td>") with (60%N :: str "/p></td>"). rewrite read_lt by exact N.
    generalize (rst_name_tag d). intros t. vm_compute. reflexivity.
  - intros. vm_compute. reflexivity.
  - intros net w a c r rs [N L]. unfold rst_row, network_cells.
    pose proof (hex02_text w) as W. pose proof (hex02_text a) as A. generalize dependent (hex02 a). generalize dependent (hex02 w). intros hw W ha A. eexists. eexists. rewrite !fold_left_app.
    assert (S0 : forall c r rs, reads (str "<td><p><code class='xref py py-class docutils literal notranslate'>") (at_ false [] c r rs) = at_ false [] (str "td") r rs)
      by (intros; vm_compute; reflexivity).
    assert (S1 : forall c r rs, reads (str "<span class='pre'>") (at_ false [] c r rs) = at_ false [] c r rs) by (intros; vm_compute; reflexivity).
    assert (S2 : forall c r rs, reads (str "<span class='pre'>0x") (at_ false [] c r rs) = at_ false (str "0x") c r rs) by (intros; vm_compute; reflexivity).
    assert (S3 : forall c r rs, reads (str "/span></code></p></td>") (at_ true [] c r rs) = at_ false [] c r rs) by (intros; vm_compute; reflexivity).
    assert (S4 : forall c r rs, reads (str "/span></code></p></td></tr>") (at_ true [] c r rs) = at_ false [] c r (rs ++ [r])%list) by (intros; vm_compute; reflexivity).
    rewrite S0, S1, read_text by exact L. cbn [app]. change (str "</span></code></p></td>") with (60%N :: str "/span></code></p></td>"). rewrite read_lt by exact N.
    rewrite S3, S0, S2, read_text, read_lt by (exact W || discriminate). rewrite S3, S0, S2, read_text by exact A.
    change (str "</span></code></p></td></tr>") with (60%N :: str "/span></code></p></td></tr>"). rewrite read_lt by discriminate. rewrite S4, <- !app_assoc. reflexivity.
Qed.
Lemma later_rows first rw name_tag tag : writes first rw name_tag tag -> forall name n l, (forall net w a, In (net, (w, a)) l -> showable net) ->
  forall i c r rs, exists c' r', reads (network_rows (first name n) rw (S i) l) (at_ false [] c r rs) =
    at_ false [] c' r' (rs ++ List.map (network_cells tag hex02) l)%list.
Proof.
  intros (_ & W2 & W3) name n l. induction l as [|(net & w & a) l IH]; intros H i c r rs.
  - exists c, r. cbn. rewrite app_nil_r. reflexivity.
  - cbn [network_rows]. rewrite !fold_left_app, W2. destruct (W3 net w a c [] rs) as (c1 & r1 & ->); [apply (H net w a); left; reflexivity|].
    destruct (IH ltac:(intros n' w' a' I; apply (H n' w' a'); right; exact I) (S i) c1 r1 (rs ++ [[] ++ network_cells tag hex02 (net, (w, a))])%list) as (c2 & r2 & ->).
    exists c2, r2. rewrite <- app_assoc. reflexivity.
Qed.
Definition presentable (c : coin) : Prop := showable (c_name c) /\ forall n w a, In (n, (w, a)) (c_networks c) -> showable n.
Lemma one_coin first rw name_tag tag : writes first rw name_tag tag -> forall k, presentable k -> forall c r rs, exists c' r',
  reads (network_rows (first (c_name k) (List.length (c_networks k))) rw 0 (c_networks k)) (at_ false [] c r rs) =
    at_ false [] c' r' (rs ++ coin_cells name_tag tag hex02 k)%list.
Proof.
  intros W k [Hn Hl] c r rs. pose proof W as (W1 & _ & W3). unfold coin_cells. remember (List.length (c_networks k)) as n eqn:En. clear En.
  destruct (c_networks k) as [|(net & w & a) l]; [exists c, r; cbn; rewrite app_nil_r; reflexivity|].
  cbn [network_rows]. rewrite !fold_left_app, W1 by exact Hn.
  match goal with |- context [at_ false [] ?x ?y rs] => destruct (W3 net w a x y rs) as (c1 & r1 & ->); [apply (Hl net w a); left; reflexivity|] end.
  match goal with |- context [at_ false [] c1 r1 ?y] => destruct (later_rows _ _ _ _ W (c_name k) n l ltac:(intros n' w' a' I; apply (Hl n' w' a'); right; exact I) 0 c1 r1 y) as (c2 & r2 & ->) end.
  exists c2, r2. rewrite <- app_assoc. reflexivity.
Qed.
Lemma all_rows first rw name_tag tag : writes first rw name_tag tag -> forall l, (forall k, In k l -> presentable k) -> forall c r rs, exists c' r',
  reads (coin_rows first rw l) (at_ false [] c r rs) = at_ false [] c' r' (rs ++ List.concat (List.map (coin_cells name_tag tag hex02) l))%list.
Proof.
  intros W l. unfold coin_rows. induction l as [|k l IH]; intros H c r rs; [exists c, r; cbn; rewrite app_nil_r; reflexivity|].
  cbn [List.map List.concat]. rewrite fold_left_app. destruct (one_coin _ _ _ _ W k ltac:(apply H; left; reflexivity) c r rs) as (c1 & r1 & ->).
  destruct (IH ltac:(intros k' I; apply H; right; exact I) c1 r1 (rs ++ coin_cells name_tag tag hex02 k)%list) as (c2 & r2 & ->).
  exists c2, r2. rewrite <- app_assoc. reflexivity.
Qed.

(** ** The theorem *)
(** Whatever coins the module defines, with names and networks that can be shown, both
    tables list them all, each once, in the order of their names, every network of each
    with its prefixes in hexadecimal. *)
Theorem C86_tables : forall classes, NoDup (List.map c_name classes) -> (forall k, In k classes -> presentable k) ->
  exists L hx, Permutation L classes /\ StronglySorted (fun c d => before (c_name c) (c_name d)) L /\ (forall z, 0 <= z -> hexadecimal z (hx z)) /\
  read_table (markdown_table classes) =
    ([(str "th align='left'", str "Name"); (str "th", str "Network"); (str "th", str "WIF Prefix"); (str "th", str "Address Prefix")] ::
     List.concat (List.map (coin_cells (fun n => str "td align='left' rowspan='" ++ n ++ str "'") (str "td align='center'") hx) L))%list /\
  read_table (rst_table classes) =
    ([(str "th class='head name'", str "Name"); (str "th class='head'", str "Network"); (str "th class='head'", str "WIF Prefix"); (str "th class='head'", str "Address Prefix")] ::
     List.concat (List.map (coin_cells (fun n => str "td class='name' rowspan='" ++ n ++ str "'") (str "td") hx) L))%list.
Proof.
  intros classes ND H. exists (sorted_coins classes), hex02. pose proof (sorted_perm classes) as SP. split; [exact SP|].
  split; [apply sorted_strict; [|apply sorted_sorted]; apply (Permutation_NoDup (Permutation_map c_name (Permutation_sym SP)) ND)|].
  split; [exact hex02_hexadecimal|].
  assert (H' : forall k, In k (sorted_coins classes) -> presentable k) by (intros k I; apply H, (Permutation_in _ SP I)).
  unfold markdown_table, rst_table. generalize dependent (sorted_coins classes). intros L _ H'. split.
  - unfold read_table. rewrite !fold_left_app.
    destruct (all_rows _ _ _ _ md_writes L H' (str "th") [(str "th align='left'", str "Name"); (str "th", str "Network"); (str "th", str "WIF Prefix"); (str "th", str "Address Prefix")]
      [[(str "th align='left'", str "Name"); (str "th", str "Network"); (str "th", str "WIF Prefix"); (str "th", str "Address Prefix")]]) as (c' & r' & E).
    match goal with |- context [reads markdown_header ?x] => replace (reads markdown_header x) with
      (at_ false [] (str "th") [(str "th align='left'", str "Name"); (str "th", str "Network"); (str "th", str "WIF Prefix"); (str "th", str "Address Prefix")]
      [[(str "th align='left'", str "Name"); (str "th", str "Network"); (str "th", str "WIF Prefix"); (str "th", str "Address Prefix")]]) by (vm_compute; reflexivity) end.
    rewrite E. change (fun n => (str "td align='left' rowspan='" ++ n ++ str "'")%list) with md_name_tag.
    generalize (List.concat (List.map (coin_cells md_name_tag (str "td align='center'") hex02) L)). intros z. vm_compute. reflexivity.
  - unfold read_table. rewrite !fold_left_app.
    destruct (all_rows _ _ _ _ rst_writes L H' (str "th class='head'") [(str "th class='head name'", str "Name"); (str "th class='head'", str "Network"); (str "th class='head'", str "WIF Prefix"); (str "th class='head'", str "Address Prefix")]
      [[(str "th class='head name'", str "Name"); (str "th class='head'", str "Network"); (str "th class='head'", str "WIF Prefix"); (str "th class='head'", str "Address Prefix")]]) as (c' & r' & E).
    match goal with |- context [reads rst_header ?x] => replace (reads rst_header x) with
      (at_ false [] (str "th class='head'") [(str "th class='head name'", str "Name"); (str "th class='head'", str "Network"); (str "th class='head'", str "WIF Prefix"); (str "th class='head'", str "Address Prefix")]
      [[(str "th class='head name'", str "Name"); (str "th class='head'", str "Network"); (str "th class='head'", str "WIF Prefix"); (str "th class='head'", str "Address Prefix")]]) by (vm_compute; reflexivity) end.
    rewrite E. change (fun n => (str "td class='name' rowspan='" ++ n ++ str "'")%list) with rst_name_tag.
    generalize (List.concat (List.map (coin_cells rst_name_tag (str "td") hex02) L)). intros z. vm_compute. reflexivity.
Qed.

(** The coins of bip38/cryptocurrencies.py meet the hypotheses; the second table below is
    what the script writes for the first two of them. *)
Definition showableb (s : pystr) : bool := match s with [] => false | _ => forallb (fun x => negb (x =? 60)%N) s end.
Lemma showableb_sound s : showableb s = true -> showable s.
Proof.
  intros H. destruct s as [|x s]; [discriminate|]. split; [discriminate|]. intros I. unfold showableb in H. rewrite forallb_forall in H.
  specialize (H _ I). discriminate.
Qed.
Fixpoint nodupb (l : list pystr) : bool := match l with [] => true | x :: r => negb (existsb (str_eqb x) r) && nodupb r end.
Lemma nodupb_sound l : nodupb l = true -> NoDup l.
Proof.
  induction l as [|x l IH]; [constructor|]. cbn [nodupb]. rewrite andb_true_iff, negb_true_iff. intros [H G]. constructor; [|apply IH, G].
  intros I. assert (E : existsb (str_eqb x) l = true) by (apply existsb_exists; exists x; split; [exact I|apply str_eqb_refl]). congruence.
Qed.
Example C86_met : NoDup (List.map c_name all_coins) /\ forall k, In k all_coins -> presentable k.
Proof.
  split; [apply nodupb_sound; vm_compute; reflexivity|]. intros k I.
  assert (G : forallb (fun k => showableb (c_name k) && forallb (fun e => showableb (fst e)) (c_networks k)) all_coins = true) by (vm_compute; reflexivity).
  rewrite forallb_forall in G. specialize (G k I). rewrite andb_true_iff, forallb_forall in G. destruct G as [A B].
  split; [apply showableb_sound, A|]. intros n w a In_. apply showableb_sound. apply (B _ In_).
Qed.
Example C86_small_table : visible (read_table (rst_table [coin_Litecoin; coin_Bitcoin])) = List.map (List.map str)
  [["Name"; "Network"; "WIF Prefix"; "Address Prefix"];
   ["Bitcoin"; "mainnet"; "0x80"; "0x00"];
   ["testnet"; "0xef"; "0x6f"];
   ["regtest"; "0xef"; "0x6f"];
   ["Litecoin"; "mainnet"; "0xb0"; "0x30"];
   ["testnet"; "0xef"; "0x6f"]]%string.
Proof. vm_compute. reflexivity. Qed.
