(** * C05, C06, C45: integers, hexadecimal text, byte reversal (utils.py) *)
From Coq Require Import Lia ZifyBool ZifyNat ZifyN.
From Verif Require Import Py Prims Spec PyFacts Utils UtilsFacts Base58Facts SpecBip38.

(** Value of a byte string in either byte order. *)
Definition value_of (e : endian) (l : bytes) : Z := match e with Big => be_value l | Little => be_value (rev l) end.
Lemma from_bytes_value l e : from_bytes l e false = value_of e l.
Proof. destruct e; cbn [value_of]; rewrite be_value_be2z; reflexivity. Qed.
Lemma bound_rev (l : bytes) : zlen (rev l) = zlen l.
Proof. unfold zlen. rewrite rev_length. reflexivity. Qed.

(** ** C05 *)
Theorem C05_bytes_to_integer : forall l e, bytes_to_integer_full l e false = value_of e l.
Proof. intros. apply from_bytes_value. Qed.
(** With a width w > 0: exactly the w-byte form when the number fits, OverflowError otherwise. *)
Theorem C05_with_width : forall z w e, 0 < w ->
  (0 <= z < 256 ^ w -> exists l, integer_to_bytes_full z (Some w) e false = Ok l /\
     zlen l = w /\ value_of e l = z /\ bytes_to_integer_full l e false = z) /\
  (~ (0 <= z < 256 ^ w) -> integer_to_bytes_full z (Some w) e false = Raise (Builtin OverflowError)).
Proof.
  intros z w e Hw. unfold integer_to_bytes_full. destruct (Z.eqb_spec w 0); [lia|]. split; intros H.
  - rewrite to_bytes_ok by lia. eexists. split; [reflexivity|].
    assert (V : value_of e (match e with Big => z2be (Z.to_nat w) z | Little => rev (z2be (Z.to_nat w) z) end) = z).
    { destruct e; cbn [value_of]; rewrite ?rev_involutive, be_value_be2z; apply z2be_small_be2z; rewrite Z2Nat.id by lia; exact H. }
    split; [|split; [exact V|unfold bytes_to_integer_full; rewrite from_bytes_value; exact V]].
    destruct e; [rewrite bound_rev|]; unfold zlen; rewrite z2be_length; lia.
  - apply to_bytes_overflow; [lia|exact H].
Qed.
(** A negative width is an error, and width 0 or None means the shortest form. *)
Theorem C05_other_widths : forall z w e,
  (w < 0 -> integer_to_bytes_full z (Some w) e false = Raise (Builtin ValueError)) /\
  integer_to_bytes_full z (Some 0) e false = integer_to_bytes_full z None e false.
Proof.
  intros z w e. split; [|reflexivity]. intros H. unfold integer_to_bytes_full. destruct (Z.eqb_spec w 0); [lia|].
  unfold to_bytes. destruct (Z.ltb_spec w 0); [reflexivity|lia].
Qed.
Lemma shortest_any_order z e : 0 <= z -> exists l, integer_to_bytes z = Ok l /\
  integer_to_bytes_full z None e false = Ok (match e with Big => l | Little => rev l end) /\ be2z l = z /\ shortest l = l.
Proof.
  intros H. destruct (integer_to_bytes_nonneg z H) as (l & E & V & S & _). exists l. split; [exact E|]. split; [|auto].
  rewrite integer_to_bytes_unfold in E. change (integer_to_bytes_full z None e false) with (to_bytes z (width z) e false).
  unfold to_bytes in *. destruct (width z <? 0); [discriminate|]. cbv zeta in *. destruct ((0 <=? z) && _); [|discriminate].
  injection E as <-. reflexivity.
Qed.
(** Without a width: the shortest non-empty form; negative numbers overflow. *)
Theorem C05_without_width : forall z e,
  (0 <= z -> exists l, integer_to_bytes_full z None e false = Ok l /\
     minimal_bytes z (match e with Big => l | Little => rev l end) /\ bytes_to_integer_full l e false = z) /\
  (z < 0 -> integer_to_bytes_full z None e false = Raise (Builtin OverflowError)).
Proof.
  intros z e. split; intros H.
  - destruct (shortest_any_order z e H) as (l & _ & E & V & S). eexists. split; [exact E|].
    assert (M : minimal_bytes z l) by (split; [rewrite be_value_be2z; exact V|exact S]).
    unfold bytes_to_integer_full. rewrite from_bytes_value.
    destruct e; cbn [value_of]; rewrite ?rev_involutive; (split; [exact M|apply M]).
  - change (integer_to_bytes_full z None e false) with (to_bytes z (width z) e false).
    apply to_bytes_overflow; [pose proof (width_pos z); lia|lia].
Qed.
(** Bytes to integer to bytes drops the leading zero bytes, exactly. *)
Theorem C05_leading_zeros_dropped : forall b, integer_to_bytes (bytes_to_integer b) = Ok (shortest b).
Proof. intros b. rewrite bytes_to_integer_be2z. apply integer_to_bytes_be2z. Qed.
Theorem C05_roundtrip_iff : forall b, integer_to_bytes (bytes_to_integer b) = Ok b <-> first_byte b <> x00 \/ b = [x00].
Proof.
  intros b. rewrite C05_leading_zeros_dropped. split.
  - intros H. assert (E : shortest b = b) by congruence. destruct b as [|x [|y r]].
    + discriminate.
    + destruct (Byte.eqb x x00) eqn:X; [apply byte_eqb_spec in X; right; congruence|].
      left. cbn [first_byte]. intros ->. discriminate.
    + left. apply shortest_length_eq; [cbn; lia|congruence].
  - intros [H| ->]; [rewrite shortest_id by exact H|]; reflexivity.
Qed.
Example C05_example : integer_to_bytes 0 = Ok [x00] /\ integer_to_bytes 256 = Ok [x01; x00] /\
  integer_to_bytes_full 258 (Some 4) Little false = Ok [x02; x01; x00; x00] /\
  integer_to_bytes_n 256 1 = Raise (Builtin OverflowError) /\
  integer_to_bytes (bytes_to_integer [x00; x05]) = Ok [x05].
Proof. vm_compute. auto. Qed.

(** ** C06 *)
(** Two lower-case digits per byte. *)
Definition hex_pair (b : byte) : pystr :=
  let d v := nth (Z.to_nat v) (str "0123456789abcdef") 0%N in [d (byte_value b / 16); d (byte_value b mod 16)].
Definition hex_text (b : bytes) : pystr := flat_map hex_pair b.
Lemma hexdigit_table v : (v < 16)%N -> hexdigit v = nth (N.to_nat v) (str "0123456789abcdef") 0%N.
Proof.
  intros H. assert (F : forallb (fun k => N.eqb (hexdigit (N.of_nat k)) (nth k (str "0123456789abcdef") 0%N)) (seq 0 16) = true) by reflexivity.
  rewrite forallb_forall in F. specialize (F (N.to_nat v)). rewrite in_seq in F. specialize (F ltac:(lia)). rewrite N2Nat.id in F. apply N.eqb_eq, F.
Qed.
Lemma tohex_text b : tohex b = hex_text b.
Proof.
  unfold tohex, hex_text. rewrite !flat_map_concat_map. f_equal. apply map_ext. intros x. unfold hex_pair, byte_value.
  pose proof (Byte.to_N_bounded x). rewrite !hexdigit_table by lia. repeat f_equal; lia.
Qed.
Theorem C06_bytes_to_string : forall b, bytes_to_string (PBytes b) = Ok (hex_text b).
Proof. intros b. rewrite bytes_to_string_bytes, tohex_text. reflexivity. Qed.
Theorem C06_roundtrip : forall b, exists s, bytes_to_string (PBytes b) = Ok s /\ get_bytes (PStr s) true = Ok b.
Proof. intros b. exists (tohex b). split; [apply bytes_to_string_bytes|apply get_bytes_tohex]. Qed.
(** A hex string (pairs of digits of either case, white space between them) is left alone ... *)
Inductive hex_string : pystr -> bytes -> Prop :=
  | hex_end : hex_string [] []
  | hex_space : forall c s b, In c [9; 10; 11; 12; 13; 32]%N -> hex_string s b -> hex_string (c :: s) b
  | hex_byte : forall c d h l s b x, hexval c = Some h -> hexval d = Some l ->
      byte_value x = Z.of_N (16 * h + l) -> hex_string s b -> hex_string (c :: d :: s) (x :: b).
Lemma is_space_in c : is_space c = true <-> In c [9; 10; 11; 12; 13; 32]%N.
Proof. unfold is_space. cbn [In]. lia. Qed.
Lemma hexval_range c h : hexval c = Some h -> (h < 16)%N.
Proof.
  unfold hexval. destruct ((48 <=? c)%N && (c <=? 57)%N) eqn:E1; [intros H; injection H as <-; lia|].
  destruct ((97 <=? c)%N && (c <=? 102)%N) eqn:E2; [intros H; injection H as <-; lia|].
  destruct ((65 <=? c)%N && (c <=? 70)%N) eqn:E3; [intros H; injection H as <-; lia|discriminate].
Qed.
Lemma hexval_not_space c h : hexval c = Some h -> is_space c = false.
Proof.
  unfold hexval, is_space. destruct ((48 <=? c)%N && (c <=? 57)%N) eqn:E1; [intros _; lia|].
  destruct ((97 <=? c)%N && (c <=? 102)%N) eqn:E2; [intros _; lia|].
  destruct ((65 <=? c)%N && (c <=? 70)%N) eqn:E3; [intros _; lia|discriminate].
Qed.
Lemma fromhex_iff s b : fromhex s = Some b <-> hex_string s b.
Proof.
  split.
  - remember (List.length s) as n eqn:Hn. revert s Hn b. induction n as [n IH] using lt_wf_ind. intros s -> b.
    destruct s as [|c s]; cbn [fromhex]; [intros H; injection H as <-; constructor|].
    destruct (is_space c) eqn:Sp.
    + intros H. apply hex_space; [apply is_space_in, Sp|]. apply (IH (List.length s)); [cbn; lia|reflexivity|exact H].
    + destruct (hexval c) as [h|] eqn:Ec; [|discriminate]. destruct s as [|d s]; [discriminate|].
      destruct (hexval d) as [l|] eqn:Ed; [|discriminate]. destruct (fromhex s) as [r|] eqn:Er; [|discriminate].
      intros H. injection H as <-. apply (hex_byte c d h l); trivial.
      * pose proof (hexval_range _ _ Ec). pose proof (hexval_range _ _ Ed). change (byte_value (z2b (Z.of_N (16 * h + l)))) with (b2z (z2b (Z.of_N (16 * h + l)))).
        rewrite b2z_z2b. apply Z.mod_small. lia.
      * apply (IH (List.length s)); [cbn; lia|reflexivity|exact Er].
  - induction 1 as [|c s b Hc H IH|c d h l s b x Ec Ed Hx H IH]; [reflexivity| |].
    + cbn [fromhex]. apply is_space_in in Hc. rewrite Hc. exact IH.
    + cbn [fromhex]. rewrite (hexval_not_space c h Ec), Ec, Ed, IH. f_equal. f_equal. apply b2z_inj. change (b2z x) with (byte_value x). rewrite Hx, b2z_z2b.
      pose proof (hexval_range _ _ Ec). pose proof (hexval_range _ _ Ed). apply Z.mod_small. lia.
Qed.
Theorem C06_hex_string_kept : forall s b, hex_string s b -> bytes_to_string (PStr s) = Ok s /\ get_bytes (PStr s) true = Ok b.
Proof.
  intros s b H. apply fromhex_iff in H. split.
  - unfold bytes_to_string. cbn [truthy]. destruct s as [|c s]; [reflexivity|]. cbn [negb]. rewrite H. reflexivity.
  - rewrite get_bytes_hex, H. reflexivity.
Qed.
(** ... and any other string is not accepted by get_bytes. *)
Theorem C06_not_hex : forall s, (forall b, ~ hex_string s b) -> get_bytes (PStr s) true = Raise (Builtin ValueError).
Proof.
  intros s H. rewrite get_bytes_hex. destruct (fromhex s) as [b|] eqn:E; [|reflexivity]. apply fromhex_iff in E. destruct (H b E).
Qed.
(** bytes_to_string turns a string that is not hex into the hex of its UTF-8 bytes. *)
Theorem C06_other_string : forall s u, (forall b, ~ hex_string s b) -> utf8_encode s = Ok u ->
  bytes_to_string (PStr s) = Ok (hex_text u).
Proof.
  intros s u H U. destruct s as [|c s]; [destruct (H [] hex_end)|]. unfold bytes_to_string. cbn [truthy negb].
  destruct (fromhex (c :: s)) as [b|] eqn:E; [apply fromhex_iff in E; destruct (H b E)|]. rewrite U. cbn [bind]. rewrite tohex_text. reflexivity.
Qed.
(** get_bytes on everything else: an argument that is false (None, an empty string, 0, ...) is no bytes at all; bytes
    are returned as they are, whatever [unhexlify]; text with unhexlify=False is in PropAnyFuncs.v; any other object that is true is a TypeError.  bytes_to_string treats false and foreign objects alike. *)
Theorem C06_false_data : forall u arg, In arg [PNone; PBytes []; PStr []; POther false] ->
  get_bytes arg u = Ok [] /\ bytes_to_string arg = Ok [].
Proof. intros u arg H. cbn [In] in H. decompose [or] H; subst; try contradiction; split; reflexivity. Qed.
Theorem C06_bytes_kept : forall u b, get_bytes (PBytes b) u = Ok b.
Proof. intros u [|x b]; reflexivity. Qed.
Theorem C06_foreign_data : forall u, get_bytes (POther true) u = Raise (Builtin TypeError) /\
  bytes_to_string (POther true) = Raise (Builtin TypeError).
Proof. intros u. split; reflexivity. Qed.
Example C06_example : bytes_to_string (PBytes [x0a; xff]) = Ok (str "0aff") /\
  bytes_to_string (PStr (str "0AFF")) = Ok (str "0AFF") /\ get_bytes (PStr (str "0A fF")) true = Ok [x0a; xff] /\
  get_bytes (PStr (str "0AF")) true = Raise (Builtin ValueError) /\ bytes_to_string (PStr (str "xy")) = Ok (str "7879").
Proof. vm_compute. auto. Qed.

(** ** C45 *)
Theorem C45_involution : forall b, bytes_reverse (bytes_reverse b) = b /\ List.length (bytes_reverse b) = List.length b.
Proof. intros b. split; [apply bytes_reverse_invol|apply rev_length]. Qed.
Theorem C45_byte_orders : forall b,
  bytes_to_integer_full (bytes_reverse b) Little false = bytes_to_integer_full b Big false /\
  bytes_to_integer_full (bytes_reverse b) Big false = bytes_to_integer_full b Little false.
Proof. intros b. unfold bytes_to_integer_full, bytes_reverse. rewrite !from_bytes_value. cbn [value_of]. rewrite rev_involutive. auto. Qed.
Theorem C45_order_exchange : forall z w, integer_to_bytes_full z w Little false =
  match integer_to_bytes_full z w Big false with Ok l => Ok (bytes_reverse l) | Raise e => Raise e end.
Proof.
  intros z w. unfold integer_to_bytes_full. set (n := match w with Some _ => _ | None => _ end). unfold to_bytes.
  destruct (n <? 0); [reflexivity|]. cbv zeta. destruct ((0 <=? z) && _); reflexivity.
Qed.
Theorem C45_positions : forall b i, (i < List.length b)%nat -> nth i (bytes_reverse b) x00 = nth (List.length b - S i) b x00.
Proof. intros b i H. apply rev_nth, H. Qed.
