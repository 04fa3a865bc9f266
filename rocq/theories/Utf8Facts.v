(** * Utf8Facts: bytes.decode("utf-8") is the inverse of str.encode("utf-8") *)
From Coq Require Import Lia ZifyN ZifyBool.
From Verif Require Import Py PyFacts AnyArgs AnyFuncs.

Lemma n2b_to_N b : n2b (Byte.to_N b) = b.
Proof. unfold n2b. rewrite Byte.of_to_N. reflexivity. Qed.
Lemma byte_ext a n : Byte.to_N a = n -> a = n2b n.
Proof. intros <-. symmetry. apply n2b_to_N. Qed.
Lemma to_N_lt b : (Byte.to_N b < 256)%N.
Proof. destruct b; reflexivity. Qed.
Lemma eqb_N a b : Byte.eqb a b = (Byte.to_N a =? Byte.to_N b)%N.
Proof.
  destruct (Byte.eqb a b) eqn:E.
  - apply Byte.byte_dec_bl in E. subst. symmetry. apply N.eqb_refl.
  - symmetry. apply N.eqb_neq. intros H. apply byte_ext in H. rewrite n2b_to_N in H. subst.
    rewrite (Byte.byte_dec_lb eq_refl) in E. discriminate.
Qed.



Lemma some_inj {A} (x y : A) : Some x = Some y -> y = x.
Proof. intros [= ->]. reflexivity. Qed.
Lemma decode_step c r a s : utf8_char c = Some a -> utf8_decode r = Some s -> utf8_decode (a ++ r) = Some (c :: s).
Proof.
  unfold utf8_char. intros H R.
  destruct (N.ltb_spec c 0x80).
  { apply some_inj in H. subst a. cbn [app utf8_decode]. rewrite R. unfold between. rewrite n2b_spec by lia. cbn [Byte.to_N].
    replace ((0 <=? c)%N && (c <=? 127)%N) with true by lia. reflexivity. }
  destruct (N.ltb_spec c 0x800).
  { apply some_inj in H. subst a. cbn [app utf8_decode]. rewrite R. unfold cont, between, low6.
    pose proof (N.div_mod c 64 ltac:(discriminate)). pose proof (N.mod_lt c 64 ltac:(discriminate)).
    set (q := (c / 64)%N) in *. set (m := (c mod 64)%N) in *. clearbody q m. rewrite !n2b_spec by lia. cbn [Byte.to_N].
    replace ((0 <=? 192 + q)%N && (192 + q <=? 127)%N) with false by lia.
    replace ((194 <=? 192 + q)%N && (192 + q <=? 223)%N) with true by lia.
    replace ((128 <=? 128 + m)%N && (128 + m <=? 191)%N) with true by lia.
    do 2 f_equal. lia. }
  destruct (N.ltb_spec c 0x10000).
  { destruct ((0xD800 <=? c)%N && (c <? 0xE000)%N) eqn:SUR; [discriminate|].
    apply some_inj in H. subst a. cbn [app utf8_decode]. rewrite R. unfold cont, between, low6. rewrite !eqb_N.
    change 4096%N with (64 * 64)%N. rewrite <- N.div_div by discriminate.
    pose proof (N.div_mod c 64 ltac:(discriminate)). pose proof (N.mod_lt c 64 ltac:(discriminate)).
    set (q := (c / 64)%N) in *. set (m := (c mod 64)%N) in *. clearbody q m.
    pose proof (N.div_mod q 64 ltac:(discriminate)). pose proof (N.mod_lt q 64 ltac:(discriminate)).
    set (p := (q / 64)%N) in *. set (k := (q mod 64)%N) in *. clearbody p k. rewrite !n2b_spec by lia. cbn [Byte.to_N].
    replace ((0 <=? 224 + p)%N && (224 + p <=? 127)%N) with false by lia.
    replace ((194 <=? 224 + p)%N && (224 + p <=? 223)%N) with false by lia.
    replace ((224 <=? 224 + p)%N && (224 + p <=? 239)%N) with true by lia.
    replace ((Byte.to_N (if (224 + p =? 224)%N then xa0 else x80) <=? 128 + k)%N && (128 + k <=? Byte.to_N (if (224 + p =? 237)%N then x9f else xbf))%N) with true
      by (destruct (N.eqb_spec (224 + p) 224), (N.eqb_spec (224 + p) 237); cbn [Byte.to_N]; lia).
    replace ((128 <=? 128 + m)%N && (128 + m <=? 191)%N) with true by lia. cbn [andb].
    do 2 f_equal. lia. }
  destruct (N.ltb_spec c 0x110000); [|discriminate].
  apply some_inj in H. subst a. cbn [app utf8_decode]. rewrite R. unfold cont, between, low6. rewrite !eqb_N.
  change 262144%N with (64 * 64 * 64)%N. change 4096%N with (64 * 64)%N. rewrite <- !N.div_div by discriminate.
  pose proof (N.div_mod c 64 ltac:(discriminate)). pose proof (N.mod_lt c 64 ltac:(discriminate)).
  set (q := (c / 64)%N) in *. set (m := (c mod 64)%N) in *. clearbody q m.
  pose proof (N.div_mod q 64 ltac:(discriminate)). pose proof (N.mod_lt q 64 ltac:(discriminate)).
  set (p := (q / 64)%N) in *. set (k := (q mod 64)%N) in *. clearbody p k.
  pose proof (N.div_mod p 64 ltac:(discriminate)). pose proof (N.mod_lt p 64 ltac:(discriminate)).
  set (p' := (p / 64)%N) in *. set (k' := (p mod 64)%N) in *. clearbody p' k'. rewrite !n2b_spec by lia. cbn [Byte.to_N].
  replace ((0 <=? 240 + p')%N && (240 + p' <=? 127)%N) with false by lia.
  replace ((194 <=? 240 + p')%N && (240 + p' <=? 223)%N) with false by lia.
  replace ((224 <=? 240 + p')%N && (240 + p' <=? 239)%N) with false by lia.
  replace ((240 <=? 240 + p')%N && (240 + p' <=? 244)%N) with true by lia.
  replace ((Byte.to_N (if (240 + p' =? 240)%N then x90 else x80) <=? 128 + k')%N && (128 + k' <=? Byte.to_N (if (240 + p' =? 244)%N then x8f else xbf))%N) with true
    by (destruct (N.eqb_spec (240 + p') 240), (N.eqb_spec (240 + p') 244); cbn [Byte.to_N]; lia).
  replace ((128 <=? 128 + k)%N && (128 + k <=? 191)%N) with true by lia.
  replace ((128 <=? 128 + m)%N && (128 + m <=? 191)%N) with true by lia. cbn [andb].
  do 2 f_equal. lia.
Qed.
Lemma decode_encode s : forall l, utf8_opt s = Some l -> utf8_decode l = Some s.
Proof.
  induction s as [|c s IH]; cbn [utf8_opt]; intros l H; [injection H as <-; reflexivity|].
  destruct (utf8_char c) as [a|] eqn:A; [|discriminate]. destruct (utf8_opt s) as [b|]; [|discriminate]. injection H as <-.
  apply decode_step; [exact A|]. apply IH. reflexivity.
Qed.

Lemma char_of n l : utf8_char n = Some l -> forall r s, utf8_opt s = Some r -> utf8_opt (n :: s) = Some (l ++ r).
Proof. intros H r s R. cbn [utf8_opt]. rewrite H, R. reflexivity. Qed.
Lemma split64 q m : (m < 64)%N -> ((q * 64 + m) / 64 = q /\ (q * 64 + m) mod 64 = m)%N.
Proof.
  intros H. split.
  - symmetry. apply (N.div_unique _ 64 q m); lia.
  - symmetry. apply (N.mod_unique _ 64 q m); lia.
Qed.
Lemma encode_decode_aux n : forall l, (List.length l <= n)%nat -> forall s, utf8_decode l = Some s -> utf8_opt s = Some l.
Proof.
  induction n as [|n IH]; intros l L s H.
  { destruct l; [|cbn in L; lia]. injection H as <-. reflexivity. }
  destruct l as [|a r]; [injection H as <-; reflexivity|]. cbn [utf8_decode] in H. cbn [List.length] in L.
  pose proof (to_N_lt a).
  destruct (between x00 x7f a) eqn:B1.
  { destruct (utf8_decode r) as [t|] eqn:R; [|discriminate]. injection H as <-. apply IH in R; [|lia].
    change (a :: r) with ([a] ++ r). apply char_of; [|exact R]. unfold between in B1. cbn [Byte.to_N] in B1. unfold utf8_char.
    destruct (N.ltb_spec (Byte.to_N a) 128); [rewrite n2b_to_N; reflexivity|lia]. }
  unfold cont, between, low6 in H, B1. rewrite ?eqb_N in H.
  destruct r as [|b r]; [discriminate|]. cbn [List.length] in L. cbn [Byte.to_N] in H, B1. pose proof (to_N_lt b).
  destruct ((194 <=? Byte.to_N a)%N && (Byte.to_N a <=? 223)%N) eqn:B2.
  { destruct ((128 <=? Byte.to_N b)%N && (Byte.to_N b <=? 191)%N) eqn:B3; [|discriminate].
    destruct (utf8_decode r) as [t|] eqn:R; [|discriminate]. injection H as <-. apply IH in R; [|lia].
    change (a :: b :: r) with ([a; b] ++ r). apply char_of; [|exact R]. unfold utf8_char.
    destruct (split64 (Byte.to_N a - 192) (Byte.to_N b - 128)) as [-> ->]; [lia|].
    set (z := ((Byte.to_N a - 192) * 64 + (Byte.to_N b - 128))%N).
    destruct (N.ltb_spec z 128); [lia|]. destruct (N.ltb_spec z 2048); [|lia].
    rewrite <- (byte_ext a (192 + (Byte.to_N a - 192))) by lia. rewrite <- (byte_ext b (128 + (Byte.to_N b - 128))) by lia. reflexivity. }
  destruct r as [|c r]; [discriminate|]. cbn [List.length] in L. pose proof (to_N_lt c).
  destruct ((224 <=? Byte.to_N a)%N && (Byte.to_N a <=? 239)%N) eqn:B3.
  { match type of H with (if ?b then _ else _) = _ => destruct b eqn:B4 end; [|discriminate].
    destruct (utf8_decode r) as [t|] eqn:R; [|discriminate]. injection H as <-. apply IH in R; [|lia].
    change (a :: b :: c :: r) with ([a; b; c] ++ r). apply char_of; [|exact R].
    assert (C : (128 <= Byte.to_N b <= 191 /\ 128 <= Byte.to_N c <= 191 /\ (Byte.to_N a = 224 -> 160 <= Byte.to_N b) /\ (Byte.to_N a = 237 -> Byte.to_N b <= 159))%N).
    { destruct (N.eqb_spec (Byte.to_N a) 224), (N.eqb_spec (Byte.to_N a) 237); cbn [Byte.to_N] in B4; lia. }
    clear B4. destruct C as (C1 & C2 & C3 & C4). unfold utf8_char.
    change 4096%N with (64 * 64)%N. rewrite <- N.div_div by discriminate.
    destruct (split64 ((Byte.to_N a - 224) * 64 + (Byte.to_N b - 128)) (Byte.to_N c - 128)) as [-> ->]; [lia|].
    destruct (split64 (Byte.to_N a - 224) (Byte.to_N b - 128)) as [-> ->]; [lia|].
    set (z := (((Byte.to_N a - 224) * 64 + (Byte.to_N b - 128)) * 64 + (Byte.to_N c - 128))%N).
    destruct (N.ltb_spec z 128); [lia|]. destruct (N.ltb_spec z 2048); [lia|]. destruct (N.ltb_spec z 65536); [|lia].
    replace ((55296 <=? z)%N && (z <? 57344)%N) with false by lia.
    rewrite <- (byte_ext a (224 + (Byte.to_N a - 224))) by lia. rewrite <- (byte_ext b (128 + (Byte.to_N b - 128))) by lia.
    rewrite <- (byte_ext c (128 + (Byte.to_N c - 128))) by lia. reflexivity. }
  destruct r as [|d r]; [discriminate|]. cbn [List.length] in L. pose proof (to_N_lt d).
  destruct ((240 <=? Byte.to_N a)%N && (Byte.to_N a <=? 244)%N) eqn:B4; [|discriminate].
  match type of H with (if ?b then _ else _) = _ => destruct b eqn:B5 end; [|discriminate].
  destruct (utf8_decode r) as [t|] eqn:R; [|discriminate]. injection H as <-. apply IH in R; [|lia].
  change (a :: b :: c :: d :: r) with ([a; b; c; d] ++ r). apply char_of; [|exact R].
  assert (C : (128 <= Byte.to_N b <= 191 /\ 128 <= Byte.to_N c <= 191 /\ 128 <= Byte.to_N d <= 191 /\ (Byte.to_N a = 240 -> 144 <= Byte.to_N b) /\ (Byte.to_N a = 244 -> Byte.to_N b <= 143))%N).
  { destruct (N.eqb_spec (Byte.to_N a) 240), (N.eqb_spec (Byte.to_N a) 244); cbn [Byte.to_N] in B5; lia. }
  clear B5. destruct C as (C1 & C2 & C3 & C4 & C5). unfold utf8_char.
  change 262144%N with (64 * 64 * 64)%N. change 4096%N with (64 * 64)%N. rewrite <- !N.div_div by discriminate.
  destruct (split64 (((Byte.to_N a - 240) * 64 + (Byte.to_N b - 128)) * 64 + (Byte.to_N c - 128)) (Byte.to_N d - 128)) as [-> ->]; [lia|].
  destruct (split64 ((Byte.to_N a - 240) * 64 + (Byte.to_N b - 128)) (Byte.to_N c - 128)) as [-> ->]; [lia|].
  destruct (split64 (Byte.to_N a - 240) (Byte.to_N b - 128)) as [-> ->]; [lia|].
  set (z := ((((Byte.to_N a - 240) * 64 + (Byte.to_N b - 128)) * 64 + (Byte.to_N c - 128)) * 64 + (Byte.to_N d - 128))%N).
  destruct (N.ltb_spec z 128); [lia|]. destruct (N.ltb_spec z 2048); [lia|]. destruct (N.ltb_spec z 65536); [lia|]. destruct (N.ltb_spec z 1114112); [|lia].
  rewrite <- (byte_ext a (240 + (Byte.to_N a - 240))) by lia. rewrite <- (byte_ext b (128 + (Byte.to_N b - 128))) by lia.
  rewrite <- (byte_ext c (128 + (Byte.to_N c - 128))) by lia. rewrite <- (byte_ext d (128 + (Byte.to_N d - 128))) by lia. reflexivity.
Qed.
Lemma utf8_decode_iff l s : utf8_decode l = Some s <-> utf8_encode s = Ok l.
Proof.
  unfold utf8_encode. split.
  - intros H. rewrite (encode_decode_aux _ l (le_n _) s H). reflexivity.
  - destruct (utf8_opt s) as [b|] eqn:E; [|discriminate]. intros [= ->]. apply decode_encode, E.
Qed.
