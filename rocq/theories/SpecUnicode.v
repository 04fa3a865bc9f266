(** * SpecUnicode: canonical equivalence (The Unicode Standard, sections 3.7,
    3.11 and 3.12).  Nothing here refers to the model. *)
From Verif Require Import Py.
From Verif Require Export UnicodeTables.
Local Open Scope N_scope.

(** The canonical combining class of a character, 0 if the table has none. *)
Definition combining_class (c k : N) : Prop :=
  In (c, k) combining_classes \/ (k = 0 /\ forall k', ~ In (c, k') combining_classes).

(** One step of canonical decomposition: a row of the table, or a Hangul
    syllable: leading consonant 0..18 and vowel 0..20, or such a syllable and a
    trailing consonant 1..27. *)
Definition hangul_syllable (l v t : N) : N := 0xAC00 + (l * 21 + v) * 28 + t.
Inductive decomposes : N -> list N -> Prop :=
  | decomposes_table : forall c l, In (c, l) decompositions -> decomposes c l
  | decomposes_lv : forall l v, l < 19 -> v < 21 ->
      decomposes (hangul_syllable l v 0) [0x1100 + l; 0x1161 + v]
  | decomposes_lvt : forall l v t, l < 19 -> v < 21 -> 0 < t < 28 ->
      decomposes (hangul_syllable l v t) [hangul_syllable l v 0; 0x11A7 + t].

(** Two texts are canonically equivalent if one comes from the other by
    decomposing characters, undoing that, and swapping neighbours of different
    combining classes other than 0. *)
Inductive canonically_equivalent : pystr -> pystr -> Prop :=
  | ce_refl : forall s, canonically_equivalent s s
  | ce_sym : forall s t, canonically_equivalent s t -> canonically_equivalent t s
  | ce_trans : forall s t u, canonically_equivalent s t -> canonically_equivalent t u -> canonically_equivalent s u
  | ce_decompose : forall c l a b, decomposes c l -> canonically_equivalent (a ++ [c] ++ b) (a ++ l ++ b)
  | ce_swap : forall c d k k' a b, combining_class c k -> combining_class d k' -> k <> 0 -> k' <> 0 -> k <> k' ->
      canonically_equivalent (a ++ [c; d] ++ b) (a ++ [d; c] ++ b).

(** Surrogate code points, which UTF-8 cannot encode *)
Definition surrogate (c : N) : Prop := 0xD800 <= c <= 0xDFFF.

(** A primary composite: a character of two parts that is not excluded from
    composition. *)
Definition primary_composite (p a b : N) : Prop := decomposes p [a; b] /\ ~ In p composition_exclusions.
(** A starter and a later character are blocked from each other by a character
    between them of class 0, or of a class at least that of the later one. *)
Definition blocks (c b : N) : Prop := exists k k', combining_class c k /\ combining_class b k' /\ (k = 0 \/ k' <= k).
(** A composed text: every character is a primary composite or cannot be
    decomposed, and no starter and later character form a primary composite,
    unless they are blocked. *)
Definition composed (s : pystr) : Prop :=
  (forall c, In c s -> (exists a b, primary_composite c a b) \/ forall l, ~ decomposes c l) /\
  forall x a m b y p, s = x ++ a :: m ++ b :: y -> combining_class a 0 -> (forall c, In c m -> ~ blocks c b) ->
    ~ primary_composite p a b.
