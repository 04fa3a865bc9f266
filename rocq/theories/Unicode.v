(** * Unicode: [unicodedata.normalize("NFC", s)], which bip38.py applies to every
    passphrase (bip38.py:137, 142, 207, 415, 533, 587).

    External code (CPython's unicodedata, which implements Unicode Standard
    Annex 15): full canonical decomposition, canonical ordering, canonical
    composition, with the tables of UnicodeTables.v.  CPython's shortcut for texts
    that are already normalised is left out. *)
From Verif Require Import Py UnicodeTables.
Local Open Scope N_scope.

(** ** Table lookup: binary tries (for speed of evaluation only) *)
Inductive trie (A : Type) : Type := Leaf | Node (l : trie A) (v : option A) (r : trie A).
Arguments Leaf {A}. Arguments Node {A}.
Fixpoint get {A} (p : positive) (t : trie A) : option A :=
  match t with
  | Leaf => None
  | Node l v r => match p with xH => v | xO q => get q l | xI q => get q r end
  end.
Fixpoint put {A} (p : positive) (x : A) (t : trie A) : trie A :=
  match p, t with
  | xH, Leaf => Node Leaf (Some x) Leaf
  | xH, Node l _ r => Node l (Some x) r
  | xO q, Leaf => Node (put q x Leaf) None Leaf
  | xO q, Node l v r => Node (put q x l) v r
  | xI q, Leaf => Node Leaf None (put q x Leaf)
  | xI q, Node l v r => Node l v (put q x r)
  end.
Definition find {A} (c : N) (t : trie A) : option A := get (N.succ_pos c) t.
Definition table {A} (l : list (N * A)) : trie A := fold_right (fun e t => put (N.succ_pos (fst e)) (snd e) t) Leaf l.

Definition decomposition_table : trie (list N) := Eval vm_compute in table decompositions.
Definition class_table : trie N := Eval vm_compute in table combining_classes.
(** Primary composites: the rows [(c, [a; b])] not excluded, by [a]. *)
Definition composites : list (N * (N * N)) :=
  flat_map (fun e => match e with
                     | (c, [a; b]) => if existsb (N.eqb c) composition_exclusions then [] else [(a, (b, c))]
                     | _ => [] end) decompositions.
Definition composite_table : trie (list (N * N)) := Eval vm_compute in
  fold_right (fun e t => let old := match find (fst e) t with Some l => l | None => [] end in
                         put (N.succ_pos (fst e)) (snd e :: old) t) Leaf composites.

(** Canonical combining class *)
Definition class (c : N) : N := match find c class_table with Some k => k | None => 0 end.

(** ** Hangul syllables (Unicode, section 3.12) *)
Definition is_syllable (c : N) : bool := (0xAC00 <=? c) && (c <=? 0xD7A3).
Definition syllable_parts (c : N) : list N :=
  let s := c - 0xAC00 in
  if s mod 28 =? 0 then [0x1100 + s / 588; 0x1161 + s mod 588 / 28]
  else [c - s mod 28; 0x11A7 + s mod 28].

(** ** Decomposition *)
Definition one_step (c : N) : option (list N) :=
  if is_syllable c then Some (syllable_parts c) else find c decomposition_table.
Fixpoint decompose (fuel : nat) (c : N) : list N :=
  match fuel with
  | O => [c]
  | S f => match one_step c with Some l => flat_map (decompose f) l | None => [c] end
  end.
(** No character needs more than four steps (UnicodeFacts.v: [full_step]). *)
Definition full (c : N) : list N := decompose 5 c.

(** ** Canonical ordering: each character is moved back behind those of a smaller
    class other than 0 that follow it *)
Fixpoint insert (c : N) (l : list N) : list N :=
  match l with
  | [] => [c]
  | d :: r => if (0 <? class d) && (class d <? class c) then d :: insert c r else c :: d :: r
  end.
Definition reorder (l : list N) : list N := fold_right insert [] l.
(** [unicodedata.normalize("NFD", s)] *)
Definition nfd (s : pystr) : pystr := reorder (flat_map full s).

(** ** Composition *)
Definition pair (a b : N) : option N :=
  if (0x1100 <=? a) && (a <=? 0x1112) && (0x1161 <=? b) && (b <=? 0x1175)
  then Some (0xAC00 + ((a - 0x1100) * 21 + (b - 0x1161)) * 28)
  else if is_syllable a && ((a - 0xAC00) mod 28 =? 0) && (0x11A8 <=? b) && (b <=? 0x11C2)
  then Some (a + (b - 0x11A7))
  else match find a composite_table with
       | Some l => match List.find (fun e => fst e =? b) l with Some e => Some (snd e) | None => None end
       | None => None
       end.
(** [s]: the last starter, composed so far; [acc]: the characters since then that
    did not compose; [last]: the class of the last of them. *)
Fixpoint compose_from (s : N) (acc : list N) (last : N) (l : list N) : list N :=
  match l with
  | [] => s :: acc
  | c :: r =>
    match (if match acc with [] => true | _ => last <? class c end then pair s c else None) with
    | Some p => compose_from p acc last r
    | None => if class c =? 0 then s :: acc ++ compose_from c [] 0 r
              else compose_from s (acc ++ [c]) (class c) r
    end
  end.
Fixpoint compose (l : list N) : list N :=
  match l with
  | [] => []
  | c :: r => if class c =? 0 then compose_from c [] 0 r else c :: compose r
  end.
(** [unicodedata.normalize("NFC", s)] *)
Definition nfc (s : pystr) : pystr := compose (nfd s).
