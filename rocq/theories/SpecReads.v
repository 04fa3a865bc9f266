(** * SpecReads: what the (lenient) Base58 reader of libs/base58.py reads.

    [Spec.base_text] says which text belongs to a byte string.  Reading is more
    permissive than that: this file says, without the code, which byte string a
    given text is read as, for every text. *)
From Verif Require Import Py Prims Spec SpecBip38.

(** The index of a character in an alphabet. *)
Fixpoint position (c : N) (A : pystr) : option nat :=
  match A with
  | [] => None
  | x :: r => if N.eqb c x then Some 0%nat else option_map S (position c r)
  end.
(** The digit a character counts for: its index, and -1 if it is no letter. *)
Definition digit_of (A : pystr) (c : N) : Z :=
  match position c A with Some i => Z.of_nat i | None => -1 end.
(** How many of the non-empty prefixes of a digit string have the value 0 (for
    a text over the alphabet: the number of leading first letters). *)
Definition zero_prefix_count (B : Z) (ds : list Z) : nat :=
  List.length (filter (fun n => digits_value B (firstn n ds) =? 0) (seq 1 (List.length ds))).

(** [s] is read as [d]: one zero byte per prefix of value 0, then the bytes of
    the value of all digits (none if that is not positive), for ASCII text. *)
Definition base_reads (A : pystr) (s : pystr) (d : bytes) : Prop :=
  is_ascii s /\
  exists body, strip_zeros body = body /\
    be_value body = Z.max 0 (digits_value (zlen A) (List.map (digit_of A) s)) /\
    d = repeat x00 (zero_prefix_count (zlen A) (List.map (digit_of A) s)) ++ body.
(** The same for Bitcoin's alphabet, *)
Definition base58_reads (s : pystr) (d : bytes) : Prop := base_reads bitcoin_alphabet s d.
(** and with a correct checksum of four bytes behind the payload [d]. *)
Definition base58check_reads (P : prims) (s : pystr) (d : bytes) : Prop := base58_reads s (d ++ checksum4 P d).
