(** * Spec: the vocabulary in which the properties are stated.

    Nothing here refers to the model of the code (only to [Py] for the types
    of Python values): these are the textbook notions a reader of the English
    properties has in mind. *)
From Verif Require Import Py.

(** ** Positional notation *)

(** Value of a digit string, most significant digit first, in base [B]. *)
Fixpoint digits_value (B : Z) (ds : list Z) : Z :=
  match ds with
  | [] => 0
  | d :: r => d * B ^ Z.of_nat (List.length r) + digits_value B r
  end.

(** Value 0..255 of a byte. *)
Definition byte_value (b : byte) : Z := Z.of_N (Byte.to_N b).

(** The unsigned integer a byte string denotes, most significant byte first. *)
Definition be_value (l : bytes) : Z := digits_value 256 (List.map byte_value l).

(** A byte string without its leading zero bytes. *)
Fixpoint strip_zeros (l : bytes) : bytes :=
  match l with
  | b :: r => if Byte.eqb b x00 then strip_zeros r else l
  | [] => []
  end.

(** The shortest non-empty byte string with the same value. *)
Definition shortest (l : bytes) : bytes :=
  match strip_zeros l with [] => [x00] | s => s end.

(** First byte, 0 for the empty string. *)
Definition first_byte (l : bytes) : byte := match l with [] => x00 | b :: _ => b end.

(** ** Exclusive or *)
Definition byte_xor (a b : byte) : byte :=
  match Byte.of_N (N.lxor (Byte.to_N a) (Byte.to_N b)) with Some c => c | None => x00 end.
(** Bytewise exclusive or of two strings of the same length. *)
Fixpoint xor (a b : bytes) : bytes :=
  match a, b with
  | x :: a', y :: b' => byte_xor x y :: xor a' b'
  | _, _ => []
  end.

(** ** Alphabets *)
(** At least two letters, all different, all ASCII. *)
Definition alphabet_ok (A : pystr) : Prop :=
  (2 <= List.length A)%nat /\ NoDup A /\ Forall (fun c => (c < 128)%N) A.
(** All characters of [s] are letters of [A]. *)
Definition over (A : pystr) (s : pystr) : Prop := Forall (fun c => In c A) s.
Definition is_ascii (s : pystr) : Prop := Forall (fun c => (c < 128)%N) s.

(** [l] with zero bytes in front, up to [n] bytes. *)
Definition pad_left (n : nat) (l : bytes) : bytes := repeat x00 (n - List.length l) ++ l.

(** ** Base-L text *)
(** No leading zero digit, all digits below the base. *)
Definition canonical (B : Z) (ds : list Z) : Prop :=
  Forall (fun d => 0 <= d < B) ds /\ match ds with [] => True | d :: _ => d <> 0 end.
(** The letter for a digit. *)
Definition letter (A : pystr) (d : Z) : N := nth (Z.to_nat d) A 0%N.
(** [s] is the text of the byte string [d] over the alphabet [A]: one first
    letter per leading zero byte, then the digits of the value of the rest in
    base [length A], most significant first. *)
Definition base_text (A : pystr) (d : bytes) (s : pystr) : Prop :=
  exists k body ds,
    d = repeat x00 k ++ body /\ strip_zeros body = body /\
    canonical (zlen A) ds /\ digits_value (zlen A) ds = be_value body /\
    s = repeat (letter A 0) k ++ List.map (letter A) ds.

(** The alphabet of Bitcoin's Base58. *)
Definition bitcoin_alphabet : pystr :=
  str "123456789ABCDEFGHJKLMNPQRSTUVWXYZabcdefghijkmnopqrstuvwxyz".
(** Base58 text in the Bitcoin alphabet. *)
Definition base58_text (d : bytes) (s : pystr) : Prop := base_text bitcoin_alphabet d s.

(** ** Error texts *)
(** "<message>, (expected: <expected> | got: '<got>')" *)
Definition error_text (message : string) (expected got : pystr) : pystr :=
  str message ++ str ", (expected: " ++ expected ++ str " | got: '" ++ got ++ str "')".
(** 'a', 'b', 'c' *)
Fixpoint quoted_list (items : list pystr) : pystr :=
  match items with
  | [] => []
  | [x] => str "'" ++ x ++ str "'"
  | x :: r => str "'" ++ x ++ str "', " ++ quoted_list r
  end.
