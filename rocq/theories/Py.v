(** * Py: the fragment of the Python 3.9-3.13 run time used by /repo/bip38.

    Nothing in this file models a file of the repository: it fixes the
    representation of Python values (bytes, str, int) and of the built-in
    operations that the repository calls (slicing, int.to_bytes,
    int.from_bytes, bytes.fromhex, bytes.hex, str.encode, bytes.lstrip,
    bytes.find, exceptions).  These are trusted readings of the Python
    language reference, see DESIGN.md. *)

From Coq Require Export ZArith NArith List Bool String Ascii.
From Coq Require Export Init.Byte Strings.Byte.
From Coq Require Import DecimalString.
Export ListNotations.
#[global] Open Scope Z_scope.
#[global] Open Scope list_scope.

(** [bytes]: an immutable sequence of values 0..255. *)
Definition bytes := list byte.
(** [str]: a sequence of Unicode code points. *)
Definition pystr := list N.

(** Python string literal consisting of ASCII characters. *)
Definition str (s : string) : pystr :=
  List.map (fun a => N_of_ascii a) (list_ascii_of_string s).

(** ** Exceptions *)

(** The exception classes of /repo/bip38/exceptions.py:12-62; each is a
    direct subclass of [CError] (class Error). *)
Inductive lib_class :=
  | CError | CCryptocurrencyError | CNetworkError | CSecp256k1Error
  | CAddressError | CWIFError | CPassphraseError.

(** The built-in exception classes that the modelled code can raise.
    [UnicodeEncodeError] is a subclass of [ValueError].  [NonTermination]
    is not an exception: it marks a loop that never ends. *)
Inductive py_class :=
  | ValueError | UnicodeEncodeError | TypeError | OverflowError
  | AssertionError | KeyError | AttributeError | IndexError
  | ZeroDivisionError | StructError | NonTermination.

(** A raised exception.  For the library's own classes the text str(e) is kept,
    as rendered by Error.__str__ (Exceptions.v); for built-in classes only the
    class. *)
Inductive exn :=
  | Lib (c : lib_class) (text : pystr)
  | Builtin (c : py_class).
#[global] Arguments Lib c text%string_scope.
Coercion str : string >-> pystr.

Inductive res (A : Type) : Type :=
  | Ok (a : A)
  | Raise (e : exn).
Arguments Ok {A} a.
Arguments Raise {A} e.

Definition bind {A B} (x : res A) (f : A -> res B) : res B :=
  match x with Ok a => f a | Raise e => Raise e end.
Notation "'let*' x ':=' e 'in' k" := (bind e (fun x => k))
  (at level 200, x pattern, e at level 100, k at level 200, right associativity).

(** [except ValueError] also catches [UnicodeEncodeError]. *)
Definition is_value_error (e : exn) : bool :=
  match e with
  | Builtin ValueError | Builtin UnicodeEncodeError => true
  | _ => false
  end.

(** [except Secp256k1Error]. *)
Definition is_secp256k1_error (e : exn) : bool :=
  match e with Lib CSecp256k1Error _ => true | _ => false end.

(** A dynamically typed argument, for the parameters annotated
    [Union[str, bytes]] or [Optional[Union[str, bytes]]]. [POther t] is any
    object of another type with truth value [t]. *)
Inductive pyarg :=
  | PNone
  | PBytes (b : bytes)
  | PStr (s : pystr)
  | POther (truth : bool).

(** Python truth value of an argument. *)
Definition truthy (d : pyarg) : bool :=
  match d with
  | PNone => false
  | PBytes b => match b with [] => false | _ => true end
  | PStr s => match s with [] => false | _ => true end
  | POther t => t
  end.

(** Truth value of an optional int ([None] and [0] are false). *)
Definition truthy_int (o : option Z) : bool :=
  match o with None => false | Some z => negb (z =? 0) end.

Definition is_none {A} (o : option A) : bool :=
  match o with None => true | Some _ => false end.

(** ** Equality tests *)
Fixpoint list_eqb {A} (eqb : A -> A -> bool) (a b : list A) : bool :=
  match a, b with
  | [], [] => true
  | x :: a', y :: b' => eqb x y && list_eqb eqb a' b'
  | _, _ => false
  end.
Definition bytes_eqb : bytes -> bytes -> bool := list_eqb Byte.eqb.
Definition str_eqb : pystr -> pystr -> bool := list_eqb N.eqb.

(** [x in list_of_str] *)
Definition str_in (s : pystr) (l : list pystr) : bool := existsb (str_eqb s) l.
(** [x in list_of_int] *)
Definition int_in (z : Z) (l : list Z) : bool := existsb (Z.eqb z) l.

(** ** Slicing (non-negative literals, and the two negative forms used) *)
Definition upto {A} (n : nat) (l : list A) : list A := firstn n l.          (* l[:n]  *)
Definition from {A} (n : nat) (l : list A) : list A := skipn n l.           (* l[n:]  *)
Definition slice {A} (i j : nat) (l : list A) : list A := firstn (j - i) (skipn i l). (* l[i:j] *)
Definition upto_neg {A} (k : nat) (l : list A) : list A := firstn (List.length l - k) l. (* l[:-k], k > 0 *)
Definition from_neg {A} (k : nat) (l : list A) : list A := skipn (List.length l - k) l.  (* l[-k:], k > 0 *)

Definition zlen {A} (l : list A) : Z := Z.of_nat (List.length l).

(** [l.startswith(p)] *)
Definition startswith (p l : bytes) : bool := bytes_eqb (firstn (List.length p) l) p.

(** ** Integers and bytes *)
Definition b2z (b : byte) : Z := Z.of_N (Byte.to_N b).
(** The byte with value [z mod 256]. *)
Definition z2b (z : Z) : byte :=
  match Byte.of_N (Z.to_N (z mod 256)) with Some b => b | None => x00 end.

Inductive endian := Little | Big.

(** Unsigned big-endian value. *)
Definition be2z (l : bytes) : Z := fold_left (fun acc b => acc * 256 + b2z b) l 0.

(** [int.from_bytes(data, byteorder, signed=signed)] *)
Definition from_bytes (data : bytes) (e : endian) (signed : bool) : Z :=
  let l := match e with Big => data | Little => rev data end in
  let u := be2z l in
  if signed && (Z.shiftl 1 (8 * zlen data - 1) <=? u) && (0 <? zlen data)
  then u - Z.shiftl 1 (8 * zlen data) else u.

(** The [n] low-order bytes of [z], most significant first. *)
Fixpoint z2be (n : nat) (z : Z) : bytes :=
  match n with
  | O => []
  | S m => z2be m (z / 256) ++ [z2b z]
  end.

(** [data.to_bytes(n, byteorder, signed=signed)] *)
Definition to_bytes (data : Z) (n : Z) (e : endian) (signed : bool) : res bytes :=
  if n <? 0 then Raise (Builtin ValueError)
  else
    let fits :=
      if signed then
        if 0 <? n
        then (- Z.shiftl 1 (8 * n - 1) <=? data) && (data <? Z.shiftl 1 (8 * n - 1))
        else data =? 0
      else (0 <=? data) && (data <? Z.shiftl 1 (8 * n)) in
    if fits then
      let l := z2be (Z.to_nat n) data in
      Ok (match e with Big => l | Little => rev l end)
    else Raise (Builtin OverflowError).

(** [data.bit_length()] for [data > 0]. *)
Definition bit_length (data : Z) : Z := Z.log2 data + 1.

(** ** Hexadecimal text *)
Definition hexval (c : N) : option N :=
  if (48 <=? c)%N && (c <=? 57)%N then Some (c - 48)%N
  else if (97 <=? c)%N && (c <=? 102)%N then Some (c - 87)%N
  else if (65 <=? c)%N && (c <=? 70)%N then Some (c - 55)%N
  else None.

(** ASCII white space skipped by bytes.fromhex. *)
Definition is_space (c : N) : bool :=
  ((9 <=? c) && (c <=? 13) || (c =? 32))%N.

(** [bytes.fromhex(str)]; [None] stands for ValueError. *)
Fixpoint fromhex (s : pystr) : option bytes :=
  match s with
  | [] => Some []
  | c :: r =>
      if is_space c then fromhex r
      else match hexval c, r with
           | Some h, d :: r' =>
               match hexval d, fromhex r' with
               | Some l, Some rest => Some (z2b (Z.of_N (16 * h + l)) :: rest)
               | _, _ => None
               end
           | _, _ => None
           end
  end.

Definition hexdigit (v : N) : N := (if v <? 10 then 48 + v else 87 + v)%N.
(** [data.hex()] *)
Definition tohex (b : bytes) : pystr :=
  flat_map (fun x => [hexdigit (Byte.to_N x / 16); hexdigit (Byte.to_N x mod 16)]%N) b.

(** ** Text encodings *)
Definition n2b (n : N) : byte := match Byte.of_N n with Some b => b | None => x00 end.

(** UTF-8 encoding of one code point; [None] for surrogates (and values that
    are not code points). *)
Definition utf8_char (c : N) : option bytes :=
  (if c <? 0x80 then Some [n2b c]
   else if c <? 0x800 then Some [n2b (0xC0 + c / 64); n2b (0x80 + c mod 64)]
   else if c <? 0x10000 then
     if (0xD800 <=? c) && (c <? 0xE000) then None
     else Some [n2b (0xE0 + c / 4096); n2b (0x80 + c / 64 mod 64); n2b (0x80 + c mod 64)]
   else if c <? 0x110000 then
     Some [n2b (0xF0 + c / 262144); n2b (0x80 + c / 4096 mod 64);
           n2b (0x80 + c / 64 mod 64); n2b (0x80 + c mod 64)]
   else None)%N.

Fixpoint utf8_opt (s : pystr) : option bytes :=
  match s with
  | [] => Some []
  | c :: r => match utf8_char c, utf8_opt r with
              | Some a, Some b => Some (a ++ b)
              | _, _ => None
              end
  end.

(** [bytes(s, 'utf-8')], [s.encode('utf-8')] *)
Definition utf8_encode (s : pystr) : res bytes :=
  match utf8_opt s with Some b => Ok b | None => Raise (Builtin UnicodeEncodeError) end.

(** [bytes(s, 'ascii')] *)
Definition ascii_encode (s : pystr) : res bytes :=
  if forallb (fun c => (c <? 128)%N) s then Ok (List.map n2b s)
  else Raise (Builtin UnicodeEncodeError).

(** [data.lstrip(b"\0")] *)
Fixpoint lstrip0 (l : bytes) : bytes :=
  match l with
  | x00 :: r => lstrip0 r
  | _ => l
  end.

(** [data.find(c)] for an integer [c] in 0..255: index of the first occurrence, or -1. *)
Fixpoint find_from (i : Z) (c : byte) (l : bytes) : Z :=
  match l with
  | [] => -1
  | x :: r => if Byte.eqb x c then i else find_from (i + 1) c r
  end.
Definition bytes_find (l : bytes) (c : byte) : Z := find_from 0 c l.

(** ** str() of ints and bytes, as used in f-strings *)
(** [str(z)]: decimal.  (Python 3.11+ refuses ints of more than 4300 digits.) *)
Definition dec (z : Z) : pystr := str (NilZero.string_of_int (Z.to_int z)).
(** [str(b)] = [repr(b)] of a bytes object *)
Definition byte_repr (quote : byte) (b : byte) : pystr :=
  let n := Byte.to_N b in
  if Byte.eqb b quote || Byte.eqb b x5c then [92; n]%N
  else if Byte.eqb b x09 then str "\t"
  else if Byte.eqb b x0a then str "\n"
  else if Byte.eqb b x0d then str "\r"
  else if (n <? 32)%N || (127 <=? n)%N then str "\x" ++ tohex [b]
  else [n].
Definition bytes_repr (l : bytes) : pystr :=
  let quote := if existsb (Byte.eqb x27) l && negb (existsb (Byte.eqb x22) l) then x22 else x27 in
  str "b" ++ [Byte.to_N quote] ++ flat_map (byte_repr quote) l ++ [Byte.to_N quote].

(** Look-up in a dict with string keys. *)
Fixpoint dict_get {A} (k : pystr) (d : list (pystr * A)) : option A :=
  match d with
  | [] => None
  | (k', v) :: r => if str_eqb k k' then Some v else dict_get k r
  end.
(** Rendered texts are kept folded by the tactics (no effect on the kernel). *)
#[global] Opaque dec bytes_repr.
