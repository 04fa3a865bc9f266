(** * LotText: lot and sequence numbers given as text.

    intermediate_code converts its lot and sequence arguments with int(...)
    (bip38.py:131), so besides the integers and None of its signature it takes text.
    [Bip38.intermediate_code] models the declared types; this file models the same
    lines, bip38.py:122-158, with text allowed.  Simplification: other types that
    int() accepts (float, bytes, bool) are not modelled. *)
From Verif Require Import Py Prims Const Exceptions Utils Crypto Base58 Secp256k1 Bip38.

Inductive numarg := NNone | NInt (z : Z) | NText (s : pystr).

(** Python's bool(lot), lot is None, f"{lot}" *)
Definition truthy_num (a : numarg) : bool :=
  match a with NNone => false | NInt z => negb (z =? 0) | NText [] => false | NText _ => true end.
Definition num_none (a : numarg) : bool := match a with NNone => true | _ => false end.
Definition num_text (a : numarg) : pystr := match a with NNone => str "None" | NInt z => dec z | NText s => s end.

(** Python's int(text), base 10 (CPython, PyLong_FromUnicodeObject and
    PyLong_FromString): white space around, a sign, digits with single underscores
    between them.  A text with non-ASCII characters is first rewritten to ASCII
    (Unicode digits and spaces become ASCII ones): [rewritten], an arbitrary function
    here.  None stands for ValueError. *)
Fixpoint int_digits (s : pystr) (value : Z) (after_digit : bool) : option (Z * pystr) :=
  match s with
  | c :: r =>
      if ((48 <=? c) && (c <=? 57))%N then int_digits r (value * 10 + Z.of_N (c - 48)) true
      else if ((c =? 95)%N && after_digit)%bool then int_digits r value false
      else if after_digit then Some (value, s) else None
  | [] => if after_digit then Some (value, s) else None
  end.
Fixpoint skip_space (s : pystr) : pystr :=
  match s with c :: r => if is_space c then skip_space r else s | [] => [] end.
Definition int_of_str (rewritten : pystr -> pystr) (s : pystr) : option Z :=
  let s := skip_space (if forallb (fun c => (c <? 128)%N) s then s else rewritten s) in
  let (sign, s) := match s with
                   | c :: r => if (c =? 43)%N then (1, r) else if (c =? 45)%N then (-1, r) else (1, s)
                   | [] => (1, s)
                   end in
  match int_digits s 0 false with
  | Some (v, r) => match skip_space r with [] => Some (sign * v) | _ => None end
  | None => None
  end.
(** int(lot) *)
Definition int_of (rewritten : pystr -> pystr) (a : numarg) : res Z :=
  match a with
  | NInt z => Ok z
  | NText s => match int_of_str rewritten s with Some z => Ok z | None => Raise (Builtin ValueError) end
  | NNone => Raise (Builtin TypeError)
  end.

(** intermediate_code, bip38.py:122-158 *)
Definition intermediate_code_any (P : prims) (rewritten : pystr -> pystr) (urandom : bytes) (passphrase : pystr)
    (lot sequence : numarg) (owner_salt : pyarg) : res pystr :=
  let* owner_salt := if truthy owner_salt then get_bytes owner_salt true else Ok urandom in
  let n := List.length owner_salt in
  if negb (Nat.eqb n 4 || Nat.eqb n 8) then
    let* h := bytes_to_string (PBytes owner_salt) in
    Raise (lib_error CError (str "Invalid owner salt length") None (ExpList [dec 8; dec 16]) (dec (zlen h)))
  else if Nat.eqb n 4 && (num_none lot || num_none sequence)
  then
    let* h := bytes_to_string (PBytes owner_salt) in
    Raise (lib_error CError (str "Invalid owner salt length for non lot/sequence") None (ExpOther (str "16") true) (dec (zlen h)))
  else if (truthy_num lot && num_none sequence) || (num_none lot && truthy_num sequence)
  then Raise (lib_error CError (str "Both lot & sequence are required")
                (Some (str "got: (lot " ++ num_text lot ++ str ") & (sequence " ++ num_text sequence ++ str ")")) ExpNone (str "None"))
  else
    let* (pass_factor, magic, owner_entropy) :=
      if truthy_num lot && truthy_num sequence then
        let* lot := int_of rewritten lot in
        let* sequence := int_of rewritten sequence in
        if negb ((100000 <=? lot) && (lot <=? 999999))
        then Raise (lib_error CError (str "Invalid lot") None (ExpOther (str "100000 <= lot <= 999999") true) (dec lot))
        else if negb ((0 <=? sequence) && (sequence <=? 4095))
        then Raise (lib_error CError (str "Invalid sequence") None (ExpOther (str "0 <= sequence <= 4095") true) (dec sequence))
        else
          let* pre_factor := scrypt_str P passphrase (upto 4 owner_salt) 16384 8 8 32 in
          let* ls := integer_to_bytes_n (lot * 4096 + sequence) 4 in
          let owner_entropy := upto 4 owner_salt ++ ls in
          let* pass_factor := double_sha256 P (PBytes (pre_factor ++ owner_entropy)) in
          let* magic := integer_to_bytes MAGIC_LOT_AND_SEQUENCE in
          Ok (pass_factor, magic, owner_entropy)
      else
        let* pass_factor := scrypt_str P passphrase owner_salt 16384 8 8 32 in
        let* magic := integer_to_bytes MAGIC_NO_LOT_AND_SEQUENCE in
        Ok (pass_factor, magic, owner_salt) in
    let* sk := PrivateKey_from_bytes pass_factor in
    let* pass_point := PrivateKey_public_key sk in
    let* pp := raw_compressed pass_point in
    let* s := check_encode P (magic ++ owner_entropy ++ pp) base58_alphabet in
    ensure_string s.
