(** * DigitLimit: Python's limit on conversions between int and text.

    Python 3.11 and later (and 3.9.14, 3.10.7 and later) refuse to convert between an int
    and decimal text of more than sys.get_int_max_str_digits() digits, 4300 unless it is
    changed, with ValueError; the sign, white space and underscores do not count.  The
    only ints of any size that the library converts are the lot and sequence numbers:
    int(lot), int(sequence) (bip38.py:131) and the texts of the errors that show them
    (bip38.py:128, 133, 135, and f"'{got}'" in exceptions.py:18).  This file models
    bip38.py:122-158 again, as in [LotText.v], with that limit; 0 stands for no limit, as
    in Python.  Python accepts as a limit only 0 and numbers from 640 on, and checks only
    conversions of more than 640 digits, which for these limits is the same. *)
From Verif Require Import Py Prims Const Exceptions Utils Crypto Base58 Secp256k1 Bip38 LotText.

Definition over (limit digits : nat) : bool := (negb (Nat.eqb limit 0) && Nat.ltb limit digits)%bool.
(** str(z), f"{z}" *)
Definition int_str (limit : nat) (z : Z) : res pystr :=
  if over limit (List.length (dec (Z.abs z))) then Raise (Builtin ValueError) else Ok (dec z).
(** int(lot): the digit characters of the text are counted (leading zeros too).  Whether
    the count or the form of the text is checked first does not matter, both raise
    ValueError. *)
Definition digit_count (s : pystr) : nat := List.length (List.filter (fun c => ((48 <=? c) && (c <=? 57))%N) s).
Definition int_of_limited (rewritten : pystr -> pystr) (limit : nat) (a : numarg) : res Z :=
  match a with
  | NText s => if over limit (digit_count (if forallb (fun c => (c <? 128)%N) s then s else rewritten s))
               then Raise (Builtin ValueError) else int_of rewritten a
  | _ => int_of rewritten a
  end.
(** f"{lot}" *)
Definition num_str (limit : nat) (a : numarg) : res pystr :=
  match a with NNone => Ok (str "None") | NInt z => int_str limit z | NText s => Ok s end.

(** intermediate_code, bip38.py:122-158 *)
Definition intermediate_code_limited (P : prims) (rewritten : pystr -> pystr) (limit : nat) (urandom : bytes) (passphrase : pystr)
    (lot sequence : numarg) (owner_salt : pyarg) : res pystr :=
  let* owner_salt := if truthy owner_salt then get_bytes owner_salt true else Ok urandom in
  let n := List.length owner_salt in
  if negb (Nat.eqb n 4 || Nat.eqb n 8) then
    let* h := bytes_to_string (PBytes owner_salt) in
    Raise (lib_error CError (str "Invalid owner salt length") None (ExpList [dec 8; dec 16]) (dec (zlen h)))
  else if Nat.eqb n 4 && (num_none lot || num_none sequence)
  then
    let* h := bytes_to_string (PBytes owner_salt) in
    Raise (lib_error CError (str "Invalid owner salt length for non lot/sequence") None (ExpOther (str "16") true) (dec (zlen h)))
  else if (truthy_num lot && num_none sequence) || (num_none lot && truthy_num sequence)
  then
    let* l := num_str limit lot in
    let* q := num_str limit sequence in
    Raise (lib_error CError (str "Both lot & sequence are required")
             (Some (str "got: (lot " ++ l ++ str ") & (sequence " ++ q ++ str ")")) ExpNone (str "None"))
  else
    let* (pass_factor, magic, owner_entropy) :=
      if truthy_num lot && truthy_num sequence then
        let* lot := int_of_limited rewritten limit lot in
        let* sequence := int_of_limited rewritten limit sequence in
        if negb ((100000 <=? lot) && (lot <=? 999999))
        then let* l := int_str limit lot in
             Raise (lib_error CError (str "Invalid lot") None (ExpOther (str "100000 <= lot <= 999999") true) l)
        else if negb ((0 <=? sequence) && (sequence <=? 4095))
        then let* q := int_str limit sequence in
             Raise (lib_error CError (str "Invalid sequence") None (ExpOther (str "0 <= sequence <= 4095") true) q)
        else
          let* pre_factor := scrypt_str P passphrase (upto 4 owner_salt) 16384 8 8 32 in
          let* ls := integer_to_bytes_n (lot * 4096 + sequence) 4 in
          let owner_entropy := upto 4 owner_salt ++ ls in
          let* pass_factor := double_sha256 P (PBytes (pre_factor ++ owner_entropy)) in
          let* magic := integer_to_bytes MAGIC_LOT_AND_SEQUENCE in
          Ok (pass_factor, magic, owner_entropy)
      else
        let* pass_factor := scrypt_str P passphrase owner_salt 16384 8 8 32 in
        let* magic := integer_to_bytes MAGIC_NO_LOT_AND_SEQUENCE in
        Ok (pass_factor, magic, owner_salt) in
    let* sk := PrivateKey_from_bytes pass_factor in
    let* pass_point := PrivateKey_public_key sk in
    let* pp := raw_compressed pass_point in
    let* s := check_encode P (magic ++ owner_entropy ++ pp) base58_alphabet in
    ensure_string s.
