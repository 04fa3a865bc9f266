(** * FloatLot: lot and sequence numbers given as floats.

    intermediate_code (bip38.py:90-151) converts its lot and sequence arguments with
    int(...) (bip38.py:131), so a float is taken as well.  [LotText.v] models the same
    lines for None, integers and text; this file adds floats, of which it uses their
    truth value, the test for None, int() and, in one error text, str().
    Simplification: a finite float is any number m * 2^e, without the limits of 53 bits
    and of the exponent; str() of a float is given with it. *)
From Verif Require Import Py Prims Const Exceptions Utils Crypto Base58 Secp256k1 Bip38 LotText.

Inductive pyfloat := Finite (m e : Z) (* m * 2^e *) | Infinite (positive : bool) | NaN.
Inductive fnum := FNum (a : numarg) | FFloat (f : pyfloat) (shown : pystr).

(** bool(lot): only 0.0 and -0.0 are false *)
Definition truthy_float (f : pyfloat) : bool := match f with Finite m _ => negb (m =? 0) | _ => true end.
Definition truthy_f (a : fnum) : bool := match a with FNum a => truthy_num a | FFloat f _ => truthy_float f end.
Definition none_f (a : fnum) : bool := match a with FNum a => num_none a | _ => false end.
Definition text_f (a : fnum) : pystr := match a with FNum a => num_text a | FFloat _ s => s end.
(** int(f): rounds towards zero; OverflowError and ValueError for infinities and NaN
    (CPython, float.__int__ and PyLong_FromDouble) *)
Definition int_of_float (f : pyfloat) : res Z :=
  match f with
  | Finite m e => Ok (if 0 <=? e then m * 2 ^ e else Z.quot m (2 ^ (- e)))
  | Infinite _ => Raise (Builtin OverflowError)
  | NaN => Raise (Builtin ValueError)
  end.
Definition int_f (rewritten : pystr -> pystr) (a : fnum) : res Z :=
  match a with FNum a => int_of rewritten a | FFloat f _ => int_of_float f end.

(** bip38.py:90-151, BIP38.intermediate_code *)
Definition intermediate_code_float (P : prims) (rewritten : pystr -> pystr) (urandom : bytes) (passphrase : pystr)
    (lot sequence : fnum) (owner_salt : pyarg) : res pystr :=
  let* owner_salt := if truthy owner_salt then get_bytes owner_salt true else Ok urandom in
  let n := List.length owner_salt in
  if negb (Nat.eqb n 4 || Nat.eqb n 8) then
    let* h := bytes_to_string (PBytes owner_salt) in
    Raise (lib_error CError (str "Invalid owner salt length") None (ExpList [dec 8; dec 16]) (dec (zlen h)))
  else if Nat.eqb n 4 && (none_f lot || none_f sequence)
  then
    let* h := bytes_to_string (PBytes owner_salt) in
    Raise (lib_error CError (str "Invalid owner salt length for non lot/sequence") None (ExpOther (str "16") true) (dec (zlen h)))
  else if (truthy_f lot && none_f sequence) || (none_f lot && truthy_f sequence)
  then Raise (lib_error CError (str "Both lot & sequence are required")
                (Some (str "got: (lot " ++ text_f lot ++ str ") & (sequence " ++ text_f sequence ++ str ")")) ExpNone (str "None"))
  else
    let* (pass_factor, magic, owner_entropy) :=
      if truthy_f lot && truthy_f sequence then
        let* lot := int_f rewritten lot in
        let* sequence := int_f rewritten sequence in
        if negb ((100000 <=? lot) && (lot <=? 999999))
        then Raise (lib_error CError (str "Invalid lot") None (ExpOther (str "100000 <= lot <= 999999") true) (dec lot))
        else if negb ((0 <=? sequence) && (sequence <=? 4095))
        then Raise (lib_error CError (str "Invalid sequence") None (ExpOther (str "0 <= sequence <= 4095") true) (dec sequence))
        else
          let* pre_factor := scrypt_str P passphrase (upto 4 owner_salt) 16384 8 8 32 in
          let* ls := integer_to_bytes_n (lot * 4096 + sequence) 4 in
          let owner_entropy := upto 4 owner_salt ++ ls in
          let* pass_factor := double_sha256 P (PBytes (pre_factor ++ owner_entropy)) in
          let* magic := integer_to_bytes MAGIC_LOT_AND_SEQUENCE in
          Ok (pass_factor, magic, owner_entropy)
      else
        let* pass_factor := scrypt_str P passphrase owner_salt 16384 8 8 32 in
        let* magic := integer_to_bytes MAGIC_NO_LOT_AND_SEQUENCE in
        Ok (pass_factor, magic, owner_salt) in
    let* sk := PrivateKey_from_bytes pass_factor in
    let* pass_point := PrivateKey_public_key sk in
    let* pp := raw_compressed pass_point in
    let* s := check_encode P (magic ++ owner_entropy ++ pp) base58_alphabet in
    ensure_string s.
