(** * Base58: /repo/bip38/libs/base58.py *)
From Verif Require Import Py Prims.

(** base58.py:7 *)
Definition base58_alphabet : pystr :=
  str "123456789ABCDEFGHJKLMNPQRSTUVWXYZabcdefghijkmnopqrstuvwxyz".

(** base58.py:10-18, string_to_int on a bytes argument: the sum of
    256**i * c over enumerate(data[::-1]).  (The str branch, lines 13-14, is
    dead under Python 3 for the callers in the repository, which pass bytes.) *)
Fixpoint string_to_int_loop (i : Z) (rev_data : bytes) (val : Z) : Z :=
  match rev_data with
  | [] => val
  | c :: r => string_to_int_loop (i + 1) r (val + 256 ^ i * b2z c)
  end.
Definition string_to_int (data : bytes) : Z := string_to_int_loop 0 (rev data) 0.

(** base58.py:21-26, ensure_string on a str argument *)
Definition ensure_string (data : pystr) : res pystr := Ok data.

(** alphabet[i] for 0 <= i *)
Definition char_at (alphabet : pystr) (i : Z) : res N :=
  match nth_error alphabet (Z.to_nat i) with
  | Some c => Ok c
  | None => Raise (Builtin IndexError)
  end.

(** base58.py:32-36, the digit loop.  [fuel] bounds the iterations; running
    out of it is reported as [NonTermination] (Base58Facts.v proves it happens only for
    one-letter alphabets, on which the Python loop really never ends). *)
Fixpoint encode_loop (fuel : nat) (alphabet : pystr) (val : Z) (enc : pystr) : res pystr :=
  let L := zlen alphabet in
  if L <=? val then
    if L =? 0 then Raise (Builtin ZeroDivisionError)
    else match fuel with
         | O => Raise (Builtin NonTermination)
         | S f => let* c := char_at alphabet (val mod L) in
                  encode_loop f alphabet (val / L) (c :: enc)
         end
  else if negb (val =? 0) then
    let* c := char_at alphabet val in Ok (c :: enc)
  else Ok enc.

(** base58.py:29-39, encode *)
Definition encode (data : bytes) (alphabet : pystr) : res pystr :=
  let val := string_to_int data in
  let* enc := encode_loop (S (Z.to_nat (Z.log2 val))) alphabet val [] in
  let n := (List.length data - List.length (lstrip0 data))%nat in
  let* c0 := char_at alphabet 0 in
  Ok (repeat c0 n ++ enc).

(** base58.py:42-44, check_encode *)
Definition check_encode (P : prims) (raw : bytes) (alphabet : pystr) : res pystr :=
  let chk := upto 4 (h_sha256 P (h_sha256 P raw)) in
  encode (raw ++ chk) alphabet.

(** base58.py:51-56, the loop over the characters: returns (val, prefix) *)
Fixpoint decode_loop (alphabet : pystr) (data : bytes) (val : Z) (prefix : nat) : res (Z * nat) :=
  match data with
  | [] => Ok (val, prefix)
  | c :: r =>
      let* ab := utf8_encode alphabet in
      let val' := val * zlen alphabet + bytes_find ab c in
      decode_loop alphabet r val' (if val' =? 0 then S prefix else prefix)
  end.

(** base58.py:58-61, base-256 digits of [val], least significant first.  [fuel]
    always suffices (Base58Facts.v). *)
Fixpoint bytes_loop (fuel : nat) (val : Z) (dec : bytes) : res bytes :=
  if 0 <? val then
    match fuel with
    | O => Raise (Builtin NonTermination)
    | S f => bytes_loop f (val / 256) (dec ++ [z2b (val mod 256)])
    end
  else Ok dec.

(** base58.py:47-65, decode *)
Definition decode (data : pystr) (alphabet : pystr) : res bytes :=
  let* data := ascii_encode data in
  let* (val, prefix) := decode_loop alphabet data 0 O in
  let* dec := bytes_loop (S (Z.to_nat (Z.log2 val))) val [] in
  Ok (rev (dec ++ repeat x00 prefix)).

(** base58.py:68-74, check_decode *)
Definition check_decode (P : prims) (enc : pystr) (alphabet : pystr) : res bytes :=
  let* dec := decode enc alphabet in
  let raw := upto_neg 4 dec in
  let chk := from_neg 4 dec in
  if negb (bytes_eqb chk (upto 4 (h_sha256 P (h_sha256 P raw))))
  then Raise (Builtin ValueError)
  else Ok raw.
