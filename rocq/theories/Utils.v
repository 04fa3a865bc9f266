(** * Utils: /repo/bip38/utils.py *)
From Verif Require Import Py.

(** utils.py:12-35, get_bytes *)
Definition get_bytes (data : pyarg) (unhexlify : bool) : res bytes :=
  if negb (truthy data) then Ok []
  else match data with
       | PBytes b => Ok b
       | PStr s =>
           if unhexlify then
             match fromhex s with
             | Some b => Ok b
             | None => Raise (Builtin ValueError)
             end
           else utf8_encode s
       | _ => Raise (Builtin TypeError)
       end.

(** utils.py:38-51, bytes_reverse *)
Definition bytes_reverse (data : bytes) : bytes := rev data.

(** utils.py:54-74, bytes_to_string.  bytes.fromhex raises TypeError on
    anything that is not a str, and ValueError on a non-hex str; both are
    swallowed (lines 67-71). *)
Definition bytes_to_string (data : pyarg) : res pystr :=
  if negb (truthy data) then Ok []
  else match data with
       | PStr s =>
           match fromhex s with
           | Some _ => Ok s
           | None => let* b := utf8_encode s in Ok (tohex b)
           end
       | PBytes b => Ok (tohex b)
       | _ => Raise (Builtin TypeError)   (* bytes(data, 'utf-8') *)
       end.

(** utils.py:77-92, bytes_to_integer *)
Definition bytes_to_integer_full (data : bytes) (endianness : endian) (signed : bool) : Z :=
  from_bytes data endianness signed.
(** with the default arguments endianness="big", signed=False *)
Definition bytes_to_integer (data : bytes) : Z := bytes_to_integer_full data Big false.

(** utils.py:95-115, integer_to_bytes *)
Definition integer_to_bytes_full (data : Z) (bytes_num : option Z)
    (endianness : endian) (signed : bool) : res bytes :=
  let n :=
    match bytes_num with
    | Some n => if n =? 0
                then ((if 0 <? data then bit_length data else 1) + 7) / 8
                else n
    | None => ((if 0 <? data then bit_length data else 1) + 7) / 8
    end in
  to_bytes data n endianness signed.
(** with the default arguments *)
Definition integer_to_bytes (data : Z) : res bytes :=
  integer_to_bytes_full data None Big false.
(** with an explicit width *)
Definition integer_to_bytes_n (data : Z) (n : Z) : res bytes :=
  integer_to_bytes_full data (Some n) Big false.
