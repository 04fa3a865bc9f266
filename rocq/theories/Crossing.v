(** * Crossing: the library's exceptions as objects, and what pickle and copy
    make of them.

    Exceptions.v keeps what [Error.__init__] stores and what [str] shows.  Here
    an exception is a whole Python object: [args], filled by
    [BaseException.__new__] with the positional arguments of the call, the
    attributes [Error.__init__] sets (exceptions.py:14-28), and the exception it
    was raised from.  [pickle], [copy.copy] and [copy.deepcopy] - and so
    [multiprocessing] and [concurrent.futures], which bring the exception of a
    worker process to the caller - take it apart with
    [BaseException.__reduce__] into class, [args] and attributes, and put it
    together again by calling the class with [args] and then setting the
    attributes ([BaseException.__setstate__]).

    Simplification: the class is found again by its name (the seven classes of
    exceptions.py are module-level names). *)
From Verif Require Import Py Exceptions.

(** The values such an exception holds: None, text, lists, and other objects,
    of which only what [python] below says matters. *)
Inductive value := VNone | VText (s : pystr) | VList (items : list value) | VObject (n : nat).

(** What the interpreter does with them: [str(v)], [repr(v)], the truth value,
    and what arrives when [v] is pickled ([None]: it cannot be). *)
Record python := { show : value -> pystr; quoted : value -> pystr; truth : value -> bool; carry : value -> option value }.

Record object := {
  x_class : lib_class;
  x_args : list value;
  x_dict : list (pystr * value);
  x_cause : option exn
}.

(** Attribute lookup and assignment *)
Fixpoint getattr (name : pystr) (d : list (pystr * value)) : option value :=
  match d with
  | [] => None
  | (n, v) :: r => if str_eqb name n then Some v else getattr name r
  end.
Fixpoint setattr (name : pystr) (v : value) (d : list (pystr * value)) : list (pystr * value) :=
  match d with
  | [] => [(name, v)]
  | (n, x) :: r => if str_eqb name n then (n, v) :: r else (n, x) :: setattr name v r
  end.

(** exceptions.py:14-16, the parameters of __init__ after self; those after the
    first have the default None *)
Definition parameters : list pystr := [str "message"; str "detail"; str "expected"; str "got"].

(** The binding of a call's arguments to these: positional ones first. *)
Definition named (p : pystr) (keywords : list (pystr * value)) : option value := getattr p keywords.
Definition argument (positional : list value) (keywords : list (pystr * value)) (i : nat) : option value :=
  match nth_error positional i with
  | Some v => Some v
  | None => match nth_error parameters i with Some p => named p keywords | None => None end
  end.
Definition binds (positional : list value) (keywords : list (pystr * value)) : bool :=
  Nat.leb (List.length positional) (List.length parameters) &&
  forallb (fun k => str_in (fst k) (skipn (List.length positional) parameters)) keywords &&
  match argument positional keywords 0 with Some _ => true | None => false end.
Definition or_none (v : option value) : value := match v with Some v => v | None => VNone end.

(** exceptions.py:21-26 on values *)
Fixpoint expectations (L : python) (acc : value) (l : list value) : value :=
  match l with
  | [] => acc
  | x :: r =>
      expectations L (VText match acc with
                            | VNone => str "'" ++ show L x ++ str "'"
                            | a => show L a ++ str ", '" ++ show L x ++ str "'"
                            end) r
  end.

(** C(positional, keywords): __new__ keeps the positional arguments,
    exceptions.py:14-28 sets the attributes. *)
Definition make (L : python) (c : lib_class) (positional : list value) (keywords : list (pystr * value)) : res object :=
  if binds positional keywords then
    let arg := fun i => or_none (argument positional keywords i) in
    Ok {| x_class := c; x_args := positional;
          x_dict := [(str "_message", arg 0%nat); (str "_detail", arg 1%nat);
                     (str "_expected", match arg 2%nat with VList l => expectations L VNone l | v => v end);
                     (str "_got", VText (str "'" ++ show L (arg 3%nat) ++ str "'"))];
          x_cause := None |}
  else Raise (Builtin TypeError).

(** raise C(...) from cause (a plain raise: no cause) *)
Definition raised_from (cause : option exn) (x : object) : object :=
  {| x_class := x_class x; x_args := x_args x; x_dict := x_dict x; x_cause := cause |}.

(** exceptions.py:30-38 *)
Definition text (L : python) (x : object) : res pystr :=
  let a := fun n => match getattr n (x_dict x) with Some v => Ok v | None => Raise (Builtin AttributeError) end in
  let* expected := a (str "_expected") in
  let* got := a (str "_got") in
  let* detail := a (str "_detail") in
  let* message := a (str "_message") in
  if truth L expected && truth L got && truth L detail then
    Ok (show L message ++ str ", (expected: " ++ show L expected ++ str " | got: " ++ show L got ++ str ") " ++ show L detail)
  else if truth L expected && truth L got && negb (truth L detail) then
    Ok (show L message ++ str ", (expected: " ++ show L expected ++ str " | got: " ++ show L got ++ str ")")
  else if truth L detail then
    Ok (show L message ++ str " " ++ show L detail)
  else Ok (show L message).

(** repr(x): BaseException.__repr__ (exceptions.py defines no __repr__) *)
Definition class_name (c : lib_class) : pystr :=
  match c with
  | CError => str "Error" | CCryptocurrencyError => str "CryptocurrencyError" | CNetworkError => str "NetworkError"
  | CSecp256k1Error => str "Secp256k1Error" | CAddressError => str "AddressError" | CWIFError => str "WIFError"
  | CPassphraseError => str "PassphraseError"
  end.
Fixpoint separated (l : list pystr) : pystr :=
  match l with [] => [] | [x] => x | x :: r => x ++ str ", " ++ separated r end.
Definition representation (L : python) (x : object) : pystr :=
  class_name (x_class x) ++ str "(" ++ separated (List.map (quoted L) (x_args x)) ++ str ")".

(** pickle.dumps and pickle.loads, or copy.copy and copy.deepcopy *)
Fixpoint carry_all (L : python) (l : list value) : option (list value) :=
  match l with
  | [] => Some []
  | v :: r => match carry L v, carry_all L r with Some v, Some r => Some (v :: r) | _, _ => None end
  end.
Fixpoint carry_dict (L : python) (d : list (pystr * value)) : option (list (pystr * value)) :=
  match d with
  | [] => Some []
  | (n, v) :: r => match carry L v, carry_dict L r with Some v, Some r => Some ((n, v) :: r) | _, _ => None end
  end.
(** BaseException.__reduce__: (class, args, __dict__) *)
Definition dumps (L : python) (x : object) : option (lib_class * list value * list (pystr * value)) :=
  match carry_all L (x_args x), carry_dict L (x_dict x) with Some a, Some d => Some (x_class x, a, d) | _, _ => None end.
(** class( *args), then BaseException.__setstate__ *)
Definition loads (L : python) (p : lib_class * list value * list (pystr * value)) : res object :=
  let '(c, a, d) := p in
  let* x := make L c a [] in
  Ok {| x_class := x_class x; x_args := x_args x; x_dict := fold_left (fun o n => setattr (fst n) (snd n) o) d (x_dict x); x_cause := x_cause x |}.
(** From one process to another; [TypeError] stands for whatever a value that
    cannot be pickled raises. *)
Definition cross (L : python) (x : object) : res object :=
  match dumps L x with Some p => loads L p | None => Raise (Builtin TypeError) end.
