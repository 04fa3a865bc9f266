(** * SpecJson: how JSON texts are read (RFC 8259), for objects whose members are texts,
    integers and null.  Nothing here refers to the model of the code. *)
From Verif Require Import Py.

Inductive jscalar := JText (s : pystr) | JInt (z : Z) | JNull.
Inductive json := JScalar (v : jscalar) | JObject (members : list (pystr * jscalar)).

Definition one_of (cs : pystr) (c : N) : bool := existsb (N.eqb c) cs.
(** white space: space, tab, line feed, carriage return *)
Fixpoint skip_space (s : pystr) : pystr :=
  match s with c :: r => if one_of [32; 9; 10; 13]%N c then skip_space r else s | [] => [] end.

(** ** Texts *)
Definition hex_value (c : N) : option N :=
  if (48 <=? c)%N && (c <=? 57)%N then Some (c - 48)%N
  else if (97 <=? c)%N && (c <=? 102)%N then Some (c - 87)%N
  else if (65 <=? c)%N && (c <=? 70)%N then Some (c - 55)%N else None.
Definition hex4_value (a b c d : N) : option N :=
  match hex_value a, hex_value b, hex_value c, hex_value d with
  | Some a, Some b, Some c, Some d => Some (((a * 16 + b) * 16 + c) * 16 + d)%N
  | _, _, _, _ => None
  end.
(** what a character after a backslash stands for: quote, backslash, slash, b, f, n, r, t *)
Definition short_escape (c : N) : option N :=
  if (c =? 34)%N then Some 34%N else if (c =? 92)%N then Some 92%N else if (c =? 47)%N then Some 47%N
  else if (c =? 98)%N then Some 8%N else if (c =? 102)%N then Some 12%N else if (c =? 110)%N then Some 10%N
  else if (c =? 114)%N then Some 13%N else if (c =? 116)%N then Some 9%N else None.
Definition with_unit (u : N) (r : option (pystr * pystr)) : option (pystr * pystr) :=
  match r with Some (us, rest) => Some (u :: us, rest) | None => None end.
(** after the opening quote: the code units up to the closing quote, and what follows *)
Fixpoint read_units (s : pystr) : option (pystr * pystr) :=
  match s with
  | [] => None
  | c :: r =>
      if (c =? 34)%N then Some ([], r)
      else if (c =? 92)%N then
        match r with
        | [] => None
        | e :: r1 =>
            if (e =? 117)%N then
              match r1 with
              | x :: y :: z :: t :: r2 => match hex4_value x y z t with Some u => with_unit u (read_units r2) | None => None end
              | _ => None
              end
            else match short_escape e with Some u => with_unit u (read_units r1) | None => None end
        end
      else if (c <? 32)%N then None
      else with_unit c (read_units r)
  end.
(** characters beyond 0xFFFF are written as two units *)
Definition high (u : N) : bool := (0xD800 <=? u)%N && (u <? 0xDC00)%N.
Definition low (u : N) : bool := (0xDC00 <=? u)%N && (u <? 0xE000)%N.
Fixpoint join_units (l : pystr) : pystr :=
  match l with
  | h :: ((w :: r) as t) =>
      if high h && low w then (0x10000 + (h - 0xD800) * 1024 + (w - 0xDC00))%N :: join_units r else h :: join_units t
  | _ => l
  end.
Definition read_string (s : pystr) : option (pystr * pystr) :=
  match read_units s with Some (us, r) => Some (join_units us, r) | None => None end.

(** ** Integers: no leading zeros, no fraction, no exponent *)
Fixpoint read_digits (s : pystr) : list Z * pystr :=
  match s with
  | c :: r => if (48 <=? c)%N && (c <=? 57)%N then let (ds, t) := read_digits r in (Z.of_N (c - 48) :: ds, t) else ([], s)
  | [] => ([], [])
  end.
Definition read_natural (s : pystr) : option (Z * pystr) :=
  let (ds, r) := read_digits s in
  match ds with
  | [] => None
  | d :: _ =>
      if ((d =? 0) && (Nat.ltb 1 (List.length ds))) || (match r with c :: _ => one_of (str ".eE") c | [] => false end) then None
      else Some (fold_left (fun v d => 10 * v + d) ds 0, r)
  end.

(** ** Values *)
Definition read_scalar (s : pystr) : option (jscalar * pystr) :=
  match s with
  | [] => None
  | c :: r =>
      if (c =? 34)%N then match read_string r with Some (t, r) => Some (JText t, r) | None => None end
      else if str_eqb (firstn 4 s) (str "null") then Some (JNull, skipn 4 s)
      else if (c =? 45)%N then match read_natural r with Some (z, r) => Some (JInt (- z), r) | None => None end
      else match read_natural s with Some (z, r) => Some (JInt z, r) | None => None end
  end.
(** [expect c s]: [s] after white space and the character [c] *)
Definition expect (c : N) (s : pystr) : option pystr :=
  match skip_space s with d :: r => if (d =? c)%N then Some r else None | [] => None end.
Fixpoint read_members (fuel : nat) (s : pystr) : option (list (pystr * jscalar) * pystr) :=
  match fuel with
  | O => None
  | S fuel =>
      match expect 34 s with None => None | Some s =>
      match read_string s with None => None | Some (k, s) =>
      match expect 58 s with None => None | Some s =>
      match read_scalar (skip_space s) with None => None | Some (v, s) =>
      match expect 44 s with
      | Some s => match read_members fuel s with Some (l, r) => Some ((k, v) :: l, r) | None => None end
      | None => match expect 125 s with Some r => Some ([(k, v)], r) | None => None end
      end end end end end
  end.
(** a whole document *)
Definition read_json (s : pystr) : option json :=
  let done (r : pystr) (v : json) := match skip_space r with [] => Some v | _ => None end in
  match expect 123 s with
  | Some r =>
      match expect 125 r with
      | Some r => done r (JObject [])
      | None => match read_members (List.length s) r with Some (l, r) => done r (JObject l) | None => None end
      end
  | None => match read_scalar (skip_space s) with Some (v, r) => done r (JScalar v) | None => None end
  end.
(** Text of Unicode characters *)
Definition unicode_text (s : pystr) : Prop := Forall (fun c => (c < 0xD800 \/ 0xE000 <= c <= 0x10FFFF)%N) s.
Definition unicode_scalar (v : jscalar) : Prop := match v with JText s => unicode_text s | _ => True end.
