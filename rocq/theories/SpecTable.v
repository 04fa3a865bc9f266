(** * SpecTable: how a table in HTML is read.  Nothing here refers to the model of the code. *)
From Verif Require Import Py.

(** A reader: characters up to a [<] are text, up to the next [>] a tag.  Text is put into
    the current row together with the td or th tag before it; tr begins a row, /tr ends it. *)
Record reader := { in_tag : bool; buffer : pystr; cell : pystr; row : list (pystr * pystr); rows : list (list (pystr * pystr)) }.
Definition begins (p s : pystr) : bool := str_eqb (firstn (List.length p) s) p.
Definition close_tag (r : reader) : reader :=
  let t := buffer r in
  {| in_tag := false; buffer := [];
     cell := if begins (str "td") t || begins (str "th ") t || str_eqb t (str "th") then t else cell r;
     row := if begins (str "tr") t then [] else row r;
     rows := if str_eqb t (str "/tr") then (rows r ++ [row r])%list else rows r |}.
Definition open_tag (r : reader) : reader :=
  {| in_tag := true; buffer := []; cell := cell r;
     row := match buffer r with [] => row r | t => (row r ++ [(cell r, t)])%list end; rows := rows r |}.
Definition put (c : N) (r : reader) : reader :=
  {| in_tag := in_tag r; buffer := (buffer r ++ [c])%list; cell := cell r; row := row r; rows := rows r |}.
Definition read_char (r : reader) (c : N) : reader :=
  if in_tag r then if (c =? 62)%N then close_tag r else put c r
  else if (c =? 60)%N then open_tag r else put c r.
Definition read_table (document : pystr) : list (list (pystr * pystr)) :=
  rows (fold_left read_char document {| in_tag := false; buffer := []; cell := []; row := []; rows := [] |}).
(** The text of the rows, without the tags *)
Definition visible (t : list (list (pystr * pystr))) : list (list pystr) := List.map (List.map snd) t.

(** Text that a table can show: not empty, and without the character [<] *)
Definition showable (s : pystr) : Prop := s <> [] /\ ~ In 60%N s.

(** [a] comes before [b]: at the first difference the smaller code point, or [a] is a
    beginning of [b] *)
Definition before (a b : pystr) : Prop :=
  (exists p x y r r', a = (p ++ x :: r)%list /\ b = (p ++ y :: r')%list /\ (x < y)%N) \/ (exists x r, b = (a ++ x :: r)%list).

(** The hexadecimal text of a number: lower case, at least two digits, no more leading zeros *)
Definition hexadecimal (z : Z) (s : pystr) : Prop :=
  exists ds, Forall (fun d => 0 <= d < 16) ds /\
    s = List.map (fun d => nth (Z.to_nat d) (str "0123456789abcdef") 0%N) ds /\
    z = fold_left (fun v d => 16 * v + d) ds 0 /\
    (List.length ds = 2%nat \/ (2 < List.length ds)%nat /\ List.hd 0 ds <> 0).
