(** * CoinTable: docs/tools/generate_cryptocurrencies_table.py

    The script that writes the two tables of supported coins (the one of README.md and
    the one of docs/cryptocurrencies.rst).  The classes it finds in the module are an
    argument: any list of classes with distinct names. *)
From Coq Require Import HexadecimalString.
From Verif Require Import Py Cryptocurrencies.

(** Python's order on text: by code points, the first difference decides *)
Fixpoint text_leb (a b : pystr) : bool :=
  match a, b with
  | [], _ => true
  | _ :: _, [] => false
  | x :: a, y :: b => (x <? y)%N || (x =? y)%N && text_leb a b
  end.
(** sorted(names), line 34; names are distinct, so any sorting does the same *)
Fixpoint insert_coin (c : coin) (l : list coin) : list coin :=
  match l with
  | [] => [c]
  | d :: r => if text_leb (c_name c) (c_name d) then c :: l else d :: insert_coin c r
  end.
Definition sorted_coins (l : list coin) : list coin := List.fold_right insert_coin [] l.

(** f"{z:02x}": hexadecimal, lower case, filled with zeros after the sign to two characters *)
Definition hex02 (z : Z) : pystr :=
  let digits := str (NilZero.string_of_uint (N.to_hex_uint (Z.to_N (Z.abs z)))) in
  if z <? 0 then (str "-" ++ digits)%list
  else if (Nat.ltb (List.length digits) 2) then (str "0" ++ digits)%list else digits.

(** lines 20-24, 26-31 *)
Definition markdown_header : pystr := str
"<table><thead><tr><th align='left'><div style='margin: 0;'>Name</div></th><th><div style='margin: 0;'>Network</div></th><th><div style='margin: 0;'>WIF Prefix</div></th><th><div style='margin: 0;'>Address Prefix</div></th></tr></thead><tbody>".
Definition rst_header : pystr := str
"<div class='table-wrapper doctils container'><table class='docutils align-default'><thead><tr class='row-odd'><th class='head name'><p>Name</p></th><th class='head'><p>Network</p></th><th class='head'><p>WIF Prefix</p></th><th class='head'><p>Address Prefix</p></th></tr></thead><tbody>".

(** lines 44-47, 52: the beginning of the row of the network number [idx] *)
Definition markdown_begin (name : pystr) (network_count idx : nat) : pystr :=
  if Nat.eqb idx 0 then (str "<tr><td align='left' rowspan='" ++ dec (Z.of_nat network_count) ++ str "'>" ++ name ++ str "</td>")%list
  else str "<tr>".
(** lines 48-50, 53 *)
Definition rst_begin (name : pystr) (network_count idx : nat) : pystr :=
  if Nat.eqb idx 0
  then (str "<tr class='row-even'><td class='name' rowspan='" ++ dec (Z.of_nat network_count) ++ str "'><p>" ++ name ++ str "</p></td>")%list
  else str "<tr class='row-even'>".
(** lines 56-60 *)
Definition markdown_row (net : pystr) (wif_prefix address_prefix : Z) : pystr :=
  (str "<td align='center'><code>" ++ net ++ str "</code></td>" ++
   str "<td align='center'><code>0x" ++ hex02 wif_prefix ++ str "</code></td>" ++
   str "<td align='center'><code>0x" ++ hex02 address_prefix ++ str "</code></td></tr>")%list.
(** lines 63-70 *)
Definition rst_row (net : pystr) (wif_prefix address_prefix : Z) : pystr :=
  (str "<td><p><code class='xref py py-class docutils literal notranslate'>" ++
   str "<span class='pre'>" ++ net ++ str "</span></code></p></td>" ++
   str "<td><p><code class='xref py py-class docutils literal notranslate'>" ++
   str "<span class='pre'>0x" ++ hex02 wif_prefix ++ str "</span></code></p></td>" ++
   str "<td><p><code class='xref py py-class docutils literal notranslate'>" ++
   str "<span class='pre'>0x" ++ hex02 address_prefix ++ str "</span></code></p></td></tr>")%list.

(** lines 39-70, the loop over the networks of one coin, from number [idx] on *)
Fixpoint network_rows (first : nat -> pystr) (row : pystr -> Z -> Z -> pystr) (idx : nat) (l : list (pystr * (Z * Z))) : pystr :=
  match l with
  | [] => []
  | (net, (w, a)) :: r => (first idx ++ row net w a ++ network_rows first row (S idx) r)%list
  end.
(** lines 34-70, the loop over the names *)
Definition coin_rows (first : pystr -> nat -> nat -> pystr) (row : pystr -> Z -> Z -> pystr) (l : list coin) : pystr :=
  List.concat (List.map (fun c => network_rows (first (c_name c) (List.length (c_networks c))) row 0 (c_networks c)) l).

(** lines 20-24, 34-60, 72, 75-76: the contents of output.md *)
Definition markdown_table (classes : list coin) : pystr :=
  (markdown_header ++ coin_rows markdown_begin markdown_row (sorted_coins classes) ++ str "</tbody></table>")%list.
(** lines 26-31, 34-70, 73, 78-79: the contents of output.rst *)
Definition rst_table (classes : list coin) : pystr :=
  (rst_header ++ coin_rows rst_begin rst_row (sorted_coins classes) ++ str "</tbody></table></div>")%list.
