(** * Exceptions: /repo/bip38/exceptions.py *)
From Verif Require Import Py.

(** The argument [expected] of Error: None, a list (its items already
    rendered by the f-string), or another object with its str() rendering and
    truth value.  Simplification: str() of arbitrary objects is the
    caller's business, the model starts from the rendered text. *)
Inductive expected_arg :=
  | ExpNone
  | ExpList (items : list pystr)
  | ExpOther (rendered : pystr) (truth : bool).

(** The instance attributes _message, _detail, _expected, _got.
    [_expected] keeps the rendered text and truth value. *)
Record error_obj := {
  e_message : pystr;
  e_detail : option pystr;
  e_expected : option (pystr * bool);
  e_got : pystr
}.

Definition quote (s : pystr) : pystr := str "'" ++ s ++ str "'".

(** exceptions.py:21-26, the loop over a list of expectations *)
Definition expected_step (acc : option pystr) (expect : pystr) : option pystr :=
  match acc with
  | None => Some (quote expect)
  | Some a => Some (a ++ str ", '" ++ expect ++ str "'")
  end.

(** exceptions.py:14-28, Error.__init__; [got] is the str() of the argument
    ("None" when it is omitted). *)
Definition error_init (message : pystr) (detail : option pystr)
    (expected : expected_arg) (got : pystr) : error_obj :=
  {| e_message := message;
     e_detail := detail;
     e_expected :=
       match expected with
       | ExpNone => None
       | ExpList items =>
           match fold_left expected_step items None with
           | None => None
           | Some t => Some (t, match t with [] => false | _ => true end)
           end
       | ExpOther r t => Some (r, t)
       end;
     e_got := quote got |}.

Definition text_truthy (o : option pystr) : bool :=
  match o with None => false | Some [] => false | Some _ => true end.

(** exceptions.py:30-38, Error.__str__ *)
Definition error_str (e : error_obj) : pystr :=
  let exp_truthy := match e_expected e with Some (_, t) => t | None => false end in
  let exp_text := match e_expected e with Some (r, _) => r | None => str "None" end in
  let got_truthy := match e_got e with [] => false | _ => true end in
  let det_truthy := text_truthy (e_detail e) in
  let det_text := match e_detail e with Some d => d | None => str "None" end in
  if exp_truthy && got_truthy && det_truthy then
    e_message e ++ str ", (expected: " ++ exp_text ++ str " | got: " ++ e_got e ++ str ") " ++ det_text
  else if exp_truthy && got_truthy && negb det_truthy then
    e_message e ++ str ", (expected: " ++ exp_text ++ str " | got: " ++ e_got e ++ str ")"
  else if det_truthy then
    e_message e ++ str " " ++ det_text
  else e_message e.


(** raise C(message, detail=..., expected=..., got=...): the class and str(e).
    A raise without expected and detail has the message as its text
    (PropErrors.v, C44_message_only), so the model writes [Lib C "message"] there. *)
Definition lib_error (c : lib_class) (message : pystr) (detail : option pystr)
    (expected : expected_arg) (got : pystr) : exn :=
  Lib c (error_str (error_init message detail expected got)).
