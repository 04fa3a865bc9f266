(** * ErrorFacts: the text of the library's exceptions (Exceptions.v) *)
From Verif Require Import Py Exceptions Spec.

(** The rendered expectation, if there is one: nothing for None, an empty list
    or another false object. *)
Definition expectation (e : expected_arg) : option pystr :=
  match e with
  | ExpNone => None
  | ExpList [] => None
  | ExpList items => Some (quoted_list items)
  | ExpOther r true => Some r
  | ExpOther r false => None
  end.
Lemma fold_expected items acc : items <> [] ->
  fold_left expected_step items (Some acc) = Some (acc ++ str ", " ++ quoted_list items).
Proof.
  revert acc. induction items as [|x items IH]; intros acc H; [congruence|]. cbn [fold_left expected_step].
  destruct items as [|y items].
  - cbn [fold_left quoted_list]. f_equal.
  - rewrite IH by discriminate. apply f_equal. rewrite <- !app_assoc. apply f_equal.
    change (quoted_list (x :: y :: items)) with (str "'" ++ x ++ str "', " ++ quoted_list (y :: items)).
    change (str ", '") with (str ", " ++ str "'"). change (str "', ") with (str "'" ++ str ", "). rewrite <- !app_assoc. reflexivity.
Qed.
Lemma fold_expected_none items : items <> [] -> fold_left expected_step items None = Some (quoted_list items).
Proof.
  destruct items as [|x items]; [congruence|]. intros _. cbn [fold_left expected_step]. destruct items as [|y items]; [reflexivity|].
  rewrite fold_expected by discriminate. unfold quote. f_equal.
  change (quoted_list (x :: y :: items)) with (str "'" ++ x ++ str "', " ++ quoted_list (y :: items)).
  change (str "', ") with (str "'" ++ str ", "). rewrite <- !app_assoc. reflexivity.
Qed.
Lemma error_str_text : forall message detail expected got,
  error_str (error_init message detail expected got) =
  message ++
  match expectation expected with Some t => str ", (expected: " ++ t ++ str " | got: '" ++ got ++ str "')" | None => [] end ++
  match detail with Some (c :: d) => str " " ++ c :: d | _ => [] end.
Proof.
  intros message detail expected got.
  assert (X : forall t, let o := {| e_message := message; e_detail := detail; e_expected := Some (t, true); e_got := quote got |} in
    error_str o = message ++ (str ", (expected: " ++ t ++ str " | got: '" ++ got ++ str "')") ++ match detail with Some (c :: d) => str " " ++ c :: d | _ => [] end).
  { intros t o. unfold error_str, o. cbn [e_message e_detail e_expected e_got]. unfold quote, text_truthy.
    destruct detail as [[|c d]|]; cbn [andb negb app str List.map list_ascii_of_string]; rewrite <- ?app_assoc; cbn [app]; rewrite <- ?app_assoc; reflexivity. }
  assert (Y : forall ex, match ex with Some (_, t) => t | None => false end = false ->
    error_str {| e_message := message; e_detail := detail; e_expected := ex; e_got := quote got |} =
    message ++ [] ++ match detail with Some (c :: d) => str " " ++ c :: d | _ => [] end).
  { intros ex E. unfold error_str. cbn [e_message e_detail e_expected e_got]. rewrite E. unfold text_truthy.
    destruct detail as [[|c d]|]; cbn [andb negb app]; rewrite ?app_nil_r; reflexivity. }
  unfold error_init. destruct expected as [|items|r t].
  - apply Y. reflexivity.
  - destruct items as [|x items]; [apply Y; reflexivity|]. rewrite fold_expected_none by discriminate.
    replace (match quoted_list (x :: items) with [] => false | _ :: _ => true end) with true by (destruct items; reflexivity).
    apply X.
  - destruct t; [apply X|apply Y; reflexivity].
Qed.

(** Error(message, expected=<a true object>, got=...) *)
Lemma lib_error_other c m r g : lib_error c (str m) None (ExpOther r true) g = Lib c (error_text m r g).
Proof. unfold lib_error. rewrite error_str_text. cbn [expectation]. rewrite app_nil_r. reflexivity. Qed.
(** Error(message, expected=<a list>, got=...) *)
Lemma lib_error_list c m items g : items <> [] -> lib_error c (str m) None (ExpList items) g = Lib c (error_text m (quoted_list items) g).
Proof.
  intros H. unfold lib_error. rewrite error_str_text. destruct items; [congruence|]. cbn [expectation]. rewrite app_nil_r. reflexivity.
Qed.
