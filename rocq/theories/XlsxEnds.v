(** Writing a spreadsheet ends. *)
From Coq Require Import String.
From Verif Require Import Base BaseFacts Util Types Value Node Log Export Date Show Xlsx ExportFacts ExportSafe.
Open Scope list_scope.

(** ** Characters *)
Lemma chars_char c r : str_chars (utf8_char c ++ r) = c :: str_chars r.
Proof.
  unfold utf8_char. destruct (N.ltb_spec c 0x80); [|destruct (N.ltb_spec c 0x800); [|destruct (N.ltb_spec c 0x10000)]]; cbn [app str_chars];
  repeat match goal with |- context [if ?a <? ?b then _ else _] => destruct (N.ltb_spec a b) end; try lia; f_equal; lia.
Qed.
Lemma chars_utf8 cs : str_chars (utf8 cs) = cs.
Proof. induction cs as [|c cs IH]; [reflexivity|]. change (utf8 (c :: cs)) with (utf8_char c ++ utf8 cs). rewrite chars_char. now rewrite IH. Qed.
Lemma chars_length : forall n s, (List.length s <= n)%nat -> (List.length (str_chars s) <= List.length s)%nat.
Proof.
  induction n as [|n IH]; intros [|a r] L; cbn [str_chars List.length] in *; try lia.
  destruct (_ <? _); [specialize (IH r); cbn [List.length]; lia|].
  destruct (_ <? _); [destruct r as [|b r]; cbn [List.length] in *; [lia|specialize (IH r); lia]|].
  destruct (_ <? _); [destruct r as [|b [|c r]]; cbn [List.length] in *; try lia; specialize (IH r); lia|].
  destruct r as [|b [|c [|d r]]]; cbn [List.length] in *; try lia. specialize (IH r); lia.
Qed.

Definition ended {A} (x : res A) : Prop := x <> OutOfFuel.
Lemma bind_ended {A B} (x : res A) (f : A -> res B) : ended x -> (forall a, ended (f a)) -> ended (match x with Ok a => f a | Err => Err | Panic => Panic | OutOfFuel => OutOfFuel end).
Proof. intros X F. destruct x; [apply F|discriminate|discriminate|now elim X]. Qed.
Lemma chunks_utf8 fuel : forall cs, (List.length cs <= fuel)%nat -> ended (chunks fuel (utf8 cs)).
Proof.
  induction fuel as [|fuel IH]; intros [|c cs] L; cbn [List.length] in L; try lia; try discriminate.
  assert (NE : exists x r, utf8 (c :: cs) = x :: r).
  { change (utf8 (c :: cs)) with (utf8_char c ++ utf8 cs). unfold utf8_char. destruct (_ <? _); [cbn; eauto|]. destruct (_ <? _); [cbn; eauto|]. destruct (_ <? _); cbn; eauto. }
  destruct NE as (x & r & NE). unfold chunks; fold chunks. rewrite NE. rewrite <- NE. unfold safe_split_at. rewrite chars_utf8. apply bind_ended; [|discriminate].
  apply IH. rewrite skipn_length. rewrite NE. unfold max_excel_cell_len, len. cbn [List.length] in *. lia.
Qed.
Lemma chunks_ended val : ended (chunks (List.length val) val).
Proof.
  destruct val as [|x val]; [discriminate|]. cbn [List.length chunks]. unfold safe_split_at. apply bind_ended; [|discriminate].
  apply chunks_utf8. rewrite skipn_length. pose proof (chars_length _ (x :: val) (le_n _)) as L. unfold max_excel_cell_len, len. cbn [List.length] in *. lia.
Qed.

(** ** Cells, keys, sheets *)
Section Sheets.
Context (accepts : list write -> write -> bool) (printable : N -> bool) (key_logs : key_node -> list N) (value_logs : key_value -> list N)
  (recovered_only : bool).
Lemma put_ended s c w b : ended (put accepts s c w b).
Proof. unfold put. cbv zeta. destruct (accepts _ _); [destruct b|]; discriminate. Qed.
Lemma put_chunks_ended l : forall col b, ended (put_chunks accepts l col b).
Proof. induction l as [|c l IH]; intros col b; cbn [put_chunks]; [discriminate|]. destruct (_ <? _); [discriminate|]. apply bind_ended; [apply put_ended|intros; apply IH]. Qed.
Lemma overflow_ended s c v b : ended (write_string_handle_overflow accepts s c v b).
Proof.
  unfold write_string_handle_overflow. destruct (_ <? _); [|apply put_ended]. apply bind_ended; [apply chunks_ended|intros cs]. cbv zeta.
  apply bind_ended; [apply put_ended|intros b1]. apply bind_ended; [apply put_chunks_ended|intros b2]. apply bind_ended; [apply put_ended|intros b3]. apply put_ended.
Qed.
Lemma check_ended s c v b : ended (check_write_string accepts s c v b).
Proof. destruct v; [discriminate|]. apply overflow_ended. Qed.
Lemma put_if_ended s c n b : ended (put_if accepts s c n b).
Proof. destruct n; [apply put_ended|discriminate]. Qed.
Lemma each_ended {A} (f : A -> book -> res book) l : Forall (fun x => forall b, ended (f x b)) l -> forall b, ended (write_each f l b).
Proof. induction 1 as [|x l X F IH]; intros b; cbn; [discriminate|]. apply bind_ended; [apply X|exact IH]. Qed.
Ltac cells := repeat first [apply bind_ended; [first [apply put_ended|apply check_ended|apply put_if_ended]|intros ?]].
Lemma xlsx_value_ended k v b : ended (write_value accepts printable value_logs recovered_only k v b).
Proof. unfold write_value. destruct (_ && _); [discriminate|]. cbv zeta. cells. apply check_ended. Qed.
Lemma xlsx_key_ended : forall k m b, ended (write_key accepts printable key_logs value_logs recovered_only k m b).
Proof.
  apply (versions_ind (fun k => forall m b, ended (write_key accepts printable key_logs value_logs recovered_only k m b))).
  intros k IH m b. rewrite xlsx_key_eq. apply bind_ended.
  - destruct (_ || _); [|discriminate]. cbv zeta. cells. apply each_ended. eapply Forall_impl; [|exact IH]. intros v X b1. apply X.
  - intros b1. destruct m; [discriminate|]. apply each_ended. apply Forall_forall. intros v _ b2. apply bind_ended; [apply xlsx_value_ended|].
    intros b3. apply each_ended. apply Forall_forall. intros v2 _ b4. apply xlsx_value_ended.
Qed.
Lemma xlsx_export_ended ks log : ended (xlsx_export accepts printable key_logs value_logs recovered_only ks log).
Proof.
  unfold xlsx_export. apply bind_ended.
  { generalize 0. generalize new_book. induction xlsx_header as [|h l IH]; intros b c; [discriminate|]. cbn [put_header]. apply bind_ended; [apply put_ended|intros b1; apply IH]. }
  intros b. apply bind_ended; [apply each_ended; apply Forall_forall; intros k _ b1; apply xlsx_key_ended|]. intros b1.
  destruct (logs_get log) as [ms|]; [|discriminate]. apply each_ended. apply Forall_forall. intros x _ b2. unfold write_log. cells. discriminate.
Qed.
End Sheets.
