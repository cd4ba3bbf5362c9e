(** The builder of filters, src/filter.rs:81-150, as a history of calls. The
    library of regular expressions (crate regex) is a parameter: it turns the text
    of an expression into its [is_match], or gives the text of an error. *)
From Coq Require Import String.
From Verif Require Import Base Util Types Node Log.

Definition regex_library : Type := list N -> (list N -> bool) + list N.

(** The calls of [FilterBuilder], src/filter.rs:99-133. *)
Inductive filter_call :=
| AddKeyPath (path : list N)
| AddLiteralSegment (segment : list N)
| AddRegexSegment (regex : list N)
| KeyPathHasRoot (has_root : bool)
| ReturnChildKeys (children : bool).
(** [FilterBuilder], src/filter.rs:81-87: the segments and the two flags, and the
    errors of regular expressions. *)
Record filter_builder := mkFilterBuilder { fb_query : reg_query; fb_errors : list (list N) }.
(** [FilterBuilder::new], src/filter.rs:90-97. *)
Definition filter_new : filter_builder := mkFilterBuilder empty_query [].
(** One call, src/filter.rs:99-133. An expression that the library refuses adds no
    segment. *)
Definition filter_called (compile : regex_library) (b : filter_builder) (c : filter_call) : filter_builder :=
  match c with
  | AddKeyPath path => mkFilterBuilder (add_key_path (fb_query b) path) (fb_errors b)
  | AddLiteralSegment s => mkFilterBuilder (add_literal_segment (fb_query b) s) (fb_errors b)
  | AddRegexSegment s =>
      match compile (to_lower s) with
      | inl r => mkFilterBuilder (add_regex_segment (fb_query b) r) (fb_errors b)
      | inr e => mkFilterBuilder (fb_query b) (fb_errors b ++ [e])
      end
  | KeyPathHasRoot on => mkFilterBuilder (with_has_root on (fb_query b)) (fb_errors b)
  | ReturnChildKeys on => mkFilterBuilder (with_children on (fb_query b)) (fb_errors b)
  end.
(** [errors.join(sep)] of std. *)
Fixpoint join_texts (sep : list N) (l : list (list N)) : list N :=
  match l with
  | [] => []
  | x :: r => match r with [] => x | _ => x ++ sep ++ join_texts sep r end
  end.
(** [FilterBuilder::build], src/filter.rs:135-149: the filter, or the detail of the
    error. *)
Definition filter_build (b : filter_builder) : reg_query + list N :=
  match fb_errors b with
  | [] => inl (fb_query b)
  | es => inr (text "Regex errors encountered: " ++ join_texts (text ", ") es)
  end.
(** A whole use of the builder. *)
Definition make_filter (compile : regex_library) (calls : list filter_call) : reg_query + list N :=
  filter_build (fold_left (filter_called compile) calls filter_new).
