(** What a filter that is put together from calls asks for. *)
From Coq Require Import String.
From Verif Require Import Base Util UtilSpec Types Log TreeSpec FilterBuild.

(** A filter asks for keys by the names on the way to them: each name is given, or
    has to match a regular expression. *)
Inductive piece := Name (name : list N) | Matching (regex : list N).
(** What a call says: a path gives its names, a literal segment gives one name
    (backslashes around it do not count). *)
Inductive says : filter_call -> list piece -> Prop :=
| says_path segs b : path_names segs -> segs <> [] -> says (AddKeyPath (utf8 (joined segs ++ repeat 92 b))) (map Name segs)
| says_name a seg b : Forall scalar seg -> ~ In 92 seg -> says (AddLiteralSegment (utf8 (repeat 92 a ++ seg ++ repeat 92 b))) [Name seg]
| says_regex s : says (AddRegexSegment s) [Matching s]
| says_root on : says (KeyPathHasRoot on) []
| says_children on : says (ReturnChildKeys on) [].
(** The last of the calls that set a flag counts; without one it is off. *)
Definition setting (read : filter_call -> option bool) (calls : list filter_call) : bool :=
  fold_left (fun on c => match read c with Some b => b | None => on end) calls false.
Definition root_flag (c : filter_call) : option bool := match c with KeyPathHasRoot b => Some b | _ => None end.
Definition children_flag (c : filter_call) : option bool := match c with ReturnChildKeys b => Some b | _ => None end.
(** The errors that the library has with the expressions. *)
Definition refused (compile : regex_library) (calls : list filter_call) : list (list N) :=
  flat_map (fun c => match c with
    | AddRegexSegment s => match compile (map fold_case s) with inl _ => [] | inr e => [e] end
    | _ => [] end) calls.

(** A name is what a piece asks for: it differs from the name given in case only;
    or its lower-case text matches the expression in lower case. *)
Definition fits (compile : regex_library) (p : piece) (name : list N) : Prop :=
  match p with
  | Name n => map fold_case n = map fold_case name
  | Matching s => match compile (map fold_case s) with inl is_match => is_match (utf8 (map fold_case name)) = true | inr _ => False end
  end.
(** The names that the pieces are compared with: those below the root, or all,
    after an empty one. *)
Definition compared_names (has_root : bool) (names : list (list N)) : list (list N) :=
  if has_root then [] :: names else tl names.
(** The keys that are asked for: those whose names fit; those below such a key if
    children are asked for; those on the way to where such keys may be, and the
    root, if ancestors are asked for. *)
Inductive chosen (compile : regex_library) (pieces : list piece) (has_root children ancestors : bool) (names : list (list N)) : Prop :=
| chosen_root r : names = [r] -> ancestors = true -> chosen compile pieces has_root children ancestors names
| chosen_at : (2 <= List.length names)%nat -> Forall2 (fits compile) pieces (compared_names has_root names) -> chosen compile pieces has_root children ancestors names
| chosen_below front rest : (2 <= List.length names)%nat -> compared_names has_root names = front ++ rest -> rest <> [] ->
    Forall2 (fits compile) pieces front -> children = true -> chosen compile pieces has_root children ancestors names
| chosen_above front rest : (2 <= List.length names)%nat -> pieces = front ++ rest -> rest <> [] ->
    Forall2 (fits compile) front (compared_names has_root names) -> ancestors = true -> chosen compile pieces has_root children ancestors names.
(** Those on the way, except the root, are shown without their values. *)
Definition shown_as (pieces : list piece) (has_root : bool) (x y : list (list N) * key_tree) : Prop :=
  fst y = fst x
  /\ ((2 <= List.length (fst x))%nat /\ (List.length (compared_names has_root (fst x)) < List.length pieces)%nat /\ snd y = without_values (snd x)
      \/ ~ ((2 <= List.length (fst x))%nat /\ (List.length (compared_names has_root (fst x)) < List.length pieces)%nat) /\ snd y = snd x).
