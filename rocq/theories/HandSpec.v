(** Histories of calls with the keys that a program holds. *)
From Verif Require Import Base Types Node Parser.
Open Scope list_scope.

Definition got (o : option key_node) : list key_node := match o with Some k => [k] | None => [] end.
(** A parser after any number of calls, and the keys a program has then: the root and
    those found by path, each as often as it was asked for, and the keys below them, by
    path, by name, by index, one after the other or all at once. Parents may be asked
    for but are not gone down from. *)
Inductive in_hand (p : parser) : parser -> list key_node -> Prop :=
| hand_start : in_hand p p []
| hand_root q ks o q' : in_hand p q ks -> get_root_key q = Ok (o, q') -> in_hand p q' (got o ++ ks)
| hand_key q ks fuel path has_root o q' : in_hand p q ks -> get_key fuel q path has_root = Ok (o, q') -> in_hand p q' (got o ++ ks)
| hand_by_path q ks k fuel path o st : in_hand p q ks -> In k ks ->
    get_sub_key_by_path fuel (ps_file q) (ps_state q) k path = Ok (o, st) -> in_hand p (ps_set_state st q) (got o ++ ks)
| hand_by_name q ks k name o q' : in_hand p q ks -> In k ks -> get_sub_key q k name = Ok (o, q') -> in_hand p q' (got o ++ ks)
| hand_sub_keys q ks k k' cs st : in_hand p q ks -> In k ks ->
    read_sub_keys (ps_file q) (ps_state q) k = Ok (k', cs, st) -> in_hand p (ps_set_state st q) (k' :: cs ++ ks)
| hand_by_index q ks k i k' o st : in_hand p q ks -> In k ks ->
    get_sub_key_by_index (ps_file q) (ps_state q) k i = Ok (k', o, st) -> in_hand p (ps_set_state st q) (k' :: got o ++ ks)
| hand_next q ks k k' o st : in_hand p q ks -> In k ks ->
    next_sub_key (ps_file q) (ps_state q) k = Ok (k', o, st) -> in_hand p (ps_set_state st q) (k' :: got o ++ ks)
| hand_parent q ks k o q' : in_hand p q ks -> get_parent_key q k = Ok (o, q') -> in_hand p q' ks.
