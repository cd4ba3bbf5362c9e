(** What it means that a call does not abort the program, and which histories of
    calls are meant. *)
From Verif Require Import Base LayoutSpec BaseBlock Types Value Node Recover Parser TxLog TxSpec.

(** The call returns a value or an error, or is still running: it does not
    abort. *)
Definition no_abort {A} (x : res A) : Prop := x <> Panic.

(** Bytes of [f] that read as the head of an entry of a log and give it a size
    smaller than that head. *)
Definition short_entry (f : list N) (pos : N) : Prop :=
  pos + 40 <= len f /\ bytes_at f pos 4 = [72; 118; 76; 69] /\ num_at f (pos + 4) 4 < 40.

(** A parser after any number of calls: the root, look-ups by path, parents, and
    the sub keys of any keys, one by one or all. *)
Inductive asked (p : parser) : parser -> Prop :=
| asked_not : asked p p
| asked_root p1 p2 k : asked p p1 -> get_root_key p1 = Ok (k, p2) -> asked p p2
| asked_key p1 p2 fuel path has_root k : asked p p1 -> get_key fuel p1 path has_root = Ok (k, p2) -> asked p p2
| asked_parent p1 p2 child k : asked p p1 -> get_parent_key p1 child = Ok (k, p2) -> asked p p2
| asked_sub_keys p1 parent k ks st : asked p p1 ->
    read_sub_keys (ps_file p1) (ps_state p1) parent = Ok (k, ks, st) -> asked p (ps_set_state st p1)
| asked_by_index p1 parent i k c st : asked p p1 ->
    get_sub_key_by_index (ps_file p1) (ps_state p1) parent i = Ok (k, c, st) -> asked p (ps_set_state st p1)
| asked_next p1 parent k c st : asked p p1 ->
    next_sub_key (ps_file p1) (ps_state p1) parent = Ok (k, c, st) -> asked p (ps_set_state st p1).
