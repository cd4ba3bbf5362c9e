(** The part of a tree that a path asks for: the key at the path and all that is
    below it. *)
From Verif Require Import Base Util Types UtilSpec LayoutSpec Value Node CellSpec TreeSpec Parser.

(** The names begin with those of the path, in any case. *)
Fixpoint leads (segs names : list (list N)) : bool :=
  match segs, names with
  | [], _ => true
  | s :: segs, n :: names => same_name n s && leads segs names
  | _, [] => false
  end.
(** A path is written without the name of the root. *)
Definition part (segs : list (list N)) (t : key_tree) : list (list (list N) * key_tree) :=
  List.filter (fun x => leads segs (tl (fst x))) (preorder [] t).
(** Its keys, each followed by its values. *)
Definition part_items (segs : list (list N)) (t : key_tree) : list (list (list N) * key_tree * option value) :=
  flat_map (fun x => (x, None) :: map (fun v => (x, Some v)) (t_vals (snd x))) (part segs t).
(** The text on the command line: the names separated by backslashes, and perhaps
    backslashes after them; without one, the whole hive is asked for. *)
Definition asked (given : option (list N)) (segs : list (list N)) : Prop :=
  match given with
  | None => segs = []
  | Some s => segs <> [] /\ path_names segs /\ exists b, s = utf8 (joined segs ++ repeat 92 b)
  end.
