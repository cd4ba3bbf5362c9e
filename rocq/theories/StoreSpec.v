(** The stores of deleted and of modified items: what a history of additions and
    removals leaves under a path. The history is kept as one list of entries. *)
From Verif Require Import Base Types Recover.

(** What a map holds under a key. *)
Definition held {K A} (eqb : K -> K -> bool) (k : K) (m : amap K (list A)) : list A :=
  match aget eqb k m with Some l => l | None => [] end.

(** The entries of a store in the order they were added. *)
Definition entries (K A : Type) := list (K * A).
Definition entries_under {K A} (eqb : K -> K -> bool) (k : K) (s : entries K A) : list A :=
  map snd (List.filter (fun e => eqb k (fst e)) s).
(** The first entry under a key that passes a test is taken out. *)
Fixpoint take_out {K A} (eqb : K -> K -> bool) (k : K) (test : A -> bool) (s : entries K A) : entries K A :=
  match s with
  | [] => []
  | e :: r => if eqb k (fst e) && test (snd e) then r else e :: take_out eqb k test r
  end.

(** Operations on the store of deleted values. *)
Inductive value_op :=
| AddValue (path : list N) (v : key_value)
| RemoveValue (path name : list N) (hash : N).
Definition same_value (name : list N) (hash : N) (v : key_value) : bool :=
  beq (vd_name (kv_detail v)) name && match kv_hash v with Some h => hash =? h | None => false end.
Definition value_entries (s : entries (list N) key_value) (o : value_op) : entries (list N) key_value :=
  match o with
  | AddValue path v => s ++ [(path, v)]
  | RemoveValue path name hash => take_out beq path (same_value name hash) s
  end.

(** The path before the last backslash; nothing if there is none. *)
Fixpoint after_bs (s : list N) : list N :=
  match s with [] => [] | c :: r => if c =? 92 then r else after_bs r end.
Definition parent_of (path : list N) : list N := rev (after_bs (rev path)).
(** Operations on a store of keys: a key is removed by its own path, from the
    list of its parent. *)
Inductive key_op :=
| AddKey (path : list N) (k : key_node)
| RemoveKey (path : list N) (hash : N).
Definition same_key (path : list N) (hash : N) (k : key_node) : bool :=
  match kn_hash k with Some h => (hash =? h) && beq path (kn_path k) | None => false end.
Definition key_entries (s : entries (list N) key_node) (o : key_op) : entries (list N) key_node :=
  match o with
  | AddKey path k => s ++ [(path, k)]
  | RemoveKey path hash => take_out beq (parent_of path) (same_key path hash) s
  end.
(** A removal does not take out the last key of a list while keys are stored
    under the path of the removed key. *)
Definition spares (s : entries (list N) key_node) (o : key_op) : Prop :=
  match o with
  | AddKey _ _ => True
  | RemoveKey path hash =>
      let s' := key_entries s o in
      s' = s \/ entries_under beq (parent_of path) s' <> [] \/ entries_under beq path s' = []
  end.
Fixpoint sparing (s : entries (list N) key_node) (l : list key_op) : Prop :=
  match l with [] => True | o :: r => spares s o /\ sparing (key_entries s o) r end.

(** The same operations on the stores of the model. *)
Definition value_store (m : amap (list N) (list key_value)) (o : value_op) : amap (list N) (list key_value) :=
  match o with
  | AddValue path v => map_push beq path v m
  | RemoveValue path name hash => deleted_values_remove path name hash m
  end.
Definition key_store (m : amap (list N) (list key_node)) (o : key_op) : amap (list N) (list key_node) :=
  match o with
  | AddKey path k => map_push beq path k m
  | RemoveKey path hash => deleted_keys_remove path hash m
  end.
