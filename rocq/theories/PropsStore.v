(** The properties of the stores of deleted and modified items: statements only,
    with a concrete case beside each. The specification is StoreSpec.v. *)
From Verif Require Import Base BaseFacts Types Node Recover CellSpec StoreSpec StoreFacts Demo DemoCell DemoTree.

(** C41. Deleted values: after any additions and removals, what was added under
    a path and not removed, in the order it was added. *)
Theorem C41_deleted_values : forall l path,
  held beq path (fold_left value_store l []) = entries_under beq path (fold_left value_entries l []).
Proof. intros l path. exact (proj2 (value_stores l [] [] (sound_nil beq)) path). Qed.
Print Assumptions C41_deleted_values.
(** Versions of keys, and deleted keys while none is removed. *)
Theorem C41_added_keys : forall (l : entries (list N) key_node) path,
  held beq path (fold_left (fun m e => map_push beq (fst e) (snd e) m) l []) = entries_under beq path l.
Proof. intros l path. exact (adds_held beq beq_iff l [] path). Qed.
Print Assumptions C41_added_keys.
(** Versions of values, under the path of the key and the name of the value. *)
Theorem C41_added_values : forall (l : entries (list N * list N) key_value) path name,
  held pair_eqb (path, name) (fold_left (fun m e => map_push pair_eqb (fst e) (snd e) m) l [])
  = entries_under (fun a b => beq (fst a) (fst b) && beq (snd a) (snd b)) (path, name) l.
Proof. intros l path name. exact (adds_held pair_eqb pair_iff l [] (path, name)). Qed.
Print Assumptions C41_added_values.
(** Deleted keys. Missing: removals that take the last key out of the list of its
    parent while there are keys stored below the removed key; see
    [C41_deleted_keys_refuted]. *)
Theorem C41_deleted_keys_partial : forall l path, sparing [] l ->
  held beq path (fold_left key_store l []) = entries_under beq path (fold_left key_entries l []).
Proof. intros l path S. exact (proj2 (key_stores l [] [] (sound_nil beq) S) path). Qed.
Print Assumptions C41_deleted_keys_partial.

Definition some_key (path : list N) (hash : N) : key_node :=
  mkKN 0 default_detail [] path Allocated None None [] [] [] (Some hash) [] [] 0 0 None 0.
Definition p_a : list N := [92; 65].
Definition p_ab : list N := [92; 65; 92; 66].
Definition p_ac : list N := [92; 65; 92; 67].
Definition p_abd : list N := [92; 65; 92; 66; 92; 68].
Definition some_ops : list key_op :=
  [AddKey p_a (some_key p_ab 1); AddKey p_a (some_key p_ac 2); AddKey p_ab (some_key p_abd 3); RemoveKey p_ab 1; RemoveKey p_ac 7].
Example C41_example : sparing [] some_ops
  /\ held beq p_a (fold_left key_store some_ops []) = [some_key p_ac 2]
  /\ held beq p_ab (fold_left key_store some_ops []) = [some_key p_abd 3].
Proof.
  split; [|split; reflexivity]. cbn [sparing some_ops]. split; [exact I|]. split; [exact I|]. split; [exact I|]. split; [right; left|split; [left|exact I]].
  - vm_compute. discriminate.
  - reflexivity.
Qed.
(** When the removed key was the only one below its parent, the keys stored below
    the removed key are lost as well. *)
Definition lost_ops : list key_op := [AddKey p_a (some_key p_ab 1); AddKey p_ab (some_key p_abd 3); RemoveKey p_ab 1].
Theorem C41_deleted_keys_refuted : exists l path k,
  entries_under beq path (fold_left key_entries l []) = [k] /\ held beq path (fold_left key_store l []) = [].
Proof. exists lost_ops, p_ab, (some_key p_abd 3). split; reflexivity. Qed.
Print Assumptions C41_deleted_keys_refuted.

Definition some_value (name : list N) (hash : N) : key_value :=
  mkKV 0 (mkVD 0 0 0 0 0 0 0 name [] None None) 0 0 [] DeletedTransactionLog [] [] (Some hash) None None.
Definition value_ops : list value_op :=
  [AddValue p_a (some_value [120] 1); AddValue p_ab (some_value [120] 1); AddValue p_a (some_value [121] 2); AddValue p_a (some_value [120] 1);
   RemoveValue p_a [120] 2; RemoveValue p_a [120] 1; RemoveValue p_ab [120] 1].
Example C41_values_example :
  held beq p_a (fold_left value_store value_ops []) = [some_value [121] 2; some_value [120] 1]
  /\ held beq p_ab (fold_left value_store value_ops []) = [].
Proof. split; reflexivity. Qed.
