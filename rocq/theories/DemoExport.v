(** Keys and values of several states, for the examples beside the theorems about
    the exports. Nothing here models code. *)
From Coq Require Import String.
From Verif Require Import Base Types Node Log Export Demo.
Open Scope string_scope.
Open Scope N_scope.
Open Scope list_scope.

Definition show_value (offset : N) (name : list N) (data : list N) (s : cell_state) (vs : list key_value) : key_value :=
  mkKV offset (mkVD 0 (len name) (len data) 0 3 1 0 name [] (Some data) None) 3 1 [] s [] vs None None None.
Definition show_key (offset : N) (path name : list N) (s : cell_state) (values : list key_value) (vs : list key_node) : key_node :=
  mkKN offset default_detail name path s (Some 7) None values [] [] None vs [] 0 0 None 0.
(** A key whose name holds a comma, with an earlier version, a value whose name
    holds a quote and which has an earlier version, and a value from unused space;
    then a key from unused space and a key without anything special. *)
Definition e_old_value := show_value 5000 (text "a""b") [1; 2] ModifiedTransactionLog [].
Definition e_value := show_value 4500 (text "a""b") [255] Allocated [e_old_value].
Definition e_lost_value := show_value 4600 [] [16] DeletedPrimaryFileSlack [].
Definition e_old_key := show_key 4200 (text "\R\x,y") (text "x,y") ModifiedTransactionLog [] [].
Definition e_key := show_key 4300 (text "\R\x,y") (text "x,y") Allocated [e_value; e_lost_value] [e_old_key].
Definition e_lost_key := show_key 4700 (text "\R\lost") (text "lost") DeletedPrimaryFile [] [].
Definition e_plain_key := show_key 4800 (text "\R\z") (text "z") Allocated [] [].
Definition e_keys := [e_key; e_lost_key; e_plain_key].
Definition e_show : renderer :=
  mkRender (fun _ => text "1601-01-01T00:00:00Z") (fun _ => text "F") (fun _ => text "0")
    (fun _ => text "data") (fun _ => text "RegBin") (fun _ => []) (fun _ => []).
(** A header whose file type is not a known one. *)
Definition odd_file : list N := firstn 28 (header 1 1 32 4096) ++ enc 4 2 ++ skipn 32 (header 1 1 32 4096).

Lemma checked {A} (x : res A) (c : A -> bool) (P : A -> Prop) : (forall a, c a = true -> P a) ->
  match x with Ok a => c a | _ => false end = true -> exists a, x = Ok a /\ P a.
Proof. intros H E. destruct x as [a| | |]; try discriminate E. eauto. Qed.
