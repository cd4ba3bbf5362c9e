(** Model of bin/reg_compare.rs: the comparison of two hives and the two outputs.
    The search for files, the console messages and the failures of writing to a
    file are not modelled; a writer is the bytes it has written. *)
From Coq Require Import String.
From Verif Require Import Base Util Types Value Node Parser TxLog Log Export.
Open Scope string_scope.
Open Scope N_scope.
Open Scope list_scope.

(** The map from paths and value names to hashes, bin/reg_compare.rs:257, and the
    equality of [Option<Hash>]. *)
Definition hash_map := amap item_key (option N).
Definition hash_eqb (a b : option N) : bool :=
  match a, b with Some x, Some y => x =? y | None, None => true | _, _ => false end.

(** The six vectors, bin/reg_compare.rs:280-285. *)
Record changes := mkChanges {
  cg_keys_deleted : list key_node;
  cg_keys_added : list key_node;
  cg_keys_modified : list (key_node * key_node);
  cg_values_deleted : list (list N * key_value);
  cg_values_added : list (list N * key_value);
  cg_values_modified : list (list N * key_value * key_value)
}.
Definition no_changes : changes := mkChanges [] [] [] [] [] [].
Definition add_key_deleted (k : key_node) (c : changes) : changes :=
  let '(mkChanges a b d e f g) := c in mkChanges (a ++ [k]) b d e f g.
Definition add_key_added (k : key_node) (c : changes) : changes :=
  let '(mkChanges a b d e f g) := c in mkChanges a (b ++ [k]) d e f g.
Definition add_key_modified (o k : key_node) (c : changes) : changes :=
  let '(mkChanges a b d e f g) := c in mkChanges a b (d ++ [(o, k)]) e f g.
Definition add_value_deleted (path : list N) (v : key_value) (c : changes) : changes :=
  let '(mkChanges a b d e f g) := c in mkChanges a b d (e ++ [(path, v)]) f g.
Definition add_value_added (path : list N) (v : key_value) (c : changes) : changes :=
  let '(mkChanges a b d e f g) := c in mkChanges a b d e (f ++ [(path, v)]) g.
Definition add_value_modified (path : list N) (o v : key_value) (c : changes) : changes :=
  let '(mkChanges a b d e f g) := c in mkChanges a b d e f (g ++ [(path, o, v)]).

(** The loop over the base hive, bin/reg_compare.rs:263-277. *)
Definition original_map (ks : list key_node) : hash_map :=
  fold_left (fun m k =>
    fold_left (fun m v => aset item_key_eqb (kn_path k, Some (vd_name (kv_detail v))) (kv_hash v) m)
      (values_of k) (aset item_key_eqb (kn_path k, None) (kn_hash k) m)) ks [].

(** [parser1.get_key(path, true).unwrap().unwrap()], bin/reg_compare.rs:306-307,
    317,337,341. *)
Definition original_key (fuel : nat) (p : parser) (path : list N) : res (key_node * parser) :=
  match get_key fuel p path true with
  | Ok (Some k, p) => Ok (k, p)
  | Ok (None, _) | Err | Panic => Panic
  | OutOfFuel => OutOfFuel
  end.

(** The inner loop over the values, bin/reg_compare.rs:313-325. *)
Fixpoint compare_values (fuel : nat) (path : list N) (vs : list key_value) (m : hash_map) (p : parser) (c : changes)
  : res (hash_map * parser * changes) :=
  match vs with
  | [] => Ok (m, p, c)
  | v :: vs =>
      let name := vd_name (kv_detail v) in
      match aget item_key_eqb (path, Some name) m with
      | Some h =>
          let m := adel item_key_eqb (path, Some name) m in
          if hash_eqb h (kv_hash v) then compare_values fuel path vs m p c
          else
            let* (k, p) := original_key fuel p path in
            let* o := or_panic (get_value k name) in
            compare_values fuel path vs m p (add_value_modified path o v c)
      | None => compare_values fuel path vs m p (add_value_added path v c)
      end
  end.
(** The loop over the comparison hive, bin/reg_compare.rs:300-330. *)
Fixpoint compare_keys (fuel : nat) (ks : list key_node) (m : hash_map) (p : parser) (c : changes)
  : res (hash_map * parser * changes) :=
  match ks with
  | [] => Ok (m, p, c)
  | k :: ks =>
      let* (m, p, c) :=
        match aget item_key_eqb (kn_path k, None) m with
        | Some h =>
            let m := adel item_key_eqb (kn_path k, None) m in
            if hash_eqb h (kn_hash k) then Ok (m, p, c)
            else
              let* (o, p) := original_key fuel p (kn_path k) in
              Ok (m, p, add_key_modified o k c)
        | None => Ok (m, p, add_key_added k c)
        end in
      let* (m, p, c) := compare_values fuel (kn_path k) (values_of k) m p c in
      compare_keys fuel ks m p c
  end.
(** The loop over what is left in the map, bin/reg_compare.rs:334-346. *)
Fixpoint compare_rest (fuel : nat) (rest : list (item_key * option N)) (p : parser) (c : changes) : res changes :=
  match rest with
  | [] => Ok c
  | ((path, None), _) :: rest =>
      let* (k, p) := original_key fuel p path in
      compare_rest fuel rest p (add_key_deleted k c)
  | ((path, Some name), _) :: rest =>
      let* (k, p) := original_key fuel p path in
      let* v := or_panic (get_value k name) in
      compare_rest fuel rest p (add_value_deleted (kn_path k) v c)
  end.

(** [reg_compare], bin/reg_compare.rs:230-346, from the two parsers to the six
    vectors; [order] is the order in which the map is iterated. *)
Definition reg_compare (order : hash_map -> hash_map) (fuel : nat) (p1 p2 : parser) (f : filter) : res changes :=
  let* ks1 := iterate fuel p1 f false true false in
  let* ks2 := iterate fuel p2 f false true false in
  let* (m, p1, c) := compare_keys fuel ks2 (original_map ks1) p1 no_changes in
  compare_rest fuel (order m) p1 c.

(** ** Output *)

(** [format_key] and [format_value], bin/reg_compare.rs:622-641. The texts of the
    flags, the content ([{:?}] here) and the date are not modelled (see Export.v). *)
Definition format_key (r : renderer) (k : key_node) : list N :=
  kn_path k ++ [9] ++ rd_date r (kn_date k) ++ [9]
  ++ rd_flags r (kd_flags (kn_detail k)) ++ [9] ++ rd_access r (kd_access (kn_detail k)).
Definition format_value (r : renderer) (path : list N) (v : key_value) : list N :=
  path ++ [9] ++ kv_pretty_name v ++ [9] ++ rd_content r v.

(** [write_diff_section], bin/reg_compare.rs:466-491: what is written and the next
    line numbers. *)
Definition diff_section (lline : N) (left : list (list N)) (rline : N) (right : list (list N)) : list N * N * N :=
  let llen := len left in
  let rlen := len right in
  if (0 <? llen) || (0 <? rlen) then
    (text "@@ -" ++ decimal lline ++ text "," ++ decimal llen ++ text " +" ++ decimal rline ++ text "," ++ decimal rlen ++ text " @@" ++ [10]
     ++ flat_map (fun l => text "-" ++ l ++ [10]) left ++ flat_map (fun l => text "+" ++ l ++ [10]) right,
     lline + llen, rline + rlen)
  else ([], lline, rline).
(** [write_diff] and the six functions it calls, bin/reg_compare.rs:493-620. *)
Definition write_diff (r : renderer) (base comparison : list N) (c : changes) : list N :=
  let head := text "--- " ++ base ++ [10] ++ text "+++ " ++ comparison ++ [10] in
  let '(a1, l, n) := diff_section 1 (map (format_key r) (cg_keys_deleted c)) 1 [] in
  let '(a2, l, n) := diff_section l [] n (map (format_key r) (cg_keys_added c)) in
  let '(a3, l, n) := diff_section l (map (fun k => format_key r (fst k)) (cg_keys_modified c)) n (map (fun k => format_key r (snd k)) (cg_keys_modified c)) in
  let '(a4, l, n) := diff_section l (map (fun v => format_value r (fst v) (snd v)) (cg_values_deleted c)) n [] in
  let '(a5, l, n) := diff_section l [] n (map (fun v => format_value r (fst v) (snd v)) (cg_values_added c)) in
  let '(a6, l, n) :=
    diff_section l (map (fun v => format_value r (fst (fst v)) (snd (fst v))) (cg_values_modified c))
                 n (map (fun v => format_value r (fst (fst v)) (snd v)) (cg_values_modified c)) in
  head ++ a1 ++ a2 ++ a3 ++ a4 ++ a5 ++ a6.

(** [zip_longest] of two lists, one after the other (itertools). *)
Fixpoint interleave {A} (a b : list A) : list A :=
  match a, b with
  | x :: a, y :: b => x :: y :: interleave a b
  | a, [] => a
  | [], b => b
  end.
(** [write_text_section], bin/reg_compare.rs:367-391. *)
Definition rule : list N := text "----------------------------------".
Definition text_section (header : string) (removed added : list (list N)) (n : N) : list N :=
  [10] ++ rule ++ [10] ++ text header ++ text ": " ++ decimal n ++ [10] ++ rule ++ [10] ++ lines (interleave removed added).
(** [write_text], bin/reg_compare.rs:393-464. *)
Definition write_text (r : renderer) (base comparison : list N) (c : changes) : list N :=
  let total := len (cg_keys_deleted c) + len (cg_keys_added c) + len (cg_keys_modified c)
    + len (cg_values_deleted c) + len (cg_values_added c) + len (cg_values_modified c) in
  text "Base: " ++ base ++ text " " ++ [10] ++ text "Comparison: " ++ comparison ++ [10]
  ++ text_section "Keys deleted" (map (format_key r) (cg_keys_deleted c)) [] (len (cg_keys_deleted c))
  ++ text_section "Keys added" [] (map (format_key r) (cg_keys_added c)) (len (cg_keys_added c))
  ++ text_section "Keys modified" (map (fun k => format_key r (fst k)) (cg_keys_modified c))
       (map (fun k => format_key r (snd k)) (cg_keys_modified c)) (len (cg_keys_modified c))
  ++ text_section "Values deleted" (map (fun v => format_value r (fst v) (snd v)) (cg_values_deleted c)) [] (len (cg_values_deleted c))
  ++ text_section "Values added" [] (map (fun v => format_value r (fst v) (snd v)) (cg_values_added c)) (len (cg_values_added c))
  ++ text_section "Values modified" (map (fun v => format_value r (fst (fst v)) (snd (fst v))) (cg_values_modified c))
       (map (fun v => format_value r (fst (fst v)) (snd v)) (cg_values_modified c)) (len (cg_values_modified c))
  ++ [10] ++ rule ++ [10] ++ text "Total changes: " ++ decimal total ++ [10] ++ rule ++ [10].
