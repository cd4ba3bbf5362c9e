(** What a hive stores: a tree of keys with their values, and how it is laid out
    in the file. Only the records that hold fields and the UTF-8 encoding ([utf8])
    are taken from the model. *)
From Verif Require Import Base Util UtilSpec LayoutSpec Types CellSpec.

(** A value: the characters of its name, the number of its type, its data. *)
Record value := mkValue { v_name : list N; v_type : N; v_data : list N }.
(** A key: its position in the file, the characters of its name, its values and
    its sub keys, in the order of their lists. *)
Inductive key_tree :=
| KeyTree (pos : N) (name : list N) (vals : list value) (subs : list key_tree).
Definition t_pos (t : key_tree) : N := let 'KeyTree p _ _ _ := t in p.
Definition t_name (t : key_tree) : list N := let 'KeyTree _ n _ _ := t in n.
Definition t_vals (t : key_tree) : list value := let 'KeyTree _ _ v _ := t in v.
Definition t_subs (t : key_tree) : list key_tree := let 'KeyTree _ _ _ s := t in s.

(** ** The layout *)

(** The data of a value cell: in the cell itself, in a cell of its own, or in
    segments. (Data of more than 16344 bytes that is not in segments must not
    start with "db".) *)
Definition data_stored (fi : file_info) (d : vk_detail) (data : list N) : Prop :=
  (len data <= 4 /\ vd_data_size_raw d = 0x80000000 + len data
   /\ exists pad, enc 4 (vd_data_offset d) = data ++ pad)
  \/ (len data < 0x80000000 /\ vd_data_size_raw d = len data
      /\ (len data <= 16344 \/ firstn 2 data <> [100; 98])
      /\ exists size, len size = 4
         /\ stored (fi_buffer fi) (fi_hbin fi + vd_data_offset d) (size ++ data))
  \/ (exists segs offs, data = concat segs /\ segmentation segs
      /\ Forall2 (segment_cell fi) offs segs /\ big_data_cell fi (vd_data_offset d) offs
      /\ vd_data_size_raw d = len data /\ 16344 < len data < 0x80000000).
(** A value cell at the offset [off] of the bins. *)
Definition value_stored (fi : file_info) (off : N) (v : value) : Prop :=
  exists d raw, vk_fits d raw /\ vd_flags_raw d < 4
  /\ stored_name (N.testbit (vd_flags_raw d) 0) raw (v_name v)
  /\ vd_type_raw d = v_type v /\ data_stored fi d (v_data v)
  /\ stored (fi_buffer fi) (fi_hbin fi + off) (vk_bytes d raw).
(** The values of a key: none, or a list of the offsets of their cells. *)
Definition values_stored (fi : file_info) (d : nk_detail) (vals : list value) : Prop :=
  kd_nvalues d = len vals
  /\ (vals = [] \/ (len vals <= 1048576 /\ (0 < kd_vallist d)%Z /\ exists size offs,
        len size = 4 /\ Forall is_u32 offs
        /\ stored (fi_buffer fi) (fi_hbin fi + Z.to_N (kd_vallist d)) (size ++ flat_map (enc 4) offs)
        /\ Forall2 (value_stored fi) offs vals)).
(** The sub keys of a key: none, or a sub-key list of their positions. *)
Definition subs_stored (fi : file_info) (d : nk_detail) (subs : list key_tree) : Prop :=
  kd_nsub d = len subs
  /\ (subs = [] \/ (len subs <= 1048576 /\ key_list fi (kd_sublist d) (map t_pos subs))).
(** A key cell (in use: of negative size) with its values, and its sub keys in
    turn; [root] tells whether it is the root of the hive. *)
Inductive tree_stored (fi : file_info) : bool -> key_tree -> Prop :=
| key_stored (root : bool) pos name vals subs d raw :
    nk_fits d raw -> (kd_size d < 0)%Z ->
    stored_name (N.testbit (kd_flags d) 5) raw name ->
    N.testbit (kd_flags d) 2 = root ->
    stored (fi_buffer fi) pos (nk_bytes d raw) ->
    values_stored fi d vals -> subs_stored fi d subs ->
    Forall (tree_stored fi false) subs ->
    tree_stored fi root (KeyTree pos name vals subs).

(** Positions of all keys of a tree. *)
Fixpoint positions (t : key_tree) : list N :=
  let 'KeyTree p _ _ subs := t in p :: flat_map positions subs.
(** The bytes of a hive that holds the tree [t]: a bin at 4096 whose first cell
    is the root key; no key is stored twice. *)
Definition hive (buf : list N) (t : key_tree) : Prop :=
  bytes_ok buf /\ bytes_at buf 4096 4 = [104; 98; 105; 110]
  /\ t_pos t = 4128 /\ tree_stored (mkFI 4096 buf) true t /\ NoDup (positions t).

(** ** Listings: every key with the names on the way to it, its own included *)
Fixpoint preorder (above : list (list N)) (t : key_tree) : list (list (list N) * key_tree) :=
  let names := above ++ [t_name t] in
  (names, t) :: let 'KeyTree _ _ _ subs := t in flat_map (preorder names) subs.
Fixpoint postorder (above : list (list N)) (t : key_tree) : list (list (list N) * key_tree) :=
  let names := above ++ [t_name t] in
  (let 'KeyTree _ _ _ subs := t in flat_map (postorder names) subs) ++ [(names, t)].

(** A path: a backslash before each name. *)
Definition spelled (names : list (list N)) : list N := flat_map (fun n => 92 :: n) names.

(** ** What a user sees of it *)

Definition value_shown (v : key_value) (x : value) : Prop :=
  read_utf8 (vd_name (kv_detail v)) = Some (v_name x) /\ vd_type_raw (kv_detail v) = v_type x
  /\ vd_bytes (kv_detail v) = Some (value_data (v_type x mod 4096) (v_data x))
  /\ kv_state v = Allocated /\ kv_type v = shown_type (v_type x).
Definition key_shown (k : key_node) (names : list (list N)) (t : key_tree) : Prop :=
  kn_offset k = t_pos t /\ read_utf8 (kn_name k) = Some (t_name t)
  /\ read_utf8 (kn_path k) = Some (spelled names) /\ Forall2 value_shown (kn_values k) (t_vals t)
  /\ kn_state k = Allocated.
Definition shown (ks : list key_node) (l : list (list (list N) * key_tree)) : Prop :=
  Forall2 (fun k x => key_shown k (fst x) (snd x)) ks l.

(** ** Names and filters *)

(** Names are compared ignoring the case of the letters A to Z. *)
Definition fold_case (c : N) : N := if (65 <=? c) && (c <=? 90) then c + 32 else c.
Definition same_name (a b : list N) : bool := beq (map fold_case a) (map fold_case b).
(** No name contains the separator of paths. *)
Fixpoint all_names (t : key_tree) : list (list N) :=
  let 'KeyTree _ n _ subs := t in n :: flat_map all_names subs.
Definition clean_names (t : key_tree) : Prop := Forall (fun n => ~ In 92 n) (all_names t).

(** One component of a filter against one name: literals ignore case, a regular
    expression is applied to the text of the lower-cased name. *)
Definition seg_match (c : component) (name : list N) : bool :=
  match c with
  | ComponentString s => beq s (utf8 (map fold_case name))
  | ComponentRegex r => r (utf8 (map fold_case name))
  end.
(** What the components of a filter are compared with: the names below the
    root, or - when the filter says that it includes the root - those of the
    whole path, which starts with a backslash, hence an empty piece. *)
Definition segments (q : reg_query) (names : list (list N)) : list (list N) :=
  if rq_has_root q then [] :: names else tl names.
(** Components and names agree as far as both go. *)
Definition agrees (q : reg_query) (names : list (list N)) : bool :=
  forallb (fun cs => seg_match (fst cs) (snd cs)) (combine (rq_path q) (segments q names)).
(** The keys a filter selects: those that all components match; those below
    one, if child keys are requested; those above one, if ancestors are
    requested (which counts every key that agrees with a shorter part of the
    filter, and the root). *)
Definition selected (q : reg_query) (ancestors : bool) (names : list (list N)) : bool :=
  match names with
  | [_] => ancestors
  | _ => agrees q names &&
         (if len (segments q names) =? len (rq_path q) then true
          else if len (segments q names) <? len (rq_path q) then ancestors
          else rq_children q)
  end.
(** A filter for keys below the root. *)
Definition below_root (q : reg_query) : Prop :=
  if rq_has_root q then 3 <= len (rq_path q) else 1 <= len (rq_path q).
(** Ancestors other than the root are listed without their values. *)
Definition without_values (t : key_tree) : key_tree :=
  let 'KeyTree p n _ s := t in KeyTree p n [] s.
Definition as_listed (q : reg_query) (x : list (list N) * key_tree) : list (list N) * key_tree :=
  match fst x with
  | [_] => x
  | _ => if len (segments q (fst x)) <? len (rq_path q) then (fst x, without_values (snd x)) else x
  end.
Definition filtered (q : reg_query) (ancestors : bool) (l : list (list (list N) * key_tree)) :=
  map (as_listed q) (List.filter (fun x => selected q ancestors (fst x)) l).

(** ** Look-up by path *)
(** The keys at the end of a sequence of names below [t], each with the names
    on the way to it, in the order of the hive (there is at most one when the
    names of siblings differ in more than case). *)
Fixpoint reached (above : list (list N)) (segs : list (list N)) (t : key_tree) : list (list (list N) * key_tree) :=
  let names := above ++ [t_name t] in
  match segs with
  | [] => [(names, t)]
  | n :: r => flat_map (reached names r) (List.filter (fun s => same_name (t_name s) n) (t_subs t))
  end.
(** A written path: names separated by backslashes. *)
Fixpoint joined (segs : list (list N)) : list N :=
  match segs with
  | [] => []
  | n :: r => match r with [] => n | _ => n ++ 92 :: joined r end
  end.
(** The names in a path, however it is written: none is or contains a
    backslash, and the outermost ones are not empty. *)
Definition path_names (segs : list (list N)) : Prop :=
  Forall (Forall scalar) segs /\ Forall (fun n => ~ In 92 n) segs
  /\ hd_error segs <> Some [] /\ hd_error (rev segs) <> Some [].
