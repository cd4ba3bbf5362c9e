(** Which bytes of a hive matter (C84). A layout may leave bytes open: the mark
    [open_byte], which is no byte, stands for any. *)
From Verif Require Import Base Util UtilSpec LayoutSpec Types CellSpec TreeSpec.

Definition open_byte : N := 256.
(** The file [buf] has a byte in each open place and agrees with the layout in
    all others; there may be more behind the end. *)
Definition filled (sheet buf : list N) : Prop :=
  exists body more, buf = body ++ more /\ Forall2 (fun s b => s = b \/ s = open_byte) sheet body.
Fixpoint all_values (t : key_tree) : list value :=
  let 'KeyTree _ _ vals subs := t in vals ++ flat_map all_values subs.
(** The tree is laid out in the places that are not open: as [hive], but open
    places are allowed where nothing of the tree is (its data is of bytes). *)
Definition laid_out (sheet : list N) (t : key_tree) : Prop :=
  bytes_at sheet 4096 4 = [104; 98; 105; 110] /\ t_pos t = 4128 /\ tree_stored (mkFI 4096 sheet) true t
  /\ NoDup (positions t) /\ Forall (fun v => bytes_ok (v_data v)) (all_values t).

(** Two keys that look the same: position, name, path and values, each with
    its name, its type and its data. *)
Definition same_value (a b : key_value) : Prop :=
  read_utf8 (vd_name (kv_detail a)) = read_utf8 (vd_name (kv_detail b)) /\ vd_type_raw (kv_detail a) = vd_type_raw (kv_detail b)
  /\ kv_type a = kv_type b /\ vd_bytes (kv_detail a) = vd_bytes (kv_detail b) /\ kv_state a = kv_state b.
Definition same_key (a b : key_node) : Prop :=
  kn_offset a = kn_offset b /\ read_utf8 (kn_name a) = read_utf8 (kn_name b) /\ read_utf8 (kn_path a) = read_utf8 (kn_path b)
  /\ kn_state a = kn_state b /\ Forall2 same_value (kn_values a) (kn_values b).
(** Two key cells with the same fields; their slack may differ. *)
Definition same_fields (a b : nk_detail) : Prop :=
  kd_size a = kd_size b /\ kd_flags a = kd_flags b /\ kd_time a = kd_time b /\ kd_access a = kd_access b /\ kd_parent a = kd_parent b
  /\ kd_nsub a = kd_nsub b /\ kd_nvol a = kd_nvol b /\ kd_sublist a = kd_sublist b /\ kd_vollist a = kd_vollist b
  /\ kd_nvalues a = kd_nvalues b /\ kd_vallist a = kd_vallist b /\ kd_security a = kd_security b /\ kd_class a = kd_class b
  /\ kd_max_name a = kd_max_name b /\ kd_max_class a = kd_max_class b /\ kd_max_value_name a = kd_max_value_name b
  /\ kd_max_value_data a = kd_max_value_data b /\ kd_work a = kd_work b /\ kd_name_size a = kd_name_size b /\ kd_class_size a = kd_class_size b.
