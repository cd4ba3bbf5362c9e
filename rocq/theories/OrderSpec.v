(** Specification for two runs over the same hive and logs. *)
From Verif Require Import Base LayoutSpec Types Node Parser TxLog TxSpec StoreSpec AnyFile ReplaySpec RecoverOpen.

(** The deleted values of a path, as they are shown below its key: by name, those of
    one name in the order in which they were noted. *)
Definition deleted_values_at (path : list N) (p : parser) : list key_value :=
  sort_by (fun a b => str_le (vd_name (kv_detail a)) (vd_name (kv_detail b))) (held beq path (st_deleted_values (ps_state p))).
(** In every file of the replay the first bin begins with a key cell that is marked
    as the root of a hive, of the same name in all of them. *)
Definition rooted_replay (buffer : list N) (files : list (list N)) : Prop :=
  exists name, forall b, on_the_way buffer files b ->
  rooted b /\ N.testbit (num_at b 4134 2) 2 = true /\ forall n, name_at (mkFI 4096 b) 4128 n -> n = name.
(** What two runs have in common: the bytes, the root, the warnings, the earlier
    versions of keys and of values. *)
Definition same_but_deleted (p q : parser) : Prop :=
  ps_file p = ps_file q /\ ps_root p = ps_root q /\ st_info (ps_state p) = st_info (ps_state q)
  /\ st_modified_keys (ps_state p) = st_modified_keys (ps_state q) /\ st_modified_values (ps_state p) = st_modified_values (ps_state q).
