(** What a look-up by path may find (C85). *)
From Verif Require Import Base Util TreeSpec LayoutSpec CellSpec Types Node AnyFile.

(** The path that is asked for below a key: that of the key, a backslash and the
    path given, without backslashes at the end. *)
Definition asked_for (k : key_node) (path whole : list N) : Prop := exists b, kn_path k ++ [92] ++ path = whole ++ repeat 92 b.
(** The path [found] is [whole], or one above it; case does not matter. *)
Definition on_the_way (whole found : list N) : Prop :=
  exists rest, map fold_case whole = map fold_case found ++ rest /\ (rest = [] \/ hd_error rest = Some 92).
(** No key below the key cell at [o] has a name with a backslash. *)
Definition plain_below (fi : file_info) (o : N) : Prop :=
  forall names c, lineage fi o names c -> Forall (fun n => ~ In 92 n) (tl names).
(** The part of a path that is looked up below the root key: what follows the
    backslashes at its start, without the first name if that stands for the root. *)
Definition below_root (path : list N) (has_root : bool) (below : list N) : Prop :=
  exists a s, path = repeat 92 a ++ s /\ hd_error s <> Some 92
  /\ if has_root then (exists first, ~ In 92 first /\ s = first ++ 92 :: below) \/ (~ In 92 s /\ below = []) else below = s.
(** There is a readable key cell at [c]. *)
Definition readable (fi : file_info) (c : N) : Prop := c <= len (fi_buffer fi) /\ nk_ok (rest_at (fi_buffer fi) c).
(** The names of readable keys on a way down from the key cell at [o], each in the
    list of sub keys of the one before, which counts at least one. *)
Inductive way_down (fi : file_info) : N -> list (list N) -> Prop :=
| way_end o : way_down fi o []
| way_step o c name names : 0 < num_at (fi_buffer fi) (o + 24) 4 <= 1048576 -> sub_key_at fi o c -> readable fi c -> name_at fi c name ->
    way_down fi c names -> way_down fi o (name :: names).
(** A live key as its cell gives it. *)
Definition live_key (fi : file_info) (k : key_node) : Prop :=
  cell_of fi k /\ kd_nsub (kn_detail k) = num_at (fi_buffer fi) (kn_offset k + 24) 4 /\ kn_state k = Allocated.
