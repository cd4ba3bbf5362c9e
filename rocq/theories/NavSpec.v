(** Moving through a hive with keys in hand. *)
From Verif Require Import Base Util UtilSpec LayoutSpec Types Node Parser TreeSpec Pure TreeSession.

(** Every sub key names its parent: the field at 20 of its cell is the offset of
    the parent's cell from the first bin (hives of less than 2 GiB). *)
Definition parents_stored (buf : list N) (t : key_tree) : Prop :=
  forall x s, In x (preorder [] t) -> In s (t_subs (snd x)) ->
  num_at buf (t_pos s + 20) 4 < 0x80000000 /\ num_at buf (t_pos s + 20) 4 + 4096 = t_pos (snd x).

(** The keys a user can hold: what any call returned, for a parser in any later
    state. (The parent of the root is not asked for.) *)
Inductive obtained (t : key_tree) (p0 : parser) : key_node -> Prop :=
| by_root p k p' : used (key_of t) p0 p -> get_root_key p = Ok (Some k, p') -> obtained t p0 k
| by_key p fuel path has_root k p' : used (key_of t) p0 p -> Forall scalar path ->
    get_key fuel p (utf8 path) has_root = Ok (Some k, p') -> obtained t p0 k
| by_iteration p n anc m post ks k : used (key_of t) p0 p -> (2 * length (positions t) < n)%nat ->
    iterate n p None anc m post = Ok ks -> In k ks -> obtained t p0 k
| by_name p k name c p' : obtained t p0 k -> used (key_of t) p0 p -> Forall scalar name -> ~ In 92 name -> name <> [] ->
    kn_offset k <> t_pos t -> get_sub_key p k (utf8 name) = Ok (Some c, p') -> obtained t p0 c
| by_parent p k c p' : obtained t p0 k -> used (key_of t) p0 p -> kn_offset k <> t_pos t ->
    get_parent_key p k = Ok (Some c, p') -> obtained t p0 c
| by_sub_keys p k k' ks st c : obtained t p0 k -> used (key_of t) p0 p ->
    read_sub_keys (ps_file p) (ps_state p) k = Ok (k', ks, st) -> c = k' \/ In c ks -> obtained t p0 c
| by_sub_path p fuel k path c st : obtained t p0 k -> used (key_of t) p0 p -> Forall scalar path ->
    get_sub_key_by_path fuel (ps_file p) (ps_state p) k (utf8 path) = Ok (Some c, st) -> obtained t p0 c
| by_index p k i k' o st c : obtained t p0 k -> used (key_of t) p0 p ->
    get_sub_key_by_index (ps_file p) (ps_state p) k i = Ok (k', o, st) -> c = k' \/ o = Some c -> obtained t p0 c
| by_next p k k' o st c : obtained t p0 k -> used (key_of t) p0 p ->
    next_sub_key (ps_file p) (ps_state p) k = Ok (k', o, st) -> c = k' \/ o = Some c -> obtained t p0 c
(** [init_sub_key_iter], src/cell_key_node.rs:209-211. *)
| by_init k : obtained t p0 k -> obtained t p0 (kn_set_index 0 k).

(** Asking for the next sub key until there is none. *)
Fixpoint all_next (fuel : nat) (fi : file_info) (st : state) (k : key_node) : res (list key_node) :=
  match fuel with
  | O => OutOfFuel
  | S fuel =>
      let* (k, o, st) := next_sub_key fi st k in
      match o with
      | None => Ok []
      | Some c => let* r := all_next fuel fi st k in Ok (c :: r)
      end
  end.

(** A key in hand, and the parser it is used with. *)
Definition navigating (buffer : list N) (files : list (list N)) (t : key_tree) (p0 p : parser) (k : key_node) : Prop :=
  opens buffer files t p0 /\ clean_names t /\ num_at (ps_buffer p0) 36 4 = 32 /\ parents_stored (ps_buffer p0) t
  /\ obtained t p0 k /\ used (key_of t) p0 p.
(** The key of the tree it shows. *)
Definition stands_at (t : key_tree) (k : key_node) (names : list (list N)) (s : key_tree) : Prop :=
  In (names, s) (preorder [] t) /\ kn_offset k = t_pos s.
