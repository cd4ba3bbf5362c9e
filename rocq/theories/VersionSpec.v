(** Specification of what a key shows of the past: which earlier versions, which
    deleted values and which deleted sub-keys, and in which order. Only the stores
    of the parse state and the fields of keys and values are used. *)
From Coq Require Import Permutation Sorting.Sorted.
From Verif Require Import Base Types Value Node Recover Parser StoreSpec.

(** The first version is not older than the second; a version without a number
    comes last. *)
Definition not_older (a b : option N) : Prop :=
  match a, b with Some x, Some y => y <= x | Some _, None => True | None, Some _ => False | None, None => True end.
(** All recorded versions, the newest first. *)
Definition newest_first {A} (number : A -> option N) (recorded shown : list A) : Prop :=
  Permutation shown recorded /\ StronglySorted (fun a b => not_older (number a) (number b)) shown.
(** The order of names, byte by byte. *)
Inductive name_le : list N -> list N -> Prop :=
| name_le_nil b : name_le [] b
| name_le_same x a b : name_le a b -> name_le (x :: a) (x :: b)
| name_le_less x y a b : x < y -> name_le (x :: a) (y :: b).
Definition by_name (recorded shown : list key_value) : Prop :=
  Permutation shown recorded /\ StronglySorted (fun a b => name_le (vd_name (kv_detail a)) (vd_name (kv_detail b))) shown.

(** Where the stores are asked: for the root under the empty path (nothing is ever
    put there, see [C40_root_items_refuted]), for other keys under their paths. *)
Definition stored_under (k : key_node) : list N := if has_flag (kd_flags (kn_detail k)) 4 then [] else kn_path k.
(** A key found in free space. *)
Definition from_free_space (k : key_node) : Prop := kn_state k = DeletedPrimaryFile \/ kn_state k = DeletedPrimaryFileSlack.
(** A deleted key as it was recorded. *)
Definition recorded_as (d shown : key_node) : Prop :=
  kn_offset shown = kn_offset d /\ kn_detail shown = kn_detail d /\ kn_name shown = kn_name d /\ kn_path shown = kn_path d
  /\ kn_state shown = kn_state d /\ kn_seq shown = kn_seq d /\ kn_updated_by shown = kn_updated_by d /\ kn_hash shown = kn_hash d.

Section Annotated.
Context (modified_keys : amap (list N) (list key_node)) (modified_values : amap (list N * list N) (list key_value))
  (deleted_keys : amap (list N) (list key_node)) (deleted_values : amap (list N) (list key_value)).
(** A key shows all of the past that is recorded for it: its earlier versions;
    after the values it has those deleted, and with each value it has the earlier
    versions; its deleted sub-keys, each of which shows its past as well unless it
    lay where the key itself is. Keys from free space have no deleted sub-keys. *)
Inductive annotated : key_node -> Prop :=
| annotated_free k : from_free_space k -> kn_deleted k = [] -> annotated k
| annotated_key k present deleted :
    newest_first kn_seq (held beq (stored_under k) modified_keys) (kn_versions k) ->
    kn_values k = present ++ deleted ->
    Forall (fun v => newest_first kv_seq (held pair_eqb (stored_under k, vd_name (kv_detail v)) modified_values) (kv_versions v)) present ->
    by_name (held beq (stored_under k) deleted_values) deleted ->
    Forall2 (fun d shown => recorded_as d shown /\ (kn_offset d = kn_offset k /\ kn_deleted shown = [] \/ annotated shown))
      (held beq (stored_under k) deleted_keys) (kn_deleted k) ->
    annotated k.
End Annotated.
Definition shows_past (st : state) (k : key_node) : Prop :=
  annotated (st_modified_keys st) (st_modified_values st) (st_deleted_keys st) (st_deleted_values st) k.
(** A deleted key that lay where the key is below which it was deleted. *)
Definition overlapped (st : state) (k : key_node) : Prop :=
  kn_deleted k = [] /\ exists above, shows_past st above /\ kn_offset k = kn_offset above
  /\ exists d, In d (held beq (stored_under above) (st_deleted_keys st)) /\ recorded_as d k.
(** A key that shows nothing of the past. *)
Definition shows_nothing (k : key_node) : Prop :=
  kn_deleted k = [] /\ kn_versions k = [] /\ Forall (fun v => kv_versions v = []) (kn_values k).
