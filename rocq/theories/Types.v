(** The data structures of the parser: cells, parse state, filters.
    Paths, names and texts are the bytes of the Rust [String]. *)
From Verif Require Import Base Util BaseBlock.

(** [LogCode], src/log.rs:104-118. A [Logs] value (src/log.rs:22-25) is modelled
    by the list of its codes; the message texts are not modelled and no logs
    ([None]) and an empty list of logs are identified. *)
Inductive log_code :=
| WarningOther | WarningNom | WarningConversion | WarningContent | WarningBigDataContent
| WarningUnrecognizedBitflag | WarningTransactionLog | WarningIterator | WarningBaseBlock
| WarningParse | WarningRecovery | LogInfo.

(** [CellState], src/cell.rs:20-45. *)
Inductive cell_state :=
| DeletedTransactionLog | DeletedPrimaryFile | DeletedPrimaryFileSlack
| Allocated | ModifiedTransactionLog.
Definition is_deleted (s : cell_state) : bool :=
  match s with
  | DeletedTransactionLog | DeletedPrimaryFile | DeletedPrimaryFileSlack => true
  | _ => false
  end.
Definition is_deleted_primary_file (s : cell_state) : bool :=
  match s with DeletedPrimaryFile | DeletedPrimaryFileSlack => true | _ => false end.
Definition is_allocated (s : cell_state) : bool :=
  match s with Allocated => true | _ => false end.
Definition is_modified_tx (s : cell_state) : bool :=
  match s with ModifiedTransactionLog => true | _ => false end.

(** [FileInfo], src/file_info.rs:22-25. *)
Record file_info := mkFI {
  fi_hbin : N;
  fi_buffer : list N
}.

(** The fields of [CellKeyValueDetail], src/cell_key_value.rs:219-235. The
    enum of a light and a full variant (src/field_offset_len.rs) is modelled by
    the values and, for the full variant, the table of (offset, length) of the
    fields in declaration order. *)
Record vk_detail := mkVD {
  vd_size : Z;
  vd_name_size : N;
  vd_data_size_raw : N;
  vd_data_offset : N;
  vd_type_raw : N;
  vd_flags_raw : N;
  vd_padding : N;
  vd_name : list N;
  vd_slack : list N;
  vd_bytes : option (list N);
  vd_full : option (list (N * N))
}.

(** [CellKeyValue], src/cell_key_value.rs:238-251. The data type is its number
    ([REG_UNKNOWN] is 999), a hash is a number. *)
Inductive key_value := mkKV {
  kv_offset : N;
  kv_detail : vk_detail;
  kv_type : N;
  kv_flags : N;
  kv_data_offsets : list N;
  kv_state : cell_state;
  kv_logs : list log_code;
  kv_versions : list key_value;
  kv_hash : option N;
  kv_seq : option N;
  kv_updated_by : option N
}.

(** [CellKeyNodeDetail], src/cell_key_node.rs:53-78. *)
Record nk_detail := mkKD {
  kd_size : Z;
  kd_flags : N;
  kd_time : N;
  kd_access : N;
  kd_parent : Z;
  kd_nsub : N;
  kd_nvol : N;
  kd_sublist : N;
  kd_vollist : Z;
  kd_nvalues : N;
  kd_vallist : Z;
  kd_security : N;
  kd_class : Z;
  kd_max_name : N;
  kd_max_class : N;
  kd_max_value_name : N;
  kd_max_value_data : N;
  kd_work : N;
  kd_name_size : N;
  kd_class_size : N;
  kd_slack : list N;
  kd_full : option (list (N * N))
}.

(** [FilterMatchState], src/cell_key_node.rs:80-85. *)
Inductive match_state := MNone | MDescendent | MExact.

(** [CellKeyNode], src/cell_key_node.rs:96-118, with the fields of
    [CellKeyNodeIteration] (87-93) in line. *)
Inductive key_node := mkKN {
  kn_offset : N;
  kn_detail : nk_detail;
  kn_name : list N;
  kn_path : list N;
  kn_state : cell_state;
  kn_seq : option N;
  kn_updated_by : option N;
  kn_values : list key_value;
  kn_logs : list log_code;
  kn_sub_offsets : list N;
  kn_hash : option N;
  kn_versions : list key_node;
  kn_deleted : list key_node;
  kn_to_return : N;
  kn_track : N;
  kn_filter : option match_state;
  kn_index : N
}.

(** [RegQueryComponent], [RegQuery] and [Filter], src/filter.rs:27-29,76-79,
    154-160. A compiled regular expression is the predicate it decides. *)
Inductive component :=
| ComponentString (s : list N)
| ComponentRegex (is_match : list N -> bool).
Record reg_query := mkRQ {
  rq_path : list component;
  rq_has_root : bool;
  rq_children : bool
}.
Definition filter := option reg_query.

(** A [HashMap] as an association list, used through [get] and updates only. *)
Definition amap (K V : Type) := list (K * V).
Section Maps.
  Context {K V : Type} (eqb : K -> K -> bool).
  Fixpoint aget (k : K) (m : amap K V) : option V :=
    match m with
    | [] => None
    | (k', v) :: r => if eqb k k' then Some v else aget k r
    end.
  Fixpoint aset (k : K) (v : V) (m : amap K V) : amap K V :=
    match m with
    | [] => [(k, v)]
    | (k', v') :: r => if eqb k k' then (k', v) :: r else (k', v') :: aset k v r
    end.
  Fixpoint adel (k : K) (m : amap K V) : amap K V :=
    match m with
    | [] => []
    | (k', v') :: r => if eqb k k' then r else (k', v') :: adel k r
    end.
End Maps.
Definition pair_eqb (a b : list N * list N) : bool :=
  beq (fst a) (fst b) && beq (snd a) (snd b).

(** [State], src/state.rs:149-166. The hasher is the function from the hashed
    bytes to the digest (blake3 is not modelled). *)
Record state := mkState {
  st_root_offset : N;
  st_full : bool;
  st_info : list log_code;
  st_hasher : list N -> N;
  st_deleted_keys : amap (list N) (list key_node);
  st_modified_keys : amap (list N) (list key_node);
  st_deleted_values : amap (list N) (list key_value);
  st_modified_values : amap (list N * list N) (list key_value)
}.

(** Field updates. *)
Definition set_root_offset (o : N) (s : state) : state :=
  mkState o (st_full s) (st_info s) (st_hasher s) (st_deleted_keys s) (st_modified_keys s)
    (st_deleted_values s) (st_modified_values s).
Definition set_info (l : list log_code) (s : state) : state :=
  mkState (st_root_offset s) (st_full s) l (st_hasher s) (st_deleted_keys s)
    (st_modified_keys s) (st_deleted_values s) (st_modified_values s).
Definition set_deleted_keys m (s : state) : state :=
  mkState (st_root_offset s) (st_full s) (st_info s) (st_hasher s) m
    (st_modified_keys s) (st_deleted_values s) (st_modified_values s).
Definition set_modified_keys m (s : state) : state :=
  mkState (st_root_offset s) (st_full s) (st_info s) (st_hasher s) (st_deleted_keys s)
    m (st_deleted_values s) (st_modified_values s).
Definition set_deleted_values m (s : state) : state :=
  mkState (st_root_offset s) (st_full s) (st_info s) (st_hasher s) (st_deleted_keys s)
    (st_modified_keys s) m (st_modified_values s).
Definition set_modified_values m (s : state) : state :=
  mkState (st_root_offset s) (st_full s) (st_info s) (st_hasher s) (st_deleted_keys s)
    (st_modified_keys s) (st_deleted_values s) m.
Definition add_info (c : log_code) (s : state) : state := set_info (st_info s ++ [c]) s.

Definition vd_set_bytes (b : list N) (offset n : N) (d : vk_detail) : vk_detail :=
  mkVD (vd_size d) (vd_name_size d) (vd_data_size_raw d) (vd_data_offset d) (vd_type_raw d)
    (vd_flags_raw d) (vd_padding d) (vd_name d) (vd_slack d) (Some b)
    (option_map (fun t => removelast t ++ [(offset, n)]) (vd_full d)).
Definition kv_set_state (s : cell_state) (v : key_value) : key_value :=
  mkKV (kv_offset v) (kv_detail v) (kv_type v) (kv_flags v) (kv_data_offsets v) s (kv_logs v)
    (kv_versions v) (kv_hash v) (kv_seq v) (kv_updated_by v).
Definition kv_set_updated (n : N) (v : key_value) : key_value :=
  mkKV (kv_offset v) (kv_detail v) (kv_type v) (kv_flags v) (kv_data_offsets v) (kv_state v)
    (kv_logs v) (kv_versions v) (kv_hash v) (kv_seq v) (Some n).
Definition kv_set_versions (l : list key_value) (v : key_value) : key_value :=
  mkKV (kv_offset v) (kv_detail v) (kv_type v) (kv_flags v) (kv_data_offsets v) (kv_state v)
    (kv_logs v) l (kv_hash v) (kv_seq v) (kv_updated_by v).

Definition kn_set_state (s : cell_state) (k : key_node) : key_node :=
  mkKN (kn_offset k) (kn_detail k) (kn_name k) (kn_path k) s (kn_seq k) (kn_updated_by k)
    (kn_values k) (kn_logs k) (kn_sub_offsets k) (kn_hash k) (kn_versions k) (kn_deleted k)
    (kn_to_return k) (kn_track k) (kn_filter k) (kn_index k).
Definition kn_set_updated (n : N) (k : key_node) : key_node :=
  mkKN (kn_offset k) (kn_detail k) (kn_name k) (kn_path k) (kn_state k) (kn_seq k) (Some n)
    (kn_values k) (kn_logs k) (kn_sub_offsets k) (kn_hash k) (kn_versions k) (kn_deleted k)
    (kn_to_return k) (kn_track k) (kn_filter k) (kn_index k).
Definition kn_set_values (l : list key_value) (k : key_node) : key_node :=
  mkKN (kn_offset k) (kn_detail k) (kn_name k) (kn_path k) (kn_state k) (kn_seq k)
    (kn_updated_by k) l (kn_logs k) (kn_sub_offsets k) (kn_hash k) (kn_versions k)
    (kn_deleted k) (kn_to_return k) (kn_track k) (kn_filter k) (kn_index k).
Definition kn_set_logs (l : list log_code) (k : key_node) : key_node :=
  mkKN (kn_offset k) (kn_detail k) (kn_name k) (kn_path k) (kn_state k) (kn_seq k)
    (kn_updated_by k) (kn_values k) l (kn_sub_offsets k) (kn_hash k) (kn_versions k)
    (kn_deleted k) (kn_to_return k) (kn_track k) (kn_filter k) (kn_index k).
Definition kn_add_log (c : log_code) (k : key_node) : key_node := kn_set_logs (kn_logs k ++ [c]) k.
Definition kn_set_sub_offsets (l : list N) (k : key_node) : key_node :=
  mkKN (kn_offset k) (kn_detail k) (kn_name k) (kn_path k) (kn_state k) (kn_seq k)
    (kn_updated_by k) (kn_values k) (kn_logs k) l (kn_hash k) (kn_versions k)
    (kn_deleted k) (kn_to_return k) (kn_track k) (kn_filter k) (kn_index k).
Definition kn_set_versions (l : list key_node) (k : key_node) : key_node :=
  mkKN (kn_offset k) (kn_detail k) (kn_name k) (kn_path k) (kn_state k) (kn_seq k)
    (kn_updated_by k) (kn_values k) (kn_logs k) (kn_sub_offsets k) (kn_hash k) l
    (kn_deleted k) (kn_to_return k) (kn_track k) (kn_filter k) (kn_index k).
Definition kn_set_deleted (l : list key_node) (k : key_node) : key_node :=
  mkKN (kn_offset k) (kn_detail k) (kn_name k) (kn_path k) (kn_state k) (kn_seq k)
    (kn_updated_by k) (kn_values k) (kn_logs k) (kn_sub_offsets k) (kn_hash k) (kn_versions k)
    l (kn_to_return k) (kn_track k) (kn_filter k) (kn_index k).
Definition kn_set_to_return (n : N) (k : key_node) : key_node :=
  mkKN (kn_offset k) (kn_detail k) (kn_name k) (kn_path k) (kn_state k) (kn_seq k)
    (kn_updated_by k) (kn_values k) (kn_logs k) (kn_sub_offsets k) (kn_hash k) (kn_versions k)
    (kn_deleted k) n (kn_track k) (kn_filter k) (kn_index k).
Definition kn_set_track (n : N) (k : key_node) : key_node :=
  mkKN (kn_offset k) (kn_detail k) (kn_name k) (kn_path k) (kn_state k) (kn_seq k)
    (kn_updated_by k) (kn_values k) (kn_logs k) (kn_sub_offsets k) (kn_hash k) (kn_versions k)
    (kn_deleted k) (kn_to_return k) n (kn_filter k) (kn_index k).
Definition kn_set_filter (f : option match_state) (k : key_node) : key_node :=
  mkKN (kn_offset k) (kn_detail k) (kn_name k) (kn_path k) (kn_state k) (kn_seq k)
    (kn_updated_by k) (kn_values k) (kn_logs k) (kn_sub_offsets k) (kn_hash k) (kn_versions k)
    (kn_deleted k) (kn_to_return k) (kn_track k) f (kn_index k).
Definition kn_set_index (n : N) (k : key_node) : key_node :=
  mkKN (kn_offset k) (kn_detail k) (kn_name k) (kn_path k) (kn_state k) (kn_seq k)
    (kn_updated_by k) (kn_values k) (kn_logs k) (kn_sub_offsets k) (kn_hash k) (kn_versions k)
    (kn_deleted k) (kn_to_return k) (kn_track k) (kn_filter k) n.
