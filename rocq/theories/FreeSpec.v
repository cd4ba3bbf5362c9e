(** Specification for what recovery keeps when logs are applied: only the parse
    state, cell states and flags are used. *)
From Verif Require Import Base LayoutSpec Types Value Node Recover Parser TxLog StoreSpec VersionSpec.

(** No key that a log deleted has the flag of the root of a hive. *)
Definition no_deleted_root (st : state) : Prop :=
  forall path ks k, In (path, ks) (st_deleted_keys st) -> In k ks ->
  from_free_space k \/ N.testbit (kd_flags (kn_detail k)) 2 = false.

(** Opened with recovery and the log files [files], the hive [buffer] has the bins
    it had before, and iterating it shows the cell [c] as keys in the states
    [states], in that order. *)
Definition shows (order : reg_items -> reg_items) (hash : list N -> N) (buffer : list N) (files : list (list N)) (c : N) (states : list cell_state) : Prop :=
  exists fuel p n ks, build order fuel hash true false buffer files = Ok p /\ rest_at (ps_buffer p) 4096 = rest_at buffer 4096
  /\ iterate n p None false true false = Ok ks
  /\ map kn_state (List.filter (fun k => kn_offset k =? c) ks) = states.
