(** What a hive that was cut off may show (C83). *)
From Verif Require Import Base Util UtilSpec LayoutSpec Types Value CellSpec TreeSpec.

(** A value as it is stored, or without its data and with a warning. *)
Definition value_partly (v : key_value) (x : value) : Prop :=
  value_shown v x
  \/ (read_utf8 (vd_name (kv_detail v)) = Some (v_name x) /\ vd_type_raw (kv_detail v) = v_type x /\ kv_state v = Allocated
      /\ kv_type v = shown_type (v_type x) /\ vd_bytes (kv_detail v) = Some [] /\ kv_logs v <> []).
(** A key as it is stored, with the first ones of its values. *)
Definition key_partly (k : key_node) (names : list (list N)) (t : key_tree) : Prop :=
  kn_offset k = t_pos t /\ read_utf8 (kn_name k) = Some (t_name t)
  /\ read_utf8 (kn_path k) = Some (spelled names) /\ kn_state k = Allocated
  /\ exists seen missing, t_vals t = seen ++ missing /\ Forall2 value_partly (kn_values k) seen.
