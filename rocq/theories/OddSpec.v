(** Specification for files whose header names a type that is not known. *)
From Verif Require Import Base Types Value Node.

(** A key that is nowhere in the file: no place, no name, no path, no time, no
    values, no sub keys; every number is zero. *)
Definition blank_detail (d : nk_detail) : Prop :=
  kd_size d = 0%Z /\ kd_flags d = 0 /\ kd_time d = 0 /\ kd_access d = 0 /\ kd_parent d = 0%Z /\ kd_nsub d = 0 /\ kd_nvol d = 0
  /\ kd_sublist d = 0 /\ kd_vollist d = 0%Z /\ kd_nvalues d = 0 /\ kd_vallist d = 0%Z /\ kd_security d = 0 /\ kd_class d = 0%Z
  /\ kd_max_name d = 0 /\ kd_max_class d = 0 /\ kd_max_value_name d = 0 /\ kd_max_value_data d = 0 /\ kd_work d = 0
  /\ kd_name_size d = 0 /\ kd_class_size d = 0 /\ kd_slack d = [] /\ kd_full d = None.
Definition blank (k : key_node) : Prop :=
  kn_offset k = 0 /\ blank_detail (kn_detail k) /\ kn_name k = [] /\ kn_path k = [] /\ kn_state k = Allocated
  /\ kn_seq k = None /\ kn_updated_by k = None /\ kn_values k = [] /\ kn_logs k = [] /\ kn_sub_offsets k = [] /\ kn_hash k = None
  /\ kn_versions k = [] /\ kn_deleted k = [].
