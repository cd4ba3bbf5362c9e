(** The live part of what an iteration shows. *)
From Verif Require Import Base Types.

(** A key without what is known of its earlier versions: no older versions, no
    deleted keys, only allocated values. *)
Definition live_value (v : key_value) : key_value := kv_set_versions [] v.
Definition live_key (k : key_node) : key_node :=
  kn_set_deleted [] (kn_set_versions []
    (kn_set_values (map live_value (List.filter (fun v => is_allocated (kv_state v)) (kn_values k))) k)).
(** The allocated keys, in their order. *)
Definition live_keys (ks : list key_node) : list key_node :=
  map live_key (List.filter (fun k => is_allocated (kn_state k)) ks).
