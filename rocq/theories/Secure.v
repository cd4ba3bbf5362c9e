(** Model of the security descriptors of a key. *)
From Verif Require Import Base Types Value Node Parser.
Open Scope N_scope.

(** [CellKeyNode::get_security_descriptors], src/cell_key_node.rs:249-260. The key
    is passed as [&mut self] there, but not changed. *)
Definition get_security_descriptors {D} (parse_sd : list N -> option D) (k : key_node) (p : parser) : res (list D) :=
  read_cell_key_security parse_sd (fi_buffer (ps_file p)) (kd_security (kn_detail k)) (fi_hbin (ps_file p)).
