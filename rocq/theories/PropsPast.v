(** What the earlier versions of keys do not keep: statements only. *)
From Verif Require Import Base BaseFacts Util UtilSpec LayoutSpec LayoutFacts BaseBlock Types Value Node Recover Parser TxLog TxSpec
  CellSpec Secure FreeSpec Demo DemoCell DemoTree DemoScan DemoLog DemoExport DemoFree BuildBytes PropsSecure.

(** ** C55 *)
(** A hive with the key \R\G, whose security cell is at 224. *)
Definition guarded_nk : nk_detail :=
  {| kd_size := (-88)%Z; kd_flags := 0x20; kd_time := 0; kd_access := 0; kd_parent := 32%Z; kd_nsub := 0; kd_nvol := 0; kd_sublist := 2 ^ 32 - 1; kd_vollist := (-1)%Z;
     kd_nvalues := 0; kd_vallist := (-1)%Z; kd_security := 224; kd_class := (-1)%Z; kd_max_name := 0; kd_max_class := 0; kd_max_value_name := 0; kd_max_value_data := 0;
     kd_work := 0; kd_name_size := 1; kd_class_size := 0; kd_slack := repeat 0 7; kd_full := None |}.
Definition guarded_hive : list N :=
  header 2 1 32 4096 ++ hbin_head 0 4096 ++ nk_bytes (tree_nk 0x2C 1 208 0 (-1)%Z 1 7) n_root
  ++ nk_bytes guarded_nk [71] ++ cell (list_content [108; 102] [120]) ++ sk 224 ++ occupied 3840.
(** An entry that changes the time of \R\G and its security descriptor. *)
Definition opened_up : written := mkW 0 2 4096 [(128, [9]); (248, [7; 7; 7; 7])] [].
Definition descriptors (k : key_node) (p : parser) : res (list (list N)) := get_security_descriptors (fun b => Some b) k p.
(** Read before the entry was applied, the key has the descriptor 1 2 3 224. Its earlier
    version, which is recorded with the time and the place of the descriptor of then,
    gives the descriptor of now. *)
Theorem C55_security_refuted : exists p q r k s k', build keep 20 whole false false guarded_hive [] = Ok p
  /\ build keep 20 whole true false guarded_hive [log_file 2 [opened_up]] = Ok q
  /\ iterate 20 p None false true false = Ok [r; k] /\ iterate 20 q None false true false = Ok [s; k']
  /\ descriptors k p = Ok [[1; 2; 3; 224]]
  /\ exists v, kn_versions k' = [v] /\ kn_path v = kn_path k /\ kd_time (kn_detail v) = kd_time (kn_detail k) /\ kd_security (kn_detail v) = kd_security (kn_detail k)
     /\ descriptors v q = Ok [[7; 7; 7; 7]].
Proof.
  assert (X : exists p, build keep 20 whole false false guarded_hive [] = Ok p /\ exists r k, iterate 20 p None false true false = Ok [r; k]
    /\ descriptors k p = Ok [[1; 2; 3; 224]] /\ kn_path k = [92; 82; 92; 71] /\ kd_time (kn_detail k) = 0 /\ kd_security (kn_detail k) = 224).
  { apply (checked _ (fun p => match iterate 20 p None false true false with Ok [r; k] =>
      match descriptors k p with Ok [x] => beq x [1; 2; 3; 224] | _ => false end && beq (kn_path k) [92; 82; 92; 71] && (kd_time (kn_detail k) =? 0) && (kd_security (kn_detail k) =? 224)
      | _ => false end)); [|vm_compute; reflexivity].
    intros p H. destruct (iterate 20 p None false true false) as [[|r [|k [|]]]| | |]; try discriminate H. exists r, k.
    apply andb_true_iff in H as (H & H4). apply andb_true_iff in H as (H & H3). apply andb_true_iff in H as (H1 & H2). apply beq_eq in H2. apply N.eqb_eq in H3, H4.
    destruct (descriptors k p) as [[|x [|]]| | |]; try discriminate H1. apply beq_eq in H1 as ->. repeat (split; [assumption || reflexivity|]). exact H4. }
  assert (Y : exists q, build keep 20 whole true false guarded_hive [log_file 2 [opened_up]] = Ok q /\ exists s k' v, iterate 20 q None false true false = Ok [s; k']
    /\ kn_versions k' = [v] /\ kn_path v = [92; 82; 92; 71] /\ kd_time (kn_detail v) = 0 /\ kd_security (kn_detail v) = 224 /\ descriptors v q = Ok [[7; 7; 7; 7]]).
  { apply (checked _ (fun q => match iterate 20 q None false true false with Ok [s; k'] => match kn_versions k' with [v] =>
      match descriptors v q with Ok [x] => beq x [7; 7; 7; 7] | _ => false end && beq (kn_path v) [92; 82; 92; 71] && (kd_time (kn_detail v) =? 0) && (kd_security (kn_detail v) =? 224)
      | _ => false end | _ => false end)); [|vm_compute; reflexivity].
    intros q H. destruct (iterate 20 q None false true false) as [[|s [|k' [|]]]| | |]; try discriminate H. destruct (kn_versions k') as [|v [|]] eqn:V; try discriminate H. exists s, k', v.
    apply andb_true_iff in H as (H & H4). apply andb_true_iff in H as (H & H3). apply andb_true_iff in H as (H1 & H2). apply beq_eq in H2. apply N.eqb_eq in H3, H4.
    destruct (descriptors v q) as [[|x [|]]| | |]; try discriminate H1. apply beq_eq in H1 as ->. repeat (split; [assumption || reflexivity|]). reflexivity. }
  destruct X as (p & P & r & k & I & D & A & B & C), Y as (q & Q & s & k' & v & J & V & A' & B' & C' & D').
  exists p, q, r, k, s, k'. repeat (split; [assumption|]). exists v. split; [exact V|]. split; [congruence|]. split; [congruence|]. split; [congruence|exact D'].
Qed.
Print Assumptions C55_security_refuted.
