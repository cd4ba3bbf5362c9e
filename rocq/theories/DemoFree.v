(** Hives with free keys, and logs whose entries change nothing, for the examples
    and counterexamples about recovery with logs. Nothing here models code. *)
From Verif Require Import Base BaseFacts LayoutSpec TxSpec Types CellSpec Value Node Parser TxLog ScanSpec Demo DemoCell DemoTree DemoScan DemoLog FreeSpec.

Definition with_flags (f : N) (d : nk_detail) : nk_detail :=
  {| kd_size := kd_size d; kd_flags := f; kd_time := kd_time d; kd_access := kd_access d;
     kd_parent := kd_parent d; kd_nsub := kd_nsub d; kd_nvol := kd_nvol d; kd_sublist := kd_sublist d; kd_vollist := kd_vollist d;
     kd_nvalues := kd_nvalues d; kd_vallist := kd_vallist d; kd_security := kd_security d; kd_class := kd_class d;
     kd_max_name := kd_max_name d; kd_max_class := kd_max_class d; kd_max_value_name := kd_max_value_name d; kd_max_value_data := kd_max_value_data d;
     kd_work := kd_work d; kd_name_size := kd_name_size d; kd_class_size := kd_class_size d; kd_slack := kd_slack d; kd_full := kd_full d |}.
(** The root, a live key, two free keys with the flags [f], a free value; a second
    bin without cells in use. *)
Definition free_hive (f : N) : list N :=
  header 2 1 32 8192
  ++ hbin_head 0 4096
  ++ nk_bytes (tree_nk 0x2C 1 208 0 (-1)%Z 1 7) n_root                   (* at 4096 + 32 *)
  ++ nk_bytes d_gamma n_gamma                                            (* at 4096 + 120 *)
  ++ cell (list_content [108; 102] [120])                                (* at 4096 + 208, 16 bytes *)
  ++ nk_bytes (with_flags f (freed d_beta)) n_beta                       (* at 4096 + 224 *)
  ++ nk_bytes (with_flags f (freed d_gamma)) n_gamma                     (* at 4096 + 312 *)
  ++ free_cell (vk_content n_long 4 7 4)                                 (* at 4096 + 400, 32 bytes *)
  ++ occupied 3664                                                       (* at 4096 + 432 *)
  ++ hbin_head 4096 4096 ++ enc 4 4064 ++ repeat 0 4060.
(** An entry that writes the first byte of the second bin as it is. *)
Definition touch (seq : N) : written := mkW 0 seq 8192 [(4096, [104])] [].
Definition touches (n : nat) : list (list N) := [log_file 2 (map touch (map N.of_nat (seq 2 n)))].
Definition free_shown (f : N) (n : nat) : option (list (N * cell_state * list (N * cell_state))) :=
  match build keep 20 whole true false (free_hive f) (touches n) with
  | Ok p => match iterate 20 p None false true false with
            | Ok ks => Some (map (fun k => (kn_offset k, kn_state k, map (fun v => (kv_offset v, kv_state v)) (kn_values k))) ks)
            | _ => None
            end
  | _ => None
  end.
(** A way to compute [shows]. *)
Definition same_states (a b : list cell_state) : bool := if list_eq_dec (fun x y : cell_state => ltac:(decide equality)) a b then true else false.
Definition shows_b (buffer : list N) (files : list (list N)) (c : N) (states : list cell_state) : bool :=
  match build keep 20 whole true false buffer files with
  | Ok p => beq (rest_at (ps_buffer p) 4096) (rest_at buffer 4096)
            && match iterate 20 p None false true false with
               | Ok ks => same_states (map kn_state (List.filter (fun k => kn_offset k =? c) ks)) states
               | _ => false
               end
  | _ => false
  end.
Lemma shows_check buffer files c states : shows_b buffer files c states = true -> shows keep whole buffer files c states.
Proof.
  unfold shows_b, shows. intros H. destruct (build _ _ _ _ _ _ _) as [p| | |] eqn:B; try discriminate H.
  apply andb_true_iff in H as (R & H). apply beq_eq in R. destruct (iterate _ _ _ _ _ _) as [ks| | |] eqn:I; try discriminate H.
  exists 20%nat, p, 20%nat, ks. repeat split; auto. unfold same_states in H. destruct (list_eq_dec _ _ _) as [E|]; [exact E|discriminate H].
Qed.
