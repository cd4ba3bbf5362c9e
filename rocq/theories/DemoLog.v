(** Dirty hives with logs that delete and change items, for the examples beside
    the theorems about the comparison and for the counterexamples. Nothing here
    models code. *)
From Verif Require Import Base LayoutSpec TxSpec Types Value Node Parser TxLog Demo DemoCell DemoTree.

(** An injective digest. *)
Definition whole (b : list N) : N := fold_left (fun a x => a * 256 + x) b 1.
Definition dirty_hive : list N := header 2 1 32 4096 ++ demo_bin.
(** The number of sub-keys of Alpha becomes 0, and the data of the value "x" of
    the root 2; béta is gone. *)
Definition drop_beta : written := mkW 0 2 4096 [(144, [0; 0; 0; 0]); (452, [2])] [].
(** Only Alpha is in the list of the root: gamma is gone. *)
Definition drop_gamma : written := mkW 0 2 4096 [(390, [1])] [].
(** Only gamma is in the list of the root: Alpha and béta are gone. Then Alpha
    is back, without sub-keys. *)
Definition drop_alpha : written := mkW 0 2 4096 [(390, [1; 0; 40; 1])] [].
Definition back_alpha : written := mkW 0 3 4096 [(390, [2; 0; 120; 0]); (144, [0; 0; 0; 0])] [].

(** The paths and states of what is shown, and the values with their data. *)
Definition shown (ws : list written) : option (list (list N * cell_state * list (list N * cell_state))) :=
  match build keep 20 whole true false dirty_hive [log_file 2 ws] with
  | Ok p => match iterate 20 p None false true false with
            | Ok ks => Some (map (fun k => (kn_path k, kn_state k, map (fun v => (vd_name (kv_detail v), kv_state v)) (kn_values k))) ks)
            | _ => None
            end
  | _ => None
  end.

Definition seen (ws : list written) : list (list N * cell_state * list (list N * cell_state)) :=
  match shown ws with Some l => l | None => [] end.

(** The comparison of the hive before and after [drop_beta]: the file and what was
    shown before, the items, the state, what is shown afterwards, the items and
    the state. *)
Definition demo_bytes (b : list N) (at_ : N) (new : list N) : list N :=
  firstn (N.to_nat at_) b ++ new ++ skipn (N.to_nat at_ + length new) b.
Definition demo_after : list N := demo_bytes (demo_bytes dirty_hive (4096 + 144) [0; 0; 0; 0]) (4096 + 452) [2].
Definition compare_files (order : reg_items -> reg_items) (fuel : nat) (hash : list N -> N) (old new : list N)
  : option (file_info * list key_node * reg_items * state * list key_node * reg_items * state) :=
  match build order fuel hash true false old [] with
  | Ok p =>
      match init_root p with
      | Ok p1 =>
          match iterate fuel p1 None false true false with
          | Ok before =>
              match (if ps_recover p then get_reg_items fuel p 0 else Err) with
              | Ok prior =>
                  match init_root (ps_set_buffer new p) with
                  | Ok q1 =>
                      match iterate fuel q1 None false false false with
                      | Ok after =>
                          match get_latest_reg_items order fuel (mkFI (ps_hbin p) (ps_buffer p ++ [])) 2 (ps_set_buffer new p) (fst prior) with
                          | Ok latest => Some (mkFI (ps_hbin p) (ps_buffer p ++ []), before, fst prior, ps_state p, after, fst (fst latest), ps_state (snd (fst latest)))
                          | _ => None
                          end
                      | _ => None
                      end
                  | _ => None
                  end
              | _ => None
              end
          | _ => None
          end
      | _ => None
      end
  | _ => None
  end.
