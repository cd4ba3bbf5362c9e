(** A dirty hive with a key below a key below a key, for the counterexamples about
    the order of hash maps. Nothing here models code. *)
From Verif Require Import Base LayoutSpec TxSpec Types Value Node Parser TxLog CellSpec Demo DemoCell DemoTree DemoLog DemoExport DemoScan.

(** The keys \R, \R\A, \R\A\B, \R\A\B\C and \R\A\B\D. *)
Definition order_hive : list N :=
  header 2 1 32 4096 ++ hbin_head 0 4096
  ++ nk_bytes (tree_nk 0x2C 1 472 0 (-1)%Z 1 7) n_root                   (* at 4096 + 32 *)
  ++ nk_bytes (tree_nk 0x20 1 488 0 (-1)%Z 1 7) [65]                     (* at 4096 + 120 *)
  ++ nk_bytes (tree_nk 0x20 1 504 0 (-1)%Z 1 7) [66]                     (* at 4096 + 208 *)
  ++ nk_bytes (tree_nk 0x20 0 0 0 (-1)%Z 1 7) [67]                       (* at 4096 + 296 *)
  ++ nk_bytes (tree_nk 0x20 0 0 0 (-1)%Z 1 7) [68]                       (* at 4096 + 384 *)
  ++ cell (list_content [108; 102] [120])                                (* at 4096 + 472, 16 bytes *)
  ++ cell (list_content [108; 102] [208])                                (* at 4096 + 488, 16 bytes *)
  ++ cell (list_content [108; 102] [296; 384])                           (* at 4096 + 504, 24 bytes *)
  ++ occupied 3568.
(** The numbers of sub keys of \R and of \R\A\B are set. *)
Definition drop_all : written := mkW 0 2 4096 [(56, [0; 0; 0; 0])] [].
Definition back_two : written := mkW 0 3 4096 [(56, [1; 0; 0; 0]); (232, [0; 0; 0; 0])] [].
Definition drop_two : written := mkW 0 2 4096 [(232, [0; 0; 0; 0])] [].
Definition order_shown (order : reg_items -> reg_items) (ws : list written) : option (list (list N * cell_state)) :=
  match build order 20 whole true false order_hive [log_file 2 ws] with
  | Ok p => match iterate 20 p None false true false with
            | Ok ks => Some (map (fun k => (kn_path k, kn_state k)) ks)
            | _ => None
            end
  | _ => None
  end.
(** The path of the keys with these names, below the root. *)
Definition path_of (names : list N) : list N := 92 :: n_root ++ flat_map (fun c => [92; c]) names.
