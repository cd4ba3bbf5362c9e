(** Hives with free cells, for the examples beside the theorems about the
    recovery scan and for the counterexamples. Nothing here models code. *)
From Verif Require Import Base BaseFacts LayoutSpec Types CellSpec TxSpec ScanSpec Demo DemoCell DemoTree.

Definition freed (d : nk_detail) : nk_detail :=
  {| kd_size := (- kd_size d)%Z; kd_flags := kd_flags d; kd_time := kd_time d; kd_access := kd_access d;
     kd_parent := kd_parent d; kd_nsub := kd_nsub d; kd_nvol := kd_nvol d; kd_sublist := kd_sublist d; kd_vollist := kd_vollist d;
     kd_nvalues := kd_nvalues d; kd_vallist := kd_vallist d; kd_security := kd_security d; kd_class := kd_class d;
     kd_max_name := kd_max_name d; kd_max_class := kd_max_class d; kd_max_value_name := kd_max_value_name d; kd_max_value_data := kd_max_value_data d;
     kd_work := kd_work d; kd_name_size := kd_name_size d; kd_class_size := kd_class_size d; kd_slack := kd_slack d; kd_full := kd_full d |}.
(** A cell in use of [n] bytes that begins as a value does, with a name that would
    end outside the file. *)
Definition occupied (n : N) : list N := enc 4 (4294967296 - n) ++ [118; 107; 255; 255] ++ repeat 0 (N.to_nat n - 8).
(** Two bins. The first one holds the root, a live key, a free key, a free value,
    an allocated cell with a value in it that no longer is one, and a damaged value;
    the second one a free key. *)
Definition scan_hive : list N :=
  header 1 1 32 8192
  ++ hbin_head 0 4096
  ++ nk_bytes (tree_nk 0x2C 1 208 0 (-1)%Z 1 7) n_root                   (* at 4096 + 32 *)
  ++ nk_bytes d_gamma n_gamma                                            (* at 4096 + 120 *)
  ++ cell (list_content [108; 102] [120])                                (* at 4096 + 208, 16 bytes *)
  ++ nk_bytes (freed d_beta) n_beta                                      (* at 4096 + 224 *)
  ++ free_cell (vk_content n_long 4 7 4)                                 (* at 4096 + 312, 32 bytes *)
  ++ cell (repeat 0 8 ++ free_cell (vk_content [120] 4 7 4))             (* at 4096 + 344, 48 bytes *)
  ++ occupied 3704                                                       (* at 4096 + 392 *)
  ++ hbin_head 4096 4096
  ++ nk_bytes (freed d_gamma) n_gamma                                    (* at 8192 + 32 *)
  ++ enc 4 3976 ++ repeat 0 3972.                                        (* at 8192 + 120 *)
Definition scan_cells : list N :=
  [4128; 4216; 4304; 4320; 4408; 4440; 4488].
Definition scan_bins : list (N * list N) :=
  [(4096, scan_cells); (8192, [8224; 8312])].
(** The cell before the live key is four bytes long. *)
Definition tiny_hive : list N :=
  header 1 1 32 8192
  ++ hbin_head 0 4096
  ++ nk_bytes (tree_nk 0x2C 1 212 0 (-1)%Z 1 7) n_root                   (* at 4096 + 32 *)
  ++ enc_i32 (-4)%Z                                                      (* at 4096 + 120 *)
  ++ nk_bytes d_gamma n_gamma                                            (* at 4096 + 124 *)
  ++ cell (list_content [108; 102] [124])                                (* at 4096 + 212, 16 bytes *)
  ++ occupied 3868                                                       (* at 4096 + 228 *)
  ++ hbin_head 4096 4096 ++ enc 4 4064 ++ repeat 0 4060.

(** Deciding the layout of a concrete file. *)
Fixpoint filled_b (b : list N) (c e : N) (l : list N) : bool :=
  match l with
  | [] => c =? e
  | x :: r => (x =? c) && (8 <=? size_at b c) && filled_b b (c + size_at b c) e r
  end.
Fixpoint tiled_b (b : list N) (n o : N) (bins : list (N * list N)) : bool :=
  match bins with
  | [] => o =? n
  | (x, l) :: r => (x =? o) && (o + 32 <=? len b) && beq (bytes_at b o 4) [104; 98; 105; 110] && (32 <? bin_size b o)
      && filled_b b (o + 32) (o + bin_size b o) l && tiled_b b n (o + bin_size b o) r
  end.
Lemma filled_check b e l : forall c, filled_b b c e l = true -> filled b c e l.
Proof.
  induction l as [|x r IH]; intros c E; cbn [filled_b] in E.
  - apply N.eqb_eq in E as ->. constructor.
  - apply andb_true_iff in E as [E F]. apply andb_true_iff in E as [X S]. apply N.eqb_eq in X as ->. apply N.leb_le in S. constructor; auto.
Qed.
Lemma tiled_check b n bins : forall o, tiled_b b n o bins = true -> tiled b n o bins.
Proof.
  induction bins as [|[x l] r IH]; intros o E; cbn [tiled_b] in E.
  - apply N.eqb_eq in E as ->. constructor.
  - repeat (apply andb_true_iff in E as [E ?]). apply N.eqb_eq in E as ->. constructor; auto.
    + split; [now apply N.leb_le|now apply beq_eq].
    + now apply N.ltb_lt.
    + now apply filled_check.
Qed.

(** One bin whose free space is not a cell, only zeros, in a file of two bins. *)
Definition zero_hive : list N :=
  header 1 1 32 8192
  ++ hbin_head 0 4096
  ++ nk_bytes (tree_nk 0x2C 1 208 0 (-1)%Z 1 7) n_root                   (* at 4096 + 32 *)
  ++ nk_bytes d_gamma n_gamma                                            (* at 4096 + 120 *)
  ++ cell (list_content [108; 102] [120])                                (* at 4096 + 208, 16 bytes *)
  ++ repeat 0 3872                                                       (* at 4096 + 224 *)
  ++ hbin_head 4096 4096 ++ enc 4 4064 ++ repeat 0 4060.
