(** Hives that were cut off: in the data of a value, behind the last cell, in a
    list, and far before the values of the root. Nothing here models code. *)
From Verif Require Import Base BaseFacts Util UtilSpec UtilText LayoutSpec LayoutFacts Types CellSpec TxSpec TreeSpec Demo DemoCell DemoTree.

Definition cut_hive : list N := firstn (N.to_nat 4620) demo_hive.
Definition cut_rest : list N := skipn (N.to_nat 4620) demo_hive.
Lemma cut_whole : cut_hive ++ cut_rest = demo_hive.
Proof. apply firstn_skipn. Qed.

(** Cut off behind the last cell, and in the list of sub keys at 408. *)
Definition free_cut : list N := firstn (N.to_nat 4656) demo_hive.
Definition free_rest : list N := skipn (N.to_nat 4656) demo_hive.
Lemma free_whole : free_cut ++ free_rest = demo_hive.
Proof. apply firstn_skipn. Qed.
Definition list_cut : list N := firstn (N.to_nat 4514) demo_hive.
Definition list_rest : list N := skipn (N.to_nat 4514) demo_hive.
Lemma list_whole : list_cut ++ list_rest = demo_hive.
Proof. apply firstn_skipn. Qed.

(** One value, whose list is at the offset 4232 of the bins. *)
Definition d_far := tree_nk 0x2C 0 (2 ^ 32 - 1) 1 4232%Z 1 7.
Definition far_bin : list N :=
  hbin_head 0 8192 ++ nk_bytes d_far n_root                           (* at 32 *)
  ++ enc 4 4112 ++ repeat 0 4108                                      (* at 120, free *)
  ++ cell (enc 4 4240)                                                (* at 4232, 8 bytes *)
  ++ vk_bytes (tree_vk (2 ^ 31 + 4) 1 4 1 7) [120]                    (* at 4240, "x" *)
  ++ enc 4 3920 ++ repeat 0 3916.                                     (* at 4272 *)
Definition far_hive : list N := header 1 1 32 8192 ++ far_bin.
Definition far_tree : key_tree := KeyTree 4128 n_root [mkValue [120] 4 [1; 0; 0; 0]] [].
Lemma far_is_hive : hive far_hive far_tree.
Proof.
  split; [apply bytes_check; vm_compute; reflexivity|]. split; [vm_compute; reflexivity|]. split; [reflexivity|]. split.
  2:{ cbn. repeat (constructor; [cbn; intuition discriminate|]). constructor. }
  apply (key_stored _ true 4128 n_root _ _ d_far n_root); [key_fits|reflexivity|split; [now apply bytes_check|reflexivity]|reflexivity|at_place| | |constructor].
  - split; [reflexivity|]. right. split; [discriminate|]. split; [reflexivity|]. exists (enc 4 (2 ^ 32 - 8)), [4240].
    split; [reflexivity|]. split; [repeat constructor; reflexivity|]. split; [at_place|]. constructor; [|constructor].
    exists (tree_vk (2 ^ 31 + 4) 1 4 1 7), [120]. split; [key_fits|]. split; [reflexivity|]. split; [split; [now apply bytes_check|reflexivity]|]. split; [reflexivity|].
    split; [|at_place]. left. split; [discriminate|]. split; [reflexivity|]. now exists [].
  - split; [reflexivity|]. now left.
Qed.
Definition far_cut : list N := firstn (N.to_nat 4216) far_hive.
Definition far_rest : list N := skipn (N.to_nat 4216) far_hive.
Lemma far_whole : far_cut ++ far_rest = far_hive.
Proof. apply firstn_skipn. Qed.
