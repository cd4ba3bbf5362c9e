(** A hive of four keys, for the examples beside the theorems about whole hives,
    and damaged ones for the counterexamples. Nothing here models code. *)
From Verif Require Import Base BaseFacts Util UtilSpec UtilText LayoutSpec LayoutFacts Types CellSpec TxSpec TreeSpec Demo DemoCell.

Definition tree_nk_in (parent : Z) (flags nsub sublist nval : N) (vallist : Z) (nsize slack : N) : nk_detail :=
  {| kd_size := (- Z.of_N (80 + nsize + slack))%Z; kd_flags := flags; kd_time := 132655520530000001; kd_access := 0;
     kd_parent := parent; kd_nsub := nsub; kd_nvol := 0; kd_sublist := sublist; kd_vollist := (-1)%Z;
     kd_nvalues := nval; kd_vallist := vallist; kd_security := 0; kd_class := (-1)%Z;
     kd_max_name := 0; kd_max_class := 0; kd_max_value_name := 0; kd_max_value_data := 0;
     kd_work := 0; kd_name_size := nsize; kd_class_size := 0; kd_slack := repeat 0 (N.to_nat slack); kd_full := None |}.
Definition tree_nk := tree_nk_in 0%Z.
Definition tree_vk (size data type nsize slack : N) : vk_detail :=
  {| vd_size := (- Z.of_N (24 + nsize + slack))%Z; vd_name_size := nsize; vd_data_size_raw := size;
     vd_data_offset := data; vd_type_raw := type; vd_flags_raw := 1; vd_padding := 0;
     vd_name := []; vd_slack := repeat 0 (N.to_nat slack); vd_bytes := None; vd_full := None |}.
Definition n_root : list N := [82].                        (* R *)
Definition n_alpha : list N := [65; 108; 112; 104; 97].    (* Alpha *)
Definition n_beta : list N := [98; 233; 116; 97].          (* béta *)
Definition n_gamma : list N := [103; 97; 109; 109; 97].    (* gamma *)
Definition n_long : list N := [76; 111; 110; 103].         (* Long *)
Definition d_root := tree_nk 0x2C 2 384 2 424%Z 1 7.
Definition d_alpha := tree_nk_in 32%Z 0x20 1 408 0 (-1)%Z 5 3.
Definition d_beta := tree_nk_in 120%Z 0x20 0 (2 ^ 32 - 1) 1 504%Z 4 4.
Definition d_gamma := tree_nk_in 32%Z 0x20 0 (2 ^ 32 - 1) 0 (-1)%Z 5 3.
Definition demo_bin : list N :=
  hbin_head 0 4096
  ++ nk_bytes d_root n_root ++ nk_bytes d_alpha n_alpha               (* at 32, 120 *)
  ++ nk_bytes d_beta n_beta ++ nk_bytes d_gamma n_gamma               (* at 208, 296 *)
  ++ cell (list_content [108; 102] [120; 296])                        (* at 384, 24 bytes *)
  ++ cell (list_content [108; 104] [208])                             (* at 408, 16 bytes *)
  ++ cell (enc 4 440 ++ enc 4 472)                                    (* at 424, 16 bytes *)
  ++ vk_bytes (tree_vk (2 ^ 31 + 4) 1 4 1 7) [120]                    (* at 440, "x" *)
  ++ vk_bytes (tree_vk 6 520 3 4 4) n_long                            (* at 472, "Long" *)
  ++ cell (enc 4 536)                                                 (* at 504, 8 bytes *)
  ++ cell []                                                          (* at 512, 8 bytes *)
  ++ cell [1; 2; 3; 4; 5; 6]                                          (* at 520, 16 bytes *)
  ++ vk_bytes (tree_vk (2 ^ 31 + 2) 65 1 0 0) []                      (* at 536, the unnamed value *)
  ++ enc 4 3536 ++ repeat 0 3532.                                     (* at 560 *)
Definition demo_hive : list N := header 1 1 32 4096 ++ demo_bin.
Definition t_beta : key_tree := KeyTree 4304 n_beta [mkValue [] 1 [65; 0]] [].
Definition t_alpha : key_tree := KeyTree 4216 n_alpha [] [t_beta].
Definition t_gamma : key_tree := KeyTree 4392 n_gamma [] [].
Definition demo_tree : key_tree :=
  KeyTree 4128 n_root [mkValue [120] 4 [1; 0; 0; 0]; mkValue n_long 3 [1; 2; 3; 4; 5; 6]] [t_alpha; t_gamma].

Lemma stored_check buf pos bs : (pos <=? len buf) && beq (bytes_at buf pos (len bs)) bs = true -> stored buf pos bs.
Proof.
  intros E. apply andb_true_iff in E as [L E]. apply N.leb_le in L. apply beq_eq in E.
  exists (firstn (N.to_nat pos) buf), (skipn (length bs) (skipn (N.to_nat pos) buf)). split.
  - rewrite <- (firstn_skipn (N.to_nat pos) buf) at 1. f_equal. rewrite <- (firstn_skipn (length bs) (skipn (N.to_nat pos) buf)) at 1.
    f_equal. unfold bytes_at in E. unfold len in E. rewrite Nat2N.id in E. exact E.
  - rewrite len_firstn. lia.
Qed.
Lemma bytes_check b : forallb (fun x => x <? 256) b = true -> bytes_ok b.
Proof. intros E. apply Forall_forall. intros x I. rewrite forallb_forall in E. now apply N.ltb_lt, E. Qed.
Definition demo_fi : file_info := mkFI 4096 demo_hive.
Ltac at_place := apply stored_check; vm_compute; reflexivity.
Ltac key_fits := vm_compute; repeat split; discriminate.
Lemma beta_stored : tree_stored demo_fi false t_beta.
Proof.
  apply (key_stored demo_fi false 4304 n_beta _ _ d_beta n_beta); [key_fits|reflexivity|split; [now apply bytes_check|reflexivity]|reflexivity|at_place| | |constructor].
  - split; [reflexivity|]. right. split; [discriminate|]. split; [reflexivity|]. exists (enc 4 (2 ^ 32 - 8)), [536].
    split; [reflexivity|]. split; [repeat constructor; reflexivity|]. split; [at_place|]. constructor; [|constructor].
    exists (tree_vk (2 ^ 31 + 2) 65 1 0 0), []. split; [key_fits|]. split; [reflexivity|]. split; [split; [now apply bytes_check|reflexivity]|]. split; [reflexivity|].
    split; [|at_place]. left. split; [discriminate|]. split; [reflexivity|]. now exists [0; 0].
  - split; [reflexivity|]. now left.
Qed.
Lemma alpha_stored : tree_stored demo_fi false t_alpha.
Proof.
  apply (key_stored demo_fi false 4216 n_alpha _ _ d_alpha n_alpha); [key_fits|reflexivity|split; [now apply bytes_check|reflexivity]|reflexivity|at_place| | |].
  - split; [reflexivity|]. now left.
  - split; [reflexivity|]. right. split; [discriminate|].
    apply (lh_list demo_fi 408 (-16)%Z [(208, [0; 0; 0; 0])]); [vm_compute; split; [discriminate|reflexivity]|reflexivity|repeat constructor; reflexivity|at_place].
  - constructor; [exact beta_stored|constructor].
Qed.
Lemma gamma_stored : tree_stored demo_fi false t_gamma.
Proof.
  apply (key_stored demo_fi false 4392 n_gamma _ _ d_gamma n_gamma); [key_fits|reflexivity|split; [now apply bytes_check|reflexivity]|reflexivity|at_place| | |constructor];
    split; [reflexivity|now left|reflexivity|now left].
Qed.
Lemma demo_stored : tree_stored demo_fi true demo_tree.
Proof.
  apply (key_stored demo_fi true 4128 n_root _ _ d_root n_root); [key_fits|reflexivity|split; [now apply bytes_check|reflexivity]|reflexivity|at_place| | |].
  - split; [reflexivity|]. right. split; [discriminate|]. split; [reflexivity|]. exists (enc 4 (2 ^ 32 - 16)), [440; 472].
    split; [reflexivity|]. split; [repeat constructor; reflexivity|]. split; [at_place|]. constructor; [|constructor; [|constructor]].
    + exists (tree_vk (2 ^ 31 + 4) 1 4 1 7), [120]. split; [key_fits|]. split; [reflexivity|]. split; [split; [now apply bytes_check|reflexivity]|]. split; [reflexivity|].
      split; [|at_place]. left. split; [discriminate|]. split; [reflexivity|]. now exists [].
    + exists (tree_vk 6 520 3 4 4), n_long. split; [key_fits|]. split; [reflexivity|]. split; [split; [now apply bytes_check|reflexivity]|]. split; [reflexivity|].
      split; [|at_place]. right. left. split; [reflexivity|]. split; [reflexivity|]. split; [left; discriminate|].
      exists (enc 4 (2 ^ 32 - 16)). split; [reflexivity|at_place].
  - split; [reflexivity|]. right. split; [discriminate|].
    apply (lf_list demo_fi 384 (-24)%Z [(120, [0; 0; 0; 0]); (296, [0; 0; 0; 0])]); [vm_compute; split; [discriminate|reflexivity]|reflexivity|repeat constructor; reflexivity|at_place].
  - constructor; [exact alpha_stored|constructor; [exact gamma_stored|constructor]].
Qed.
Lemma demo_is_hive : hive demo_hive demo_tree.
Proof.
  split; [apply bytes_check; vm_compute; reflexivity|]. split; [vm_compute; reflexivity|]. split; [reflexivity|]. split; [exact demo_stored|].
  cbn. repeat (constructor; [cbn; intuition discriminate|]). constructor.
Qed.
Lemma demo_header : known_file_type demo_hive /\ bytes_at demo_hive 0 4 = [114; 101; 103; 102] /\ num_at demo_hive 36 4 = 32
  /\ clean_names demo_tree.
Proof.
  split; [left; vm_compute; reflexivity|]. split; [vm_compute; reflexivity|]. split; [vm_compute; reflexivity|].
  unfold clean_names. cbn. repeat (constructor; [cbn; intuition discriminate|]). constructor.
Qed.

(** The root's list of sub keys is an index root that lists itself; and the
    only sub key of the root is the root. *)
Definition looping_hive : list N :=
  header 1 1 32 4096 ++ hbin_head 0 4096 ++ nk_bytes (tree_nk 0x2C 1 120 0 (-1)%Z 1 7) n_root
  ++ enc_i32 (-16)%Z ++ [114; 105] ++ enc 2 1 ++ enc 4 120 ++ enc 4 0 ++ repeat 0 64.
Definition own_child_hive : list N :=
  header 1 1 32 4096 ++ hbin_head 0 4096 ++ nk_bytes (tree_nk 0x2C 1 120 0 (-1)%Z 1 7) n_root
  ++ cell (list_content [108; 102] [32]) ++ repeat 0 64.
