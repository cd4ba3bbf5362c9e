(** The hive of DemoTree.v with open places (the whole header, the slack of the
    cells, the hints in the lists, unused cells), for the examples beside C84.
    Nothing here models code. *)
From Verif Require Import Base BaseFacts Util UtilSpec UtilText LayoutSpec LayoutFacts Types CellSpec TxSpec TreeSpec FillSpec Demo DemoCell DemoTree DemoScan.

Definition sheet_nk (parent : Z) (flags nsub sublist nval : N) (vallist : Z) (nsize slack : N) : nk_detail :=
  {| kd_size := (- Z.of_N (80 + nsize + slack))%Z; kd_flags := flags; kd_time := 132655520530000001; kd_access := 0;
     kd_parent := parent; kd_nsub := nsub; kd_nvol := 0; kd_sublist := sublist; kd_vollist := (-1)%Z;
     kd_nvalues := nval; kd_vallist := vallist; kd_security := 0; kd_class := (-1)%Z;
     kd_max_name := 0; kd_max_class := 0; kd_max_value_name := 0; kd_max_value_data := 0;
     kd_work := 0; kd_name_size := nsize; kd_class_size := 0; kd_slack := repeat open_byte (N.to_nat slack); kd_full := None |}.
Definition sheet_vk (size data type nsize slack : N) : vk_detail :=
  {| vd_size := (- Z.of_N (24 + nsize + slack))%Z; vd_name_size := nsize; vd_data_size_raw := size;
     vd_data_offset := data; vd_type_raw := type; vd_flags_raw := 1; vd_padding := 0;
     vd_name := []; vd_slack := repeat open_byte (N.to_nat slack); vd_bytes := None; vd_full := None |}.
Definition s_root := sheet_nk 0%Z 0x2C 2 384 2 424%Z 1 7.
Definition s_alpha := sheet_nk 32%Z 0x20 1 408 0 (-1)%Z 5 3.
Definition s_beta := sheet_nk 120%Z 0x20 0 (2 ^ 32 - 1) 1 504%Z 4 4.
Definition s_gamma := sheet_nk 32%Z 0x20 0 (2 ^ 32 - 1) 0 (-1)%Z 5 3.
Definition o (n : nat) : list N := repeat open_byte n.
Definition demo_sheet : list N :=
  o 4096 ++ [104; 98; 105; 110] ++ o 28
  ++ nk_bytes s_root n_root ++ nk_bytes s_alpha n_alpha               (* at 32, 120 *)
  ++ nk_bytes s_beta n_beta ++ nk_bytes s_gamma n_gamma               (* at 208, 296 *)
  ++ enc_i32 (-24)%Z ++ [108; 102; 2; 0] ++ enc 4 120 ++ o 4 ++ enc 4 296 ++ o 4 (* at 384 *)
  ++ enc_i32 (-16)%Z ++ [108; 104; 1; 0] ++ enc 4 208 ++ o 4          (* at 408 *)
  ++ o 4 ++ enc 4 440 ++ enc 4 472 ++ o 4                             (* at 424 *)
  ++ vk_bytes (sheet_vk (2 ^ 31 + 4) 1 4 1 7) [120]                   (* at 440 *)
  ++ vk_bytes (sheet_vk 6 520 3 4 4) n_long                           (* at 472 *)
  ++ o 4 ++ enc 4 536                                                 (* at 504 *)
  ++ o 8                                                              (* at 512 *)
  ++ o 4 ++ [1; 2; 3; 4; 5; 6] ++ o 6                                 (* at 520 *)
  ++ vk_bytes (sheet_vk (2 ^ 31 + 2) 65 1 0 0) [].                    (* at 536 *)
(** Another file with the same keys: its open places hold 199, and two bytes
    follow where the first has most of its bin. *)
Definition noisy_hive : list N :=
  header 1 1 32 4096 ++ map (fun x => if x =? open_byte then 199 else x) (skipn 4096 demo_sheet) ++ [7; 9].
(** And one with a deleted key in its free space. *)
Definition n_ghost : list N := [71; 104; 111; 115; 116].   (* Ghost *)
Definition ghost_hive : list N :=
  header 1 1 32 8192 ++ firstn 560 demo_bin ++ nk_bytes (freed d_gamma) n_ghost ++ enc 4 3448 ++ repeat 0 3444.

Fixpoint filled_check (sheet buf : list N) : bool :=
  match sheet, buf with
  | [], _ => true
  | s :: r, b :: q => ((s =? b) || (s =? open_byte)) && filled_check r q
  | _, [] => false
  end.
Lemma filled_check_ok sheet : forall buf, filled_check sheet buf = true -> filled sheet buf.
Proof.
  induction sheet as [|s sheet IH]; intros buf E.
  - exists [], buf. split; [reflexivity|constructor].
  - destruct buf as [|b buf]; [discriminate|]. cbn [filled_check] in E. apply andb_true_iff in E as (E1 & E2).
    destruct (IH _ E2) as (body & more & -> & F). exists (b :: body), more. split; [reflexivity|]. constructor; [|exact F].
    apply orb_true_iff in E1 as [E1|E1]; apply N.eqb_eq in E1; auto.
Qed.
Lemma demo_filled : filled demo_sheet demo_hive.
Proof. apply filled_check_ok. vm_compute. reflexivity. Qed.
Lemma noisy_filled : filled demo_sheet noisy_hive.
Proof. apply filled_check_ok. vm_compute. reflexivity. Qed.
Lemma ghost_filled : filled demo_sheet ghost_hive.
Proof. apply filled_check_ok. vm_compute. reflexivity. Qed.
Lemma ghost_header : known_file_type ghost_hive /\ bytes_at ghost_hive 0 4 = [114; 101; 103; 102] /\ bytes_ok ghost_hive.
Proof. split; [left; vm_compute; reflexivity|]. split; [vm_compute; reflexivity|]. apply bytes_check. vm_compute. reflexivity. Qed.
Lemma noisy_header : known_file_type noisy_hive /\ bytes_at noisy_hive 0 4 = [114; 101; 103; 102] /\ bytes_ok noisy_hive.
Proof. split; [left; vm_compute; reflexivity|]. split; [vm_compute; reflexivity|]. apply bytes_check. vm_compute. reflexivity. Qed.

Local Notation fi := (mkFI 4096 demo_sheet).
Lemma beta_laid : tree_stored fi false t_beta.
Proof.
  apply (key_stored fi false 4304 n_beta _ _ s_beta n_beta); [key_fits|reflexivity|split; [now apply bytes_check|reflexivity]|reflexivity|at_place| | |constructor].
  - split; [reflexivity|]. right. split; [discriminate|]. split; [reflexivity|]. exists (o 4), [536].
    split; [reflexivity|]. split; [repeat constructor; reflexivity|]. split; [at_place|]. constructor; [|constructor].
    exists (sheet_vk (2 ^ 31 + 2) 65 1 0 0), []. split; [key_fits|]. split; [reflexivity|]. split; [split; [now apply bytes_check|reflexivity]|]. split; [reflexivity|].
    split; [|at_place]. left. split; [discriminate|]. split; [reflexivity|]. now exists [0; 0].
  - split; [reflexivity|]. now left.
Qed.
Lemma alpha_laid : tree_stored fi false t_alpha.
Proof.
  apply (key_stored fi false 4216 n_alpha _ _ s_alpha n_alpha); [key_fits|reflexivity|split; [now apply bytes_check|reflexivity]|reflexivity|at_place| | |].
  - split; [reflexivity|]. now left.
  - split; [reflexivity|]. right. split; [discriminate|].
    apply (lh_list fi 408 (-16)%Z [(208, o 4)]); [vm_compute; split; [discriminate|reflexivity]|reflexivity|repeat constructor; reflexivity|at_place].
  - constructor; [exact beta_laid|constructor].
Qed.
Lemma gamma_laid : tree_stored fi false t_gamma.
Proof.
  apply (key_stored fi false 4392 n_gamma _ _ s_gamma n_gamma); [key_fits|reflexivity|split; [now apply bytes_check|reflexivity]|reflexivity|at_place| | |constructor];
    split; [reflexivity|now left|reflexivity|now left].
Qed.
Lemma demo_laid_out : laid_out demo_sheet demo_tree.
Proof.
  split; [vm_compute; reflexivity|]. split; [reflexivity|]. split; [|split].
  - apply (key_stored fi true 4128 n_root _ _ s_root n_root); [key_fits|reflexivity|split; [now apply bytes_check|reflexivity]|reflexivity|at_place| | |].
    + split; [reflexivity|]. right. split; [discriminate|]. split; [reflexivity|]. exists (o 4), [440; 472].
      split; [reflexivity|]. split; [repeat constructor; reflexivity|]. split; [at_place|]. constructor; [|constructor; [|constructor]].
      * exists (sheet_vk (2 ^ 31 + 4) 1 4 1 7), [120]. split; [key_fits|]. split; [reflexivity|]. split; [split; [now apply bytes_check|reflexivity]|]. split; [reflexivity|].
        split; [|at_place]. left. split; [discriminate|]. split; [reflexivity|]. now exists [].
      * exists (sheet_vk 6 520 3 4 4), n_long. split; [key_fits|]. split; [reflexivity|]. split; [split; [now apply bytes_check|reflexivity]|]. split; [reflexivity|].
        split; [|at_place]. right. left. split; [reflexivity|]. split; [reflexivity|]. split; [left; discriminate|].
        exists (o 4). split; [reflexivity|at_place].
    + split; [reflexivity|]. right. split; [discriminate|].
      apply (lf_list fi 384 (-24)%Z [(120, o 4); (296, o 4)]); [vm_compute; split; [discriminate|reflexivity]|reflexivity|repeat constructor; reflexivity|at_place].
    + constructor; [exact alpha_laid|constructor; [exact gamma_laid|constructor]].
  - cbn. repeat (constructor; [cbn; intuition discriminate|]). constructor.
  - repeat constructor.
Qed.
