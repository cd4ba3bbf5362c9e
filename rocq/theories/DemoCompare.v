(** Hives to compare, for the examples beside the theorems about comparisons.
    Nothing here models code. *)
From Coq Require Import String.
From Verif Require Import Base BaseFacts Util UtilSpec UtilText LayoutSpec LayoutFacts Types CellSpec TxSpec TreeSpec Compare CompareSpec Demo DemoCell DemoTree.

(** A hash function without collisions. *)
Fixpoint pack (l : list N) : N := match l with [] => 0 | n :: r => 2 ^ n * (2 * pack r + 1) end.
Lemma pack_pair n m a b : 2 ^ n * (2 * a + 1) = 2 ^ m * (2 * b + 1) -> n <= m -> n = m /\ a = b.
Proof.
  intros E L. assert (X : m = n + (m - n)) by lia. rewrite X in E. rewrite N.pow_add_r, <- N.mul_assoc in E.
  apply N.mul_cancel_l in E; [|apply N.pow_nonzero; lia]. destruct (m - n) as [|q] eqn:D; [cbn [N.pow] in E; lia|].
  exfalso. assert (Y : N.pos q = N.succ (N.pos q - 1)) by lia. rewrite Y, N.pow_succ_r', <- N.mul_assoc in E.
  set (z := 2 ^ (N.pos q - 1) * (2 * b + 1)) in E. clearbody z. lia.
Qed.
Lemma pack_pos n a : 2 ^ n * (2 * a + 1) <> 0.
Proof. apply N.neq_mul_0. split; [apply N.pow_nonzero; lia|lia]. Qed.
Lemma pack_inj a : forall b, pack a = pack b -> a = b.
Proof.
  induction a as [|n a IH]; intros [|m b] E; cbn [pack] in E; [reflexivity|symmetry in E; now apply pack_pos in E|now apply pack_pos in E|].
  destruct (N.le_ge_cases n m) as [L|L]; [destruct (pack_pair _ _ _ _ E L) as (-> & X)|destruct (pack_pair _ _ _ _ (eq_sym E) L) as (-> & X)];
    f_equal; now apply IH.
Qed.

(** To compare with the hive of DemoTree.v: the value [x] of the root has other
    data, the key [gamma] has other flags, the key [delta] is new and the rest is
    gone. *)
Definition n_delta : list N := [100; 101; 108; 116; 97].
Definition o_root := tree_nk 0x2C 2 296 1 320%Z 1 7.
Definition o_gamma := tree_nk 0x28 0 (2 ^ 32 - 1) 0 (-1)%Z 5 3.
Definition o_delta := tree_nk 0x20 0 (2 ^ 32 - 1) 0 (-1)%Z 5 3.
Definition other_hive : list N :=
  header 1 1 32 4096 ++ hbin_head 0 4096
  ++ nk_bytes o_root n_root ++ nk_bytes o_gamma n_gamma ++ nk_bytes o_delta n_delta   (* at 32, 120, 208 *)
  ++ cell (list_content [108; 102] [208; 120])                                        (* at 296 *)
  ++ cell (enc 4 328)                                                                 (* at 320 *)
  ++ vk_bytes (tree_vk (2 ^ 31 + 4) 2 4 1 7) [120]                                    (* at 328 *)
  ++ enc 4 3736 ++ repeat 0 60.
Definition other_tree : key_tree :=
  KeyTree 4128 n_root [mkValue [120] 4 [2; 0; 0; 0]] [KeyTree 4304 n_delta [] []; KeyTree 4216 n_gamma [] []].
Definition other_fi : file_info := mkFI 4096 other_hive.
Lemma other_stored : tree_stored other_fi true other_tree.
Proof.
  apply (key_stored other_fi true 4128 n_root _ _ o_root n_root); [key_fits|reflexivity|split; [now apply bytes_check|reflexivity]|reflexivity|at_place| | |].
  - split; [reflexivity|]. right. split; [discriminate|]. split; [reflexivity|]. exists (enc 4 (2 ^ 32 - 8)), [328].
    split; [reflexivity|]. split; [repeat constructor; reflexivity|]. split; [at_place|]. constructor; [|constructor].
    exists (tree_vk (2 ^ 31 + 4) 2 4 1 7), [120]. split; [key_fits|]. split; [reflexivity|]. split; [split; [now apply bytes_check|reflexivity]|]. split; [reflexivity|].
    split; [|at_place]. left. split; [discriminate|]. split; [reflexivity|]. now exists [].
  - split; [reflexivity|]. right. split; [discriminate|].
    apply (lf_list other_fi 296 (-24)%Z [(208, [0; 0; 0; 0]); (120, [0; 0; 0; 0])]); [vm_compute; split; [discriminate|reflexivity]|reflexivity|repeat constructor; reflexivity|at_place].
  - constructor; [|constructor; [|constructor]].
    + apply (key_stored other_fi false 4304 n_delta _ _ o_delta n_delta); [key_fits|reflexivity|split; [now apply bytes_check|reflexivity]|reflexivity|at_place| | |constructor];
        split; [reflexivity|now left|reflexivity|now left].
    + apply (key_stored other_fi false 4216 n_gamma _ _ o_gamma n_gamma); [key_fits|reflexivity|split; [now apply bytes_check|reflexivity]|reflexivity|at_place| | |constructor];
        split; [reflexivity|now left|reflexivity|now left].
Qed.
Lemma other_is_hive : hive other_hive other_tree.
Proof.
  split; [apply bytes_check; vm_compute; reflexivity|]. split; [vm_compute; reflexivity|]. split; [reflexivity|]. split; [exact other_stored|].
  cbn. repeat (constructor; [cbn; intuition discriminate|]). constructor.
Qed.
Lemma other_header : known_file_type other_hive /\ bytes_at other_hive 0 4 = [114; 101; 103; 102] /\ num_at other_hive 36 4 = 32
  /\ clean_names other_tree.
Proof.
  split; [left; vm_compute; reflexivity|]. split; [vm_compute; reflexivity|]. split; [vm_compute; reflexivity|].
  unfold clean_names. cbn. repeat (constructor; [cbn; intuition discriminate|]). constructor.
Qed.
Lemma demo_distinct : distinct demo_tree /\ distinct other_tree.
Proof.
  split; repeat (constructor; [discriminate|cbn; repeat (constructor; [cbn; intuition discriminate|]); constructor|cbn; repeat (constructor; [cbn; intuition discriminate|]); constructor|]);
    repeat constructor; try discriminate; cbn; intuition discriminate.
Qed.

(** A root with two values of one-letter names and inline data; the second entry
    of the value list is given. *)
Definition two_values (a x b y : N) (second : N) : list N :=
  header 1 1 32 4096 ++ hbin_head 0 4096 ++ nk_bytes (tree_nk 0x2C 0 (2 ^ 32 - 1) 2 120%Z 1 7) n_root
  ++ cell (enc 4 136 ++ enc 4 second)
  ++ vk_bytes (tree_vk (2 ^ 31 + 4) x 4 1 7) [a] ++ vk_bytes (tree_vk (2 ^ 31 + 4) y 4 1 7) [b] ++ repeat 0 60.
