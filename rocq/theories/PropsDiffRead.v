(** C43, further: a diff can be read back, unless a name holds a line feed. *)
From Coq Require Import String.
From Verif Require Import Base BaseFacts Util UtilSpec Types Value Node Parser TxSpec TxLog CellSpec TreeSpec
  Log Export ExportSpec Compare CompareSpec CompareFacts Demo DemoTree DemoExport DemoCompare PropsCompare DiffRead.
Open Scope string_scope.
Open Scope N_scope.
Open Scope list_scope.

(** Two diffs that are the same text remove the same lines and add the same lines,
    hunk by hunk, if no line holds a line feed. *)
Theorem C43_readable : forall r r' base comparison c c',
  Forall (fun h => Forall (fun x => ~ In 10 x) (fst h ++ snd h)) (all_hunks r c) ->
  Forall (fun h => Forall (fun x => ~ In 10 x) (fst h ++ snd h)) (all_hunks r' c') ->
  write_diff r base comparison c = write_diff r' base comparison c' -> all_hunks r c = all_hunks r' c'.
Proof. exact diff_back. Qed.
Print Assumptions C43_readable.
(** The changes of [C43_example] meet the hypothesis, and without the added value
    the diff is another. *)
Example C43_readable_example : Forall (fun h => Forall (fun x => ~ In 10 x) (fst h ++ snd h)) (all_hunks e_show some_changes)
  /\ write_diff e_show (text "one") (text "two") some_changes
     <> write_diff e_show (text "one") (text "two") (mkChanges [e_lost_key] [e_plain_key] [(e_old_key, e_key)] [] [] [(text "\R\x,y", e_old_value, e_value)]).
Proof.
  split; [exact (proj1 C43_example)|]. intros E. apply (f_equal (@List.length N)) in E. vm_compute in E. discriminate E.
Qed.
(** A key whose name holds a line feed and the text of a hunk: one deleted key is
    written as another deleted key and an added key. *)
Definition plain (name : list N) : key_node := show_key 1 name [] Allocated [] [].
Definition after_path : list N := skipn 4 (key_line e_show (plain (text "\R\a"))).
Definition forged : changes :=
  mkChanges [plain (text "\R\a" ++ after_path ++ [10] ++ text "@@ -2,0 +1,1 @@" ++ [10] ++ text "+\R\b")] [] [] [] [] [].
Definition honest : changes := mkChanges [plain (text "\R\a")] [plain (text "\R\b")] [] [] [] [].
Theorem C43_forged_refuted :
  write_diff e_show (text "one") (text "two") forged = write_diff e_show (text "one") (text "two") honest
  /\ List.length (cg_keys_added forged) = 0%nat /\ List.length (cg_keys_added honest) = 1%nat.
Proof. vm_compute. now split. Qed.
Print Assumptions C43_forged_refuted.
(** Where a hunk has no line on one side, a reader of unified diffs expects the
    number of the line before the place, so 0 at the start of a file. The header
    has 1: this is the diff of a hive with nothing and one with an added key. *)
Theorem C43_empty_range_refuted : forall r base comparison k,
  write_diff r base comparison (mkChanges [] [k] [] [] [] [])
  = text "--- " ++ base ++ [10] ++ text "+++ " ++ comparison ++ [10] ++ text "@@ -1,0 +1,1 @@" ++ [10] ++ text "+" ++ key_line r k ++ [10].
Proof.
  intros r base comparison k. change (key_line r k) with (format_key r k). unfold write_diff.
  cbn [cg_keys_deleted cg_keys_added cg_keys_modified cg_values_deleted cg_values_added cg_values_modified map].
  generalize (format_key r k). intros x.
  assert (N0 : forall l n, diff_section l [] n [] = ([], l, n)) by reflexivity.
  assert (N1 : diff_section 1 [] 1 [x] = (text "@@ -1,0 +1,1 @@" ++ [10] ++ text "+" ++ x ++ [10], 1, 2)).
  { unfold diff_section. cbn [len List.length flat_map]. rewrite app_nil_r. vm_compute. reflexivity. }
  rewrite N0, N1, !N0, !app_nil_r, <- !app_assoc. reflexivity.
Qed.
Print Assumptions C43_empty_range_refuted.
