(** C42 and C43: what a comparison of two hives reports, and how it is written. *)
From Coq Require Import String Permutation.
From Verif Require Import Base BaseFacts Util UtilSpec LayoutSpec Types Value Node Parser TxSpec TxLog CellSpec TreeSpec Pure TreeCount TreeSession
  Log Export ExportSpec Compare CompareSpec CompareRead CompareFacts CompareTree Demo DemoTree DemoExport DemoCompare.
Open Scope string_scope.
Open Scope N_scope.
Open Scope list_scope.

(** C42: the changes between two hives are exactly the items that are only in the
    second, only in the first, or in both with other contents, and the old items
    shown are those of the first hive. [order] is the order in which a hash map
    happens to be iterated; the hash function has no collision between the two
    contents of an item. *)
Theorem C42_hives : forall order n hash t1 t2 p1 p2 f,
  compared_hive hash t1 p1 -> compared_hive hash t2 p2 -> (forall q, f = Some q -> below_root q) ->
  (2 * List.length (positions t1) < n)%nat -> (2 * List.length (positions t2) < n)%nat ->
  (forall m, Permutation (order m) m) ->
  exists ks1 ks2 c, shown ks1 (listed f t1) /\ shown ks2 (listed f t2) /\ reg_compare order n p1 p2 f = Ok c /\ originals t1 c
  /\ (no_collision hash ks1 ks2 -> compared ks1 ks2 c).
Proof. intros. destruct (hives_compared order n hash t1 t2 p1 p2 f) as (ks1 & ks2 & c & _ & _ & R); eauto. Qed.
Print Assumptions C42_hives.
(** A hive of four keys and three values compared with one of three keys and one value. *)
Example C42_example : exists p1 p2, compared_hive pack demo_tree p1 /\ compared_hive pack other_tree p2
  /\ (forall ks1 ks2, no_collision pack ks1 ks2)
  /\ build keep 0 pack false false demo_hive [] = Ok p1 /\ build keep 0 pack false false other_hive [] = Ok p2.
Proof.
  destruct demo_header as (K1 & G1 & R1 & C1). destruct other_header as (K2 & G2 & R2 & C2). destruct demo_distinct as (D1 & D2).
  destruct (hive_opens keep 0 pack false demo_hive demo_tree K1 G1 demo_is_hive) as (p1 & E1 & B1 & _).
  destruct (hive_opens keep 0 pack false other_hive other_tree K2 G2 other_is_hive) as (p2 & E2 & B2 & _).
  exists p1, p2. split; [|split; [|split; [|now split]]].
  - split; [exists keep, O, false, demo_hive, []; now split|]. rewrite B1. split; [exact demo_is_hive|]. split; [exact R1|]. split; [exact C1|exact D1].
  - split; [exists keep, O, false, other_hive, []; now split|]. rewrite B2. split; [exact other_is_hive|]. split; [exact R2|]. split; [exact C2|exact D2].
  - intros ks1 ks2 w a b _ _ E. now apply pack_inj.
Qed.
Definition opened_pair (a b : list N) : res (parser * parser) :=
  let* p1 := build keep 0 pack false false a [] in let* p2 := build keep 0 pack false false b [] in Ok (p1, p2).
(** The changes found: the paths of the keys and the paths and names of the values. *)
Definition outline (c : changes) :=
  (map kn_path (cg_keys_deleted c), map kn_path (cg_keys_added c), map (fun x => (kn_path (fst x), kn_path (snd x))) (cg_keys_modified c),
   map value_key (cg_values_deleted c), map value_key (cg_values_added c),
   map (fun x => (value_key (fst x), vd_bytes (kv_detail (snd (fst x))), vd_bytes (kv_detail (snd x)))) (cg_values_modified c)).
Example C42_outline : (let* (p1, p2) := opened_pair demo_hive other_hive in
    let* c := reg_compare (fun m => m) 20 p1 p2 None in Ok (outline c))
  = Ok ([text "\R\Alpha"; text "\R\Alpha\b" ++ [195; 169] ++ text "ta"], [text "\R\delta"], [(text "\R\gamma", text "\R\gamma")],
        [(text "\R", Some n_long); (text "\R\Alpha\b" ++ [195; 169] ++ text "ta", Some [])], [],
        [((text "\R", Some [120]), Some [1; 0; 0; 0], Some [2; 0; 0; 0])]).
Proof. vm_compute. reflexivity. Qed.
(** A hive compared with itself, or with one that lists the same items: no change.
    This holds for every file in which no item is listed twice. *)
Theorem C42_same : forall order n p1 p2 f ks, iterate n p1 f false true false = Ok ks -> iterate n p2 f false true false = Ok ks ->
  NoDup (map fst (contents ks)) -> order [] = [] -> reg_compare order n p1 p2 f = Ok no_changes.
Proof. exact compare_same. Qed.
Print Assumptions C42_same.
(** If the value list of a key names a value twice, the hive differs from itself. *)
Theorem C42_duplicate_refuted : exists p, build keep 0 pack false false (two_values 97 1 98 2 136) [] = Ok p
  /\ exists c, reg_compare (fun m => m) 9 p p None = Ok c /\ map value_key (cg_values_added c) = [(text "\R", Some (text "a"))].
Proof.
  apply (checked _ (fun p => match reg_compare (fun m => m) 9 p p None with Ok c => match cg_values_added c with
    | [x] => beq (fst x) (text "\R") && beq (vd_name (kv_detail (snd x))) (text "a") | _ => false end | _ => false end)).
  - intros p. destruct (reg_compare _ _ _ _ _) as [c| | |]; [|discriminate 1..]. intros E. exists c. split; [reflexivity|].
    destruct (cg_values_added c) as [|x [|? ?]]; [discriminate E| |discriminate E]. apply andb_true_iff in E as (A & B). apply beq_eq in A, B.
    unfold value_key. cbn [map]. now rewrite A, B.
  - vm_compute. reflexivity.
Qed.
Print Assumptions C42_duplicate_refuted.
(** Of two values whose names differ only in case, the first is shown as the old
    state of the second. *)
Theorem C42_case_refuted : exists ps, opened_pair (two_values 97 1 65 2 168) (two_values 97 1 65 3 168) = Ok ps
  /\ exists path o v, (let* c := reg_compare (fun m => m) 9 (fst ps) (snd ps) None in Ok (cg_values_modified c)) = Ok [(path, o, v)]
  /\ vd_name (kv_detail o) = text "a" /\ vd_name (kv_detail v) = text "A".
Proof.
  apply (checked _ (fun ps => match reg_compare (fun m => m) 9 (fst ps) (snd ps) None with Ok c => match cg_values_modified c with
    | [x] => beq (vd_name (kv_detail (snd (fst x)))) (text "a") && beq (vd_name (kv_detail (snd x))) (text "A") | _ => false end | _ => false end)).
  - intros ps. destruct (reg_compare _ _ _ _ _) as [c| | |]; [|discriminate 1..]. intros E.
    destruct (cg_values_modified c) as [|[[path o] v] [|? ?]]; [discriminate E| |discriminate E]. apply andb_true_iff in E as (A & B). apply beq_eq in A, B.
    exists path, o, v. now split.
  - vm_compute. reflexivity.
Qed.
Print Assumptions C42_case_refuted.
(** C43: the diff is a sequence of hunks, one for each kind of change that
    occurred; the header of each tells how many lines of each kind follow and
    where they start, and each starts where the one before ended. *)
Theorem C43_hunks : forall r base comparison c,
  Forall (fun h => Forall (fun x => ~ In 10 x) (fst h ++ snd h)) (all_hunks r c) ->
  exists body, write_diff r base comparison c = text "--- " ++ base ++ [10] ++ text "+++ " ++ comparison ++ [10] ++ body
  /\ hunks 1 1 body (all_hunks r c).
Proof. exact write_diff_hunks. Qed.
Print Assumptions C43_hunks.
Definition some_changes : changes :=
  mkChanges [e_lost_key] [e_plain_key] [(e_old_key, e_key)] [] [(text "\R", e_lost_value)] [(text "\R\x,y", e_old_value, e_value)].
Example C43_example : Forall (fun h => Forall (fun x => ~ In 10 x) (fst h ++ snd h)) (all_hunks e_show some_changes)
  /\ List.length (all_hunks e_show some_changes) = 5%nat
  /\ firstn 45 (write_diff e_show (text "one") (text "two") some_changes) = text "--- one" ++ [10] ++ text "+++ two" ++ [10] ++ text "@@ -1,1 +1,0 @@" ++ [10] ++ text "-\R\lost" ++ [9] ++ text "1601".
Proof.
  split; [|split; vm_compute; reflexivity].
  assert (C : forallb (fun h => forallb (fun x => forallb (fun c => negb (c =? 10)) x) (fst h ++ snd h)) (all_hunks e_show some_changes) = true) by (vm_compute; reflexivity).
  apply Forall_forall. intros h H. apply Forall_forall. intros x X J. rewrite forallb_forall in C. specialize (C h H).
  rewrite forallb_forall in C. specialize (C x X). rewrite forallb_forall in C. specialize (C 10 J). discriminate C.
Qed.
(** A key whose name holds a line feed: one line is announced and two follow. *)
Theorem C43_newline_refuted : exists c rest,
  write_diff e_show (text "one") (text "two") c = text "--- one" ++ [10] ++ text "+++ two" ++ [10] ++ text "@@ -1,1 +1,0 @@" ++ [10] ++ rest
  /\ List.length (List.filter (fun x => x =? 10) rest) = 2%nat.
Proof.
  exists (mkChanges [show_key 1 (text "\R\a" ++ [10] ++ text "b") [] Allocated [] []] [] [] [] [] []). eexists. split; [vm_compute; reflexivity|vm_compute; reflexivity].
Qed.
Print Assumptions C43_newline_refuted.
(** The report has a section for each kind of change with the number of the
    changes and their lines, and the sum of the numbers at the end. *)
Theorem C43_report : forall r base comparison c, exists body total,
  write_text r base comparison c = text "Base: " ++ base ++ text " " ++ [10] ++ text "Comparison: " ++ comparison ++ [10] ++ body
    ++ [10] ++ dashes ++ [10] ++ text "Total changes: " ++ total ++ [10] ++ dashes ++ [10]
  /\ sections body (report_sections r c)
  /\ numeral total (fold_right (fun x a => snd (fst x) + a) 0 (report_sections r c)).
Proof. exact write_text_sections. Qed.
Print Assumptions C43_report.
Example C43_report_example : map fst (report_sections e_show some_changes)
  = [("Keys deleted", 1); ("Keys added", 1); ("Keys modified", 1); ("Values deleted", 0); ("Values added", 1); ("Values modified", 1)]
  /\ map (fun x => List.length (snd x)) (report_sections e_show some_changes) = [1; 1; 2; 0; 1; 2]%nat.
Proof. split; vm_compute; reflexivity. Qed.
