(** The property of a run of the compare tool over two folders: statements only,
    with a concrete case beside each. The specifications are FolderSpec.v,
    CompareSpec.v and CompareRunSpec.v. *)
From Coq Require Import String Permutation.
From Verif Require Import Base BaseFacts Util UtilSpec UtilText LayoutSpec LayoutFacts BaseBlock Types Value Node Recover Parser TxLog TxSpec
  CellSpec CellList TreeSpec TreeCount TreeOpen Log Export ExportSpec Compare CompareSpec CompareFacts CompareTree TreeSession PartSpec PartFacts Folder FolderSpec FolderFacts Dump
  CompareRun CompareRunSpec CompareRunFacts Demo DemoCell DemoTree DemoCompare DemoExport.
Open Scope string_scope.
Open Scope N_scope.
Open Scope list_scope.

(** ** C69 *)
(** A run that goes through leaves the result of each pair under the name of the
    hive of the base: its report, or nothing when one of the two cannot be opened.
    The output folder is otherwise as it was. *)
Theorem C69_outputs : forall o n c base comparison outs final, plain_folder base -> NoDup (map fst comparison) ->
  compare_folders o n c base comparison outs = Finished final ->
  (forall p x y, paired (cc_skip_logs c) base comparison p x y -> exists name, named_after p (compare_extension c) name
     /\ match compare_pair o n c p x y with
        | Reported out => output final name = Some out
        | Failed => output final name = Some []
        | PairAborted | PairEndless => False
        end)
  /\ (forall name, output final name <> output outs name -> exists p x y, paired (cc_skip_logs c) base comparison p x y /\ named_after p (compare_extension c) name).
Proof. intros o n c base comparison outs final PF ND. exact (compare_outputs o n c base comparison (proj1 PF) ND PF outs final). Qed.
Print Assumptions C69_outputs.
(** It goes through when each of the pairs can be compared or cannot be opened. *)
Theorem C69_complete : forall o n c base comparison outs, (forall m, Permutation (co_map_order o m) m) -> NoDup (map fst base) -> NoDup (map fst comparison) ->
  (forall p x y, paired (cc_skip_logs c) base comparison p x y -> comparable o n x y) ->
  exists final, compare_folders o n c base comparison outs = Finished final.
Proof.
  intros o n c base comparison outs PO ND ND' H. apply (compare_ended o n c base comparison).
  intros p x y P. exact (pair_ends o n c p x y PO (H p x y P)).
Qed.
Print Assumptions C69_complete.
(** The report of a pair of hives is read back as the changes between their trees,
    under the filter of the command line, whatever the other files are. *)
Theorem C69_report : forall o n c base comparison outs final p x y t1 t2, plain_folder base -> NoDup (map fst comparison) -> (forall m, Permutation (co_map_order o m) m) ->
  compare_folders o n c base comparison outs = Finished final -> cc_diff c = false ->
  paired (cc_skip_logs c) base comparison p x y -> opens_as o n x t1 -> opens_as o n y t2 ->
  exists name ks1 ks2 g body total, named_after p (text "txt") name
  /\ shown ks1 (listed (compare_filter c) t1) /\ shown ks2 (listed (compare_filter c) t2) /\ originals t1 g
  /\ (no_collision (co_hash o) ks1 ks2 -> compared ks1 ks2 g)
  /\ output final name = Some (text "Base: " ++ co_shown o true p ++ text " " ++ [10] ++ text "Comparison: " ++ co_shown o false p ++ [10] ++ body
       ++ [10] ++ dashes ++ [10] ++ text "Total changes: " ++ total ++ [10] ++ dashes ++ [10])
  /\ sections body (report_sections (co_render o) g) /\ numeral total (fold_right (fun x a => snd (fst x) + a) 0 (report_sections (co_render o) g)).
Proof.
  intros o n c base comparison outs final p x y t1 t2 PF ND PO E D P H1 H2. destruct (C69_outputs o n c base comparison outs final PF ND E) as (A & _).
  destruct (A p x y P) as (name & NM & O). destruct (pair_compared o n c p x y t1 t2 PO H1 H2) as (q1 & q2 & ks1 & ks2 & g & _ & _ & S1 & S2 & OG & CM & R).
  rewrite R, D in O. unfold compare_extension in NM. rewrite D in NM.
  destruct (write_text_sections (co_render o) (co_shown o true p) (co_shown o false p) g) as (body & total & W & SE & NU). rewrite W in O.
  exists name, ks1, ks2, g, body, total. repeat (split; [assumption|]). assumption.
Qed.
Print Assumptions C69_report.
(** So is the diff, when no line that it shows has a line break in it. *)
Theorem C69_diff : forall o n c base comparison outs final p x y t1 t2, plain_folder base -> NoDup (map fst comparison) -> (forall m, Permutation (co_map_order o m) m) ->
  compare_folders o n c base comparison outs = Finished final -> cc_diff c = true ->
  paired (cc_skip_logs c) base comparison p x y -> opens_as o n x t1 -> opens_as o n y t2 ->
  exists name ks1 ks2 g out, named_after p (text "diff") name
  /\ shown ks1 (listed (compare_filter c) t1) /\ shown ks2 (listed (compare_filter c) t2) /\ originals t1 g
  /\ (no_collision (co_hash o) ks1 ks2 -> compared ks1 ks2 g)
  /\ output final name = Some out
  /\ (Forall (fun h => Forall (fun x => ~ In 10 x) (fst h ++ snd h)) (all_hunks (co_render o) g) ->
      exists body, out = text "--- " ++ co_shown o true p ++ [10] ++ text "+++ " ++ co_shown o false p ++ [10] ++ body /\ hunks 1 1 body (all_hunks (co_render o) g)).
Proof.
  intros o n c base comparison outs final p x y t1 t2 PF ND PO E D P H1 H2. destruct (C69_outputs o n c base comparison outs final PF ND E) as (A & _).
  destruct (A p x y P) as (name & NM & O). destruct (pair_compared o n c p x y t1 t2 PO H1 H2) as (q1 & q2 & ks1 & ks2 & g & _ & _ & S1 & S2 & OG & CM & R).
  rewrite R, D in O. unfold compare_extension in NM. rewrite D in NM.
  eexists name, ks1, ks2, g, _. repeat (split; [eassumption|]). intros NL. exact (write_diff_hunks _ _ _ _ NL).
Qed.
Print Assumptions C69_diff.

(** What is listed under the filter is the part of the tree at and below the path
    of the command line. *)
Theorem C69_part : forall o n c x t segs, opens_as o n x t -> asked (cc_filter c) segs -> listed (compare_filter c) t = part segs t.
Proof.
  intros o n c x t segs (q & _ & H & _) A. destruct (hive_session _ _ _ H) as (b & fs & S). destruct (session_opened _ _ _ _ S) as (O & _).
  exact (listed_part (cc_filter c) segs t q O A).
Qed.
Print Assumptions C69_part.
Example C69_part_example : asked (Some (text "gamma")) [text "gamma"] /\ List.length (part [text "gamma"] demo_tree) = 1%nat /\ List.length (part [text "gamma"] other_tree) = 1%nat.
Proof.
  split; [|split; reflexivity]. split; [discriminate|]. split; [|now exists 0%nat]. split; [repeat constructor|].
  split; [constructor; [vm_compute; intuition discriminate|constructor]|]. split; vm_compute; discriminate.
Qed.

(** Two folders: one hive in both, one that cannot be opened, one in the base only
    and one in the other only. *)
Definition k_base : folder := [([text "SYSTEM"], demo_hive); ([text "SAM"], [5]); ([text "Users"; text "bob"; text "ntuser.dat"], other_hive)].
Definition k_comparison : folder := [([text "SYSTEM"], other_hive); ([text "SAM"], demo_hive); ([text "SECURITY"], demo_hive)].
Definition k_out : compare_outside := mkCompareOutside keep keep pack e_show (fun s _ => if s then text "base" else text "other").
Definition k_choices : compare_choices := mkCompareChoices None false true.
Lemma k_demo : opens_as k_out 20 (demo_hive, []) demo_tree /\ opens_as k_out 20 (other_hive, []) other_tree.
Proof.
  destruct demo_header as (K1 & G1 & R1 & C1). destruct other_header as (K2 & G2 & R2 & C2). destruct demo_distinct as (D1 & D2).
  destruct (hive_opens keep 20 pack false demo_hive demo_tree K1 G1 demo_is_hive) as (p1 & E1 & B1 & _).
  destruct (hive_opens keep 20 pack false other_hive other_tree K2 G2 other_is_hive) as (p2 & E2 & B2 & _).
  split; [exists p1|exists p2].
  - split; [exact E1|]. split; [|vm_compute; lia]. split; [exists keep, 20%nat, false, demo_hive, []; now split|]. rewrite B1. split; [exact demo_is_hive|]. split; [exact R1|]. split; [exact C1|exact D1].
  - split; [exact E2|]. split; [|vm_compute; lia]. split; [exists keep, 20%nat, false, other_hive, []; now split|]. rewrite B2. split; [exact other_is_hive|]. split; [exact R2|]. split; [exact C2|exact D2].
Qed.
Lemma k_pairs p x y : paired true k_base k_comparison p x y ->
  p = [text "SYSTEM"] /\ x = (demo_hive, []) /\ y = (other_hive, []) \/ p = [text "SAM"] /\ x = ([5], []) /\ y = (demo_hive, []).
Proof.
  destruct x as [b l], y as [b' l']. intros (I & H & U & I' & _ & U'). cbn [used_logs fst snd] in *. subst l l'. unfold k_base, k_comparison in I, I'. cbn [In] in I, I'.
  destruct I as [I|[I|[I|[]]]]; apply pair_equal_spec in I as (<- & <-); destruct I' as [I'|[I'|[I'|[]]]]; pose proof (f_equal fst I') as N; vm_compute in N; try discriminate N;
    apply (f_equal snd) in I'; cbn [snd] in I'; rewrite <- I'; tauto.
Qed.
Example C69_folders : plain_folder k_base /\ NoDup (map fst k_comparison) /\ paired true k_base k_comparison [text "SYSTEM"] (demo_hive, []) (other_hive, [])
  /\ (forall p x y, paired true k_base k_comparison p x y -> comparable k_out 20 x y).
Proof.
  split; [|split; [|split]].
  - assert (X : forall p b, In (p, b) k_base -> p = [text "SYSTEM"] \/ p = [text "SAM"] \/ p = [text "Users"; text "bob"; text "ntuser.dat"]).
    { intros p b I. apply (in_map fst) in I. cbn [k_base map fst In] in I. intuition. }
    split; [|split].
    + unfold k_base. cbn [map fst]. repeat (constructor; [vm_compute; intuition discriminate|]). constructor.
    + intros p b I _ dirs name E. apply X in I as [I|[I|I]]; rewrite I in E; apply (f_equal (@removelast _)) in E; rewrite removelast_last in E; subst dirs; vm_compute;
        repeat constructor; intuition discriminate.
    + intros dirs n1 n2 b1 b2 I1 I2 _ _ S0. apply X in I1, I2. destruct I1 as [A|[A|A]], I2 as [B|[B|B]];
        pose proof (f_equal (@removelast _) A) as D1; pose proof (f_equal (@removelast _) B) as D2; rewrite removelast_last in D1, D2;
        pose proof (f_equal (fun l => List.last l []) A) as L1; pose proof (f_equal (fun l => List.last l []) B) as L2; cbn beta in L1, L2; rewrite last_snoc in L1, L2;
        rewrite L1, L2; try reflexivity; try (rewrite D1 in D2; vm_compute in D2; discriminate D2);
        apply to_lower_same in S0; rewrite L1, L2 in S0; vm_compute in S0; discriminate S0.
  - unfold k_comparison. cbn [map fst]. repeat (constructor; [vm_compute; intuition discriminate|]). constructor.
  - split; [now left|]. split; [apply hive_iff; vm_compute; reflexivity|]. split; [reflexivity|]. split; [now left|]. split; [|reflexivity]. cbn [fst]. intros X. apply (f_equal (@List.length _)) in X. vm_compute in X. discriminate X.
  - intros p x y P. apply k_pairs in P as [(_ & -> & ->)|(_ & -> & ->)].
    + right. split; [exists demo_tree; apply k_demo|]. right. exists other_tree. apply k_demo.
    + left. vm_compute. reflexivity.
Qed.

(** The conditions are needed: a key whose name ends in a backslash and that is no
    longer there aborts the run, and the pairs after it are not compared. *)
Definition slash_hive : list N :=
  header 1 1 32 4096 ++ hbin_head 0 4096 ++ nk_bytes (tree_nk 0x2C 1 208 0 (-1)%Z 1 7) n_root
  ++ nk_bytes (tree_nk 0x20 0 (2 ^ 32 - 1) 0 (-1)%Z 2 6) (text "a\") ++ cell (list_content [108; 102] [120]) ++ repeat 0 64.
Definition bare_hive : list N :=
  header 1 1 32 4096 ++ hbin_head 0 4096 ++ nk_bytes (tree_nk 0x2C 0 (2 ^ 32 - 1) 0 (-1)%Z 1 7) n_root ++ repeat 0 64.
Theorem C69_backslash_refuted :
  compare_folders (mkCompareOutside keep keep no_hash e_show (fun _ _ => [])) 20 k_choices [([text "SAM"], slash_hive); ([text "SYSTEM"], bare_hive)]
    [([text "SAM"], bare_hive); ([text "SYSTEM"], bare_hive)] [] = Stopped [].
Proof. vm_compute. reflexivity. Qed.
Print Assumptions C69_backslash_refuted.
