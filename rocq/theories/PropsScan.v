(** The properties of the recovery scan: statements only, with a concrete case
    beside each. The specification is ScanSpec.v. *)
From Verif Require Import Base BaseFacts LayoutSpec Types Value Node Recover Parser TxLog TxSpec CellSpec
  ScanSpec ScanOpen ScanAll Demo DemoCell DemoTree DemoScan.

(** The file as the scan reads it: bins begin at 4096; nothing found yet. *)
Definition scanned (buffer : list N) : file_info := mkFI 4096 buffer.
Definition nothing_found (full : bool) (hash : list N -> N) : state := mkState 0 full [] hash [] [] [] [].

(** C38. [l] are the cells of the file (as it was before logs were applied). *)
Theorem C38_recovered_items : forall order fuel hash full buffer files p,
  known_file_type buffer -> build order fuel hash true full buffer files = Ok p ->
  exists l, sweep buffer (num_at buffer 40 4) 4096 l
  /\ forall n f anc m post ks k, iterate n p f anc m post = Ok ks -> In k ks ->
     (is_deleted_primary_file (kn_state k) = true -> key_reported (scanned buffer) (nothing_found full hash) l k)
     /\ forall v, In v (kn_values k) -> is_deleted_primary_file (kv_state v) = true ->
        value_reported (scanned buffer) (nothing_found full hash) l v.
Proof.
  intros order fuel hash full buffer files p K B. destruct (recovered_items buffer full hash order fuel files p K B) as (l & S & H).
  exists l. split; [exact S|]. intros n f anc m post ks k I X. specialize (H _ _ _ _ _ _ I). rewrite Forall_forall in H.
  destruct (H k X) as [A C]. split; [exact A|]. intros v V. rewrite Forall_forall in C. exact (C v V).
Qed.
Print Assumptions C38_recovered_items.
(** The cells are one list, and do not overlap. *)
Theorem C38_cells : forall buffer n o l, sweep buffer n o l ->
  (forall l', sweep buffer n o l' -> l' = l)
  /\ forall x y, In x l -> In y l -> x < y -> x + size_at buffer x <= y.
Proof. intros buffer n o l S. split; [intros l' S'; symmetry; exact (sweep_fun _ _ _ _ S _ S')|exact (proj2 (sweep_after _ _ _ _ S))]. Qed.
Print Assumptions C38_cells.
(** No allocated cell is reported. *)
Theorem C38_allocated_never_recovered_partial : forall order fuel hash full buffer files p l,
  known_file_type buffer -> build order fuel hash true full buffer files = Ok p ->
  sweep buffer (num_at buffer 40 4) 4096 l -> Forall (fun c => 6 <= size_at buffer c) l ->
  forall n f anc m post ks k c, iterate n p f anc m post = Ok ks -> In k ks -> In c l -> (i32_at buffer c < 0)%Z ->
  (is_deleted_primary_file (kn_state k) = true -> kn_offset k <> c)
  /\ forall v, In v (kn_values k) -> is_deleted_primary_file (kv_state v) = true -> kv_offset v <> c.
Proof.
  intros order fuel hash full buffer files p l K B S F n f anc m post ks k c I X C NEG.
  destruct (C38_recovered_items order fuel hash full buffer files p K B) as (l' & S' & H).
  rewrite <- (sweep_fun _ _ _ _ S _ S') in H. destruct (H _ _ _ _ _ _ _ I X) as [HK HV].
  pose proof (proj2 (sweep_after _ _ _ _ S)) as AP. split.
  - intros D E. destruct (HK D) as [((_ & P) & _)|(hi & IN & LT & _)]; [cbn [scanned fi_buffer] in P; rewrite E in P; lia|].
    exact (inside_not_cell _ _ _ _ _ AP F IN C LT E).
  - intros v V D E. destruct (HV v V D) as [((_ & P) & _)|(hi & IN & LT & _)]; [cbn [scanned fi_buffer] in P; rewrite E in P; lia|].
    exact (inside_not_cell _ _ _ _ _ AP F IN C LT E).
Qed.
Print Assumptions C38_allocated_never_recovered_partial.
Lemma scan_known : known_file_type scan_hive.
Proof. left. vm_compute. reflexivity. Qed.
Lemma scan_tiled : tiled scan_hive 12288 4096 scan_bins.
Proof. apply tiled_check. vm_compute. reflexivity. Qed.
(** What is shown of the demonstration hive: offset and state of each key and of
    each of its values. *)
Definition shown_items (r : res (list key_node)) : list (N * cell_state * list (N * cell_state)) :=
  match r with
  | Ok ks => map (fun k => (kn_offset k, kn_state k, map (fun v => (kv_offset v, kv_state v)) (kn_values k))) ks
  | _ => []
  end.
Definition scan_shown (buffer : list N) : list (N * cell_state * list (N * cell_state)) :=
  match build keep 0 no_hash true false buffer [] with
  | Ok p => shown_items (iterate 20 p None false false false)
  | _ => []
  end.
Example C38_example :
  known_file_type scan_hive
  /\ scan_shown scan_hive =
     [(4128, Allocated, [(4408, DeletedPrimaryFile); (4452, DeletedPrimaryFileSlack)]);
      (4320, DeletedPrimaryFile, []); (4216, Allocated, [])]
  /\ sweep scan_hive (num_at scan_hive 40 4) 4096 scan_cells
  /\ Forall (fun c => 6 <= size_at scan_hive c) scan_cells.
Proof.
  split; [exact scan_known|]. split; [vm_compute; reflexivity|]. split.
  - assert (E : num_at scan_hive 40 4 = 8192) by (vm_compute; reflexivity). rewrite E.
    change scan_cells with (swept 8192 scan_bins).
    apply (tiled_sweep _ _ 12288); [exact scan_tiled|vm_compute; discriminate|discriminate].
  - repeat constructor; vm_compute; discriminate.
Qed.
(** After a cell too small for a size and a signature, a live key is reported as
    deleted as well. *)
Theorem C38_tiny_cell_refuted : exists buffer c vs vs', known_file_type buffer /\ (i32_at buffer c < 0)%Z
  /\ In (c, Allocated, vs) (scan_shown buffer) /\ In (c, DeletedPrimaryFileSlack, vs') (scan_shown buffer).
Proof.
  exists tiny_hive, 4220, [], []. split; [left; vm_compute; reflexivity|]. split; [vm_compute; reflexivity|].
  assert (E : scan_shown tiny_hive = [(4128, Allocated, []); (4220, DeletedPrimaryFileSlack, []); (4220, Allocated, [])])
    by (vm_compute; reflexivity).
  rewrite E. split; [right; right; now left|right; now left].
Qed.
Print Assumptions C38_tiny_cell_refuted.

(** C39. The bins fill the file up to [e]; the first cell of the first bin is the
    root. What is missing: the bins that begin at or after the size of the bins
    data, as if that were an offset in the file. *)
Theorem C39_free_cells_partial : forall order fuel hash full buffer e bins,
  known_file_type buffer -> 4096 <= len buffer -> bytes_at buffer 0 4 = [114; 101; 103; 102] ->
  tiled buffer e 4096 bins -> e <= len buffer -> num_at buffer 40 4 <= e ->
  bin_header buffer 4096 -> nk_ok (rest_at buffer 4128) -> N.testbit (num_at buffer 4134 2) 2 = true ->
  exists p, build order fuel hash true full buffer [] = Ok p
  /\ forall n anc m ks, iterate n p None anc m false = Ok ks ->
     forall o l c, In (o, l) bins -> o < num_at buffer 40 4 -> In c l -> (0 < i32_at buffer c)%Z ->
     (nk_ok (rest_at buffer c) -> exists k, In k ks /\ kn_offset k = c
        /\ key_found (scanned buffer) (nothing_found full hash) (len buffer) DeletedPrimaryFile k)
     /\ (vk_ok (rest_at buffer c) -> exists k v, In k ks /\ In v (kn_values k) /\ kv_offset v = c
        /\ value_found (scanned buffer) (nothing_found full hash) (len buffer) DeletedPrimaryFile v).
Proof. intros order fuel hash full buffer. exact (covered buffer full hash order fuel). Qed.
Print Assumptions C39_free_cells_partial.
Example C39_example :
  known_file_type scan_hive /\ 4096 <= len scan_hive /\ bytes_at scan_hive 0 4 = [114; 101; 103; 102]
  /\ tiled scan_hive 12288 4096 scan_bins /\ 12288 <= len scan_hive /\ num_at scan_hive 40 4 <= 12288
  /\ bin_header scan_hive 4096 /\ nk_ok (rest_at scan_hive 4128) /\ N.testbit (num_at scan_hive 4134 2) 2 = true
  /\ In (4096, scan_cells) scan_bins /\ 4096 < num_at scan_hive 40 4
  /\ (0 < i32_at scan_hive 4320)%Z /\ nk_ok (rest_at scan_hive 4320)
  /\ (0 < i32_at scan_hive 4408)%Z /\ vk_ok (rest_at scan_hive 4408).
Proof.
  split; [exact scan_known|]. split; [vm_compute; discriminate|]. split; [vm_compute; reflexivity|]. split; [exact scan_tiled|].
  split; [vm_compute; discriminate|]. split; [vm_compute; discriminate|].
  split; [split; [vm_compute; discriminate|vm_compute; reflexivity]|].
  split; [vm_compute; repeat split; discriminate|]. split; [vm_compute; reflexivity|]. split; [now left|]. split; [vm_compute; reflexivity|].
  split; [vm_compute; reflexivity|]. split; [vm_compute; repeat split; discriminate|].
  split; [vm_compute; reflexivity|vm_compute; repeat split; discriminate].
Qed.
(** The free key of the last bin is not found, although the size in the header is
    that of both bins. *)
Theorem C39_last_bin_refuted : exists buffer bins o l c,
  known_file_type buffer /\ tiled buffer (4096 + num_at buffer 40 4) 4096 bins /\ len buffer = 4096 + num_at buffer 40 4
  /\ nk_ok (rest_at buffer 4128) /\ N.testbit (num_at buffer 4134 2) 2 = true
  /\ In (o, l) bins /\ In c l /\ (0 < i32_at buffer c)%Z /\ nk_ok (rest_at buffer c)
  /\ scan_shown buffer <> [] /\ ~ In c (map (fun x => fst (fst x)) (scan_shown buffer)).
Proof.
  exists scan_hive, scan_bins, 8192, [8224; 8312], 8224. split; [exact scan_known|].
  assert (E : num_at scan_hive 40 4 = 8192) by (vm_compute; reflexivity). rewrite E.
  split; [exact scan_tiled|]. split; [vm_compute; reflexivity|]. split; [vm_compute; repeat split; discriminate|].
  split; [vm_compute; reflexivity|]. split; [right; now left|]. split; [now left|]. split; [vm_compute; reflexivity|].
  split; [vm_compute; repeat split; discriminate|].
  assert (X : map (fun x => fst (fst x)) (scan_shown scan_hive) = [4128; 4320; 4216]) by (vm_compute; reflexivity). split.
  - intros N. rewrite N in X. discriminate X.
  - rewrite X. cbn. intuition discriminate.
Qed.
Print Assumptions C39_last_bin_refuted.
