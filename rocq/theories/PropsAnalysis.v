(** The properties of the comparison of the items before and after a log entry:
    statements only, with a concrete case beside each. The specification is
    AnalysisSpec.v. *)
From Coq Require Import Permutation.
From Verif Require Import Base BaseFacts Types Value Node Recover Parser TxLog TxSpec LiveSpec StoreSpec StoreFacts
  AnalysisSpec AnalysisFacts AnalysisStore AnalysisAll AnalysisReach AnalysisTrace LayoutSpec LayoutFacts Demo DemoCell DemoTree DemoLog DemoAnalysis DemoExport.

(** C40. A build goes through the states of [reached], and a comparison follows
    on another. *)
Theorem C40_build : forall order fuel full hash recover buffer files q,
  build order fuel hash recover full buffer files = Ok q -> reached order fuel full hash (ps_state q).
Proof. exact build_reached. Qed.
Print Assumptions C40_build.
Theorem C40_next : forall order fuel full hash old before prior seq now st after latest st',
  compares order fuel full hash old before prior seq now st after latest st' ->
  reached order fuel full hash st' /\ taken order fuel full hash now after latest.
Proof.
  intros order fuel full hash old before prior seq now st after latest st' [fi h zeros bf pr sq p p1 af lt p' logs T R I A G].
  split; [exact (reached_compare _ _ _ _ _ _ _ _ _ _ _ R G)|].
  exact (taken_next _ _ _ _ _ _ _ _ _ _ _ _ _ R (proj1 (taken_seen _ _ _ _ _ _ _ T)) I A G).
Qed.
Print Assumptions C40_next.
(** Opening a dirty hive with recovery: every applied entry is compared, in its
    turn, with the file as it was just before; up to the first entry after which
    the hive cannot be iterated, if there is one, which leaves a warning. The first
    comparison is with the items shown before, which have the number 0. A changed
    or deleted item that cannot be kept leaves one too. The state of the parser is
    the state after the last comparison. *)
Theorem C40_entries : forall order fuel full hash buffer files logs w p,
  bytes_ok buffer -> Forall bytes_ok files -> known_file_type buffer -> checksum_right buffer ->
  num_at buffer 4 4 <> num_at buffer 8 4 -> 0 < num_at buffer 8 4 ->
  parse_logs files = Ok (logs, w) -> logs <> [] ->
  build order fuel hash true full buffer files = Ok p ->
  exists es k before prior st,
    log_chain (num_at buffer 8 4) 0 logs es k
    /\ reached order fuel full hash st /\ st_modified_keys st = [] /\ st_modified_values st = []
    /\ taken order fuel full hash (mkFI 4096 buffer) before prior /\ first_items before prior
    /\ ((exists b' after latest st' i,
           history order fuel full hash (num_at buffer 40 4) (st_info (ps_state p)) (buffer, before, prior, st) es (b', after, latest, st')
           /\ patched k b' (ps_buffer p) /\ ps_state p = set_info i st')
        \/ (exists done e rest m, es = done ++ e :: rest
            /\ history order fuel full hash (num_at buffer 40 4) (st_info (ps_state p)) (buffer, before, prior, st) done m
            /\ unreadable_after fuel (num_at buffer 40 4) m e /\ In WarningTransactionLog (st_info (ps_state p)))).
Proof. exact build_history. Qed.
Print Assumptions C40_entries.
(** Two entries, the second of which brings a key back. *)
Definition two_entries : list (list N) := [log_file 2 [drop_alpha; back_alpha]].
Example C40_entries_example :
  bytes_ok dirty_hive /\ Forall bytes_ok two_entries /\ known_file_type dirty_hive /\ checksum_right dirty_hive
  /\ num_at dirty_hive 4 4 <> num_at dirty_hive 8 4 /\ 0 < num_at dirty_hive 8 4
  /\ (exists r, parse_logs two_entries = Ok r /\ map (fun l => len (tl_entries l)) (fst r) = [2])
  /\ exists p, build keep 20 whole true false dirty_hive two_entries = Ok p /\ ps_buffer p <> dirty_hive.
Proof.
  assert (B : forall l, forallb (fun b => b <? 256) l = true -> bytes_ok l).
  { intros l E. apply Forall_forall. intros b I. rewrite forallb_forall in E. apply N.ltb_lt. now apply E. }
  split; [apply B; vm_compute; reflexivity|]. split; [constructor; [apply B; vm_compute; reflexivity|constructor]|].
  split; [left; vm_compute; reflexivity|]. split; [vm_compute; reflexivity|]. split; [vm_compute; discriminate|]. split; [vm_compute; reflexivity|]. split.
  - refine (checked _ (fun r => beq (map (fun l => len (tl_entries l)) (fst r)) [2]) _ _ _); [|vm_compute; reflexivity]. intros r H. now apply beq_eq.
  - refine (checked _ (fun p => negb (beq (ps_buffer p) dirty_hive)) _ _ _); [|vm_compute; reflexivity].
    intros p H E. rewrite E in H. apply negb_true_iff in H. pose proof (proj2 (beq_eq dirty_hive dirty_hive) eq_refl) as R. rewrite R in H. discriminate H.
Qed.
(** A key is added to the versions under its path iff it was there before and is
    there afterwards with another hash; with what the file before the entry has. *)
Theorem C40_modified_keys : forall order fuel full hash old before prior seq now st after latest st',
  compares order fuel full hash old before prior seq now st after latest st' -> forall path,
  held beq path (st_modified_keys st') = held beq path (st_modified_keys st)
    ++ or_nothing (old_key old st seq ModifiedTransactionLog path) (changed (path, None) prior (sightings after)).
Proof.
  intros order fuel full hash old before prior seq now st after latest st' [fi h zeros bf pr sq p p1 af lt p' logs T R I A G] path.
  exact (modified_keys order fuel _ sq p p1 p' pr lt logs af (proj1 (taken_seen _ _ _ _ _ _ _ T)) I A G path).
Qed.
Print Assumptions C40_modified_keys.
(** The same for the values of a key that is live with all its values. *)
Theorem C40_modified_values : forall order fuel full hash old before prior seq now st after latest st',
  compares order fuel full hash old before prior seq now st after latest st' -> forall path name, live_at before path ->
  held pair_eqb (path, name) (st_modified_values st') = held pair_eqb (path, name) (st_modified_values st)
    ++ or_nothing (old_value old st seq ModifiedTransactionLog) (changed (path, Some name) prior (sightings after)).
Proof.
  intros order fuel full hash old before prior seq now st after latest st' [fi h zeros bf pr sq p p1 af lt p' logs T R I A G] path name L.
  exact (modified_values order fuel _ sq p p1 p' pr lt logs af (proj1 (taken_seen _ _ _ _ _ _ _ T)) I A G path name (taken_names _ _ _ _ _ _ _ _ T L zeros h (ps_state p))).
Qed.
Print Assumptions C40_modified_values.
(** A value is added to the deleted values of its key iff it was there before and
    is not afterwards; only deleted values that are back are taken out. [order] is
    any order of hash maps. *)
Theorem C40_deleted_values : forall order fuel full hash old before prior seq now st after latest st',
  (forall m, Permutation (order m) m) ->
  compares order fuel full hash old before prior seq now st after latest st' -> forall path, live_at before path ->
  exists g kept, all_gone prior (sightings after) g
  /\ held beq path (st_deleted_values st') = kept ++ values_of (old_value old st seq DeletedTransactionLog) path g
  /\ without (value_back latest path) (held beq path (st_deleted_values st)) kept.
Proof.
  intros order fuel full hash old before prior seq now st after latest st' O [fi h zeros bf pr sq p p1 af lt p' logs T R I A G] path L.
  exact (deleted_values order fuel _ sq p p1 p' pr lt logs af (proj1 (taken_seen _ _ _ _ _ _ _ T)) I A G O path
    (taken_names _ _ _ _ _ _ _ _ T L zeros h (ps_state p)) (proj2 (reached_nodup _ _ _ _ _ R))).
Qed.
Print Assumptions C40_deleted_values.
(** The same for the keys below a path. Missing: a deleted key of that very path
    that is back; see [C40_lost_children_refuted]. *)
Theorem C40_deleted_keys_partial : forall order fuel full hash old before prior seq now st after latest st',
  (forall m, Permutation (order m) m) ->
  compares order fuel full hash old before prior seq now st after latest st' -> forall path,
  live_below before path -> live_below before (parent_of path) ->
  (forall k, In k (held beq (parent_of path) (st_deleted_keys st)) -> kn_path k = path -> ~ key_back latest k) ->
  exists g kept, all_gone prior (sightings after) g
  /\ held beq path (st_deleted_keys st') = kept ++ keys_of (old_key old st seq DeletedTransactionLog) path g
  /\ without (key_back latest) (held beq path (st_deleted_keys st)) kept.
Proof.
  intros order fuel full hash old before prior seq now st after latest st' O [fi h zeros bf pr sq p p1 af lt p' logs T R I A G] path L L' NB.
  exact (deleted_keys order fuel _ sq p p1 p' pr lt logs af (proj1 (taken_seen _ _ _ _ _ _ _ T)) I A G O path
    (taken_paths _ _ _ _ _ _ _ _ T L zeros h (ps_state p)) (taken_paths _ _ _ _ _ _ _ _ T L' zeros h (ps_state p)) (proj1 (reached_nodup _ _ _ _ _ R)) NB).
Qed.
Print Assumptions C40_deleted_keys_partial.
(** The items kept for the next comparison are those shown after the entry. *)
Theorem C40_items : forall order fuel full hash old before prior seq now st after latest st',
  compares order fuel full hash old before prior seq now st after latest st' -> forall w,
  (aget item_key_eqb w latest = None <-> ~ In w (map fst (sightings after)))
  /\ (forall it, aget item_key_eqb w latest = Some it -> In (w, (Some (it_hash it), it_offset it)) (sightings after))
  /\ (NoDup (map fst (sightings after)) -> forall h off, In (w, (Some h, off)) (sightings after) ->
      aget item_key_eqb w latest = Some (mkItem h off (match aget item_key_eqb w prior with
        | Some o => if h =? it_hash o then it_seq o else seq | None => seq end))).
Proof.
  intros order fuel full hash old before prior seq now st after latest st' [fi h zeros bf pr sq p p1 af lt p' logs T R I A G] w.
  pose proof (proj1 (taken_seen _ _ _ _ _ _ _ T)) as D. split; [|split].
  - rewrite (latest_seen order fuel _ sq p p1 p' pr lt logs af D I A G w). clear. induction (sightings af) as [|e l IH]; [cbn; tauto|].
    cbn [first_seen map In]. destruct (item_key_eqb w (fst e)) eqn:E.
    + apply item_key_iff in E as ->. split; [discriminate|intros X; elim X; now left].
    + rewrite IH. split; [intros X [Y|Y]; [subst w; now rewrite (eqb_same item_key_eqb item_key_iff) in E|now apply X]|tauto].
  - exact (latest_last order fuel _ sq p p1 p' pr lt logs af D I A G w).
  - intros N x off. exact (latest_once order fuel _ sq p p1 p' pr lt logs af D I A G w x off N).
Qed.
Print Assumptions C40_items.
(** A concrete case: one entry unlinks the only subkey of a key and changes a value
    of the root. *)
Example C40_example : exists old before prior st after latest st',
  compares keep 20 false whole old before prior 2 (mkFI (fi_hbin old) demo_after) st after latest st'
  /\ (forall path, live_at before path /\ live_below before path)
  /\ map kn_name (held beq [92; 82; 92; 65; 108; 112; 104; 97] (st_deleted_keys st')) = [[98; 195; 169; 116; 97]]
  /\ map (fun v => vd_bytes (kv_detail v)) (held pair_eqb ([92; 82], [120]) (st_modified_values st')) = [Some [1; 0; 0; 0]]
  /\ length (sightings after) = 5%nat
  /\ (forall path, held beq path (st_deleted_keys st) = []).
Proof.
  destruct (compared keep 20 whole dirty_hive demo_after demo_facts demo_checked) as (old & before & prior & st & after & latest & st' & X & A & B & C & E & F).
  exists old, before, prior, st, after, latest, st'. split; [exact X|].
  split; [intros path; now apply all_live_at|]. split; [exact B|split; [exact C|split; [exact E|]]].
  intros path. now rewrite F.
Qed.
(** A finding: what an entry removes right below the root key is never shown. The
    same removal one level deeper is. *)
Theorem C40_root_items_refuted :
  In [92; 82; 92; 103; 97; 109; 109; 97] (map (fun x => fst (fst x)) (seen []))
  /\ ~ In [92; 82; 92; 103; 97; 109; 109; 97] (map (fun x => fst (fst x)) (seen [drop_gamma]))
  /\ In ([92; 82; 92; 65; 108; 112; 104; 97; 92; 98; 195; 169; 116; 97], DeletedTransactionLog) (map fst (seen [drop_beta])).
Proof. vm_compute. repeat split; [tauto| |tauto]. intros X. repeat (destruct X as [X|X]; [discriminate X|]). exact X. Qed.
Print Assumptions C40_root_items_refuted.
(** Another: a key and its subkey are removed by one entry; the next entry brings
    the key back without the subkey. The subkey is deleted but not shown. *)
Theorem C40_lost_children_refuted :
  In [92; 82; 92; 65; 108; 112; 104; 97; 92; 98; 195; 169; 116; 97] (map (fun x => fst (fst x)) (seen []))
  /\ In ([92; 82; 92; 65; 108; 112; 104; 97], Allocated) (map fst (seen [drop_alpha; back_alpha]))
  /\ ~ In [92; 82; 92; 65; 108; 112; 104; 97; 92; 98; 195; 169; 116; 97] (map (fun x => fst (fst x)) (seen [drop_alpha; back_alpha])).
Proof. vm_compute. repeat split; [tauto|tauto|]. intros X. repeat (destruct X as [X|X]; [discriminate X|]). exact X. Qed.
Print Assumptions C40_lost_children_refuted.
